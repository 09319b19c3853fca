(** Permissions, frozen states and account checks: C13, C15, C16, C18, C19, C27, C28, C33, C39. *)
From Coq Require Import ZArith List Bool Lia.
From Verif Require Import Base Ratio Calc State Controller Inversion ProcInv Spec CalcProofs InvProofs
  TokProofs AccessProofs ShapeProofs Concrete ConcreteReach.
Import ListNotations.
Open Scope Z_scope.

Lemma strip_listing l l' : map strip l' = map strip l -> map listing l' = map listing l.
Proof.
  revert l. induction l' as [|x l' IH]; intros [|y l] He; try discriminate; auto.
  injection He as E1 E2 E3 E4 E5 He. cbn. f_equal; auto. unfold listing. congruence.
Qed.

(* ------------------------------------------------------------------ *)
(** C13. While the pool is rebalancing, the only instructions that succeed are EndRebalance, SetAdmin
    and edits of the disable-authority list. *)
Theorem C13_only_these D E C w accs ix w' :
  derive_ok D -> reachable D w -> pool_is_rebalancing w -> process D E C w accs ix = Ok w' ->
  match ix with
  | EndRebalance | SetAdmin | AddDisablePoolAuthority | RemoveDisablePoolAuthority _ => True
  | _ => False
  end.
Proof.
  intros HD Hr (ps & Hp & Hb) H. destruct (reachable_inv D HD w Hr) as (_ & HF).
  unfold flag_inv in HF. rewrite Hp in HF.
  assert (Hd : is_disabled ps = 0) by (destruct HF as [(? & _)|(_ & ? & _)]; congruence).
  destruct (process_pool_effect D _ _ _ _ _ _ _ H Hp) as (ps' & _ & He).
  destruct He; try exact I; try (destruct ix; try exact I; tauto);
    repeat match goal with H : active _ |- _ => destruct H end; try congruence.
  destruct ix; try exact I; try tauto;
      repeat match goal with H : _ /\ _ |- _ => destruct H end;
      repeat match goal with H : active _ |- _ => destruct H end; congruence.
Qed.

(** Between StartRebalance and EndRebalance, whatever happens, the LST list (every field), the
    rebalance record, and every pool field except the admin stay as they are. *)
Theorem C13_frozen D w w' :
  derive_ok D -> reachable D w -> steps_within D pool_is_rebalancing w w' ->
  the_list w' = the_list w /\ the_record w' = the_record w /\
  exists ps ps', the_pool w = Some ps /\ the_pool w' = Some ps' /\ set_admin_key ps' (admin ps) = ps.
Proof.
  intros HD Hr Hs.
  assert (HH : reachable D w' /\ pool_is_rebalancing w' /\ the_list w' = the_list w /\
    the_record w' = the_record w /\
    exists ps ps', the_pool w = Some ps /\ the_pool w' = Some ps' /\ set_admin_key ps' (admin ps) = ps);
    [|tauto].
  induction Hs as [w Hw | w1 w2 w3 Hs IH Hst Hw3].
  - repeat split; auto. destruct Hw as (ps & Hp & _). exists ps, ps. repeat split; auto. now destruct ps.
  - destruct (IH Hr) as (R2 & B2 & L2 & K2 & ps & ps2 & P1 & P2 & A2). clear IH.
    assert (R3 : reachable D w3).
    { destruct R2 as (w0 & Hg & H0). exists w0. split; auto. eapply steps_cons; eauto. }
    split; [exact R3|]. split; [exact Hw3|].
    destruct Hst as [Hx|E C accs ix Hpd H].
    + rewrite (x_list _ _ _ Hx), (x_rec _ _ _ Hx), (x_pool _ _ _ Hx). eauto 8.
    + pose proof (C13_only_these D E C w2 accs ix w3 HD R2 B2 H) as Hix.
      destruct (process_pool_effect D _ _ _ _ _ _ _ H P2) as (ps3 & P3 & He).
      destruct (reachable_inv D HD w2 R2) as ((l & au & Hl & _) & _).
      destruct (process_list_effect D _ _ _ _ _ _ _ H Hl) as (l3 & L3 & Hle).
      pose proof (process_rec_effect D _ _ _ _ _ _ H) as Hre.
      destruct ix; try tauto.
      * (* SetAdmin *) split; [|split; [congruence|]].
        -- destruct Hle as [(? & _)|(? & _ & Hle)]; [discriminate|]. inversion Hle; subst; [tauto|congruence].
        -- inversion He; subst; try tauto. exists ps, (set_admin_key ps2 k). repeat split; auto.
      * split; [|split; [congruence|]].
        -- destruct Hle as [(? & _)|(? & _ & Hle)]; [discriminate|]. inversion Hle; subst; [tauto|congruence].
        -- inversion He; subst; try tauto. exists ps, ps3. auto.
      * split; [|split; [congruence|]].
        -- destruct Hle as [(? & _)|(? & _ & Hle)]; [discriminate|]. inversion Hle; subst; [tauto|congruence].
        -- inversion He; subst; try tauto. exists ps, ps3. auto.
      * (* EndRebalance leaves the rebalancing state *)
        exfalso. inversion He; subst; try tauto.
        destruct Hw3 as (q & Hq & Hqr). assert (q = set_total (set_rebalancing ps2 0) v) by congruence.
        subst q. cbn in Hqr. congruence.
Qed.

(** EndRebalance (like every instruction except listing changes) leaves mints, calculators, flags and
    bumps of the list alone. *)
Theorem C13_end_keeps_listing D E C w accs w' l :
  process D E C w accs EndRebalance = Ok w' -> the_list w = Some l ->
  exists l', the_list w' = Some l' /\ map listing l' = map listing l.
Proof.
  intros H Hl. destruct (process_list_effect D _ _ _ _ _ _ _ H Hl) as (l' & Hl' & [(? & _)|(ps & _ & He)]);
    [discriminate|]. exists l'. split; auto. inversion He; subst; [now apply strip_listing|tauto].
Qed.

Lemma W9_rebalancing : pool_is_rebalancing W9.
Proof.
  exists (match the_pool W9 with Some p => p | None => mkPool 0 0 0 0 0 0 0 0 0 0 0 end).
  split; [vm_compute; reflexivity|]. vm_compute. discriminate.
Qed.
(* a rebalancing pool reached by a real history: sync, swaps and listing edits are refused,
   an authority edit and the end of the rebalance are accepted *)
Example C13_case : reachable D0 W9 /\ pool_is_rebalancing W9 /\
  process D0 E0 C0 W9 sync_accs (SyncSolValue 1) = Err (Ctl PoolRebalancing) /\
  process D0 E0 C0 W9 swap_accs (SwapExactIn swap_in_args) = Err (Ctl PoolRebalancing) /\
  process D0 E0 C0 W9 lst_input_accs (DisableLstInput 1) = Err (Ctl PoolRebalancing) /\
  okb (process D0 E0 C0 W9 add_auth_accs AddDisablePoolAuthority) = true /\
  okb R11 = true.
Proof.
  split; [exact W9_reach|]. split; [exact W9_rebalancing|]. repeat split; vm_compute; reflexivity.
Qed.

(* ------------------------------------------------------------------ *)
(** C15. While the pool is disabled only EnablePool, SetAdmin and edits of the disable-authority list
    succeed; no token, list entry, record or pool figure changes. *)
Theorem C15_disabled_inert D E C w accs ix w' :
  derive_ok D -> reachable D w -> pool_is_disabled w -> process D E C w accs ix = Ok w' ->
  match ix with
  | EnablePool | SetAdmin | AddDisablePoolAuthority | RemoveDisablePoolAuthority _ => True
  | _ => False
  end /\
  same_tokens w w' /\ the_list w' = the_list w /\ the_record w' = the_record w /\
  exists ps ps', the_pool w = Some ps /\ the_pool w' = Some ps' /\
    set_disabled (set_admin_key ps' (admin ps)) (is_disabled ps) = ps.
Proof.
  intros HD Hr (ps & Hp & Hb) H. destruct (reachable_inv D HD w Hr) as ((l & au & Hl & _) & HF).
  unfold flag_inv in HF. rewrite Hp in HF.
  assert (Hd : is_rebalancing ps = 0) by (destruct HF as [(? & _)|(_ & ? & _)]; congruence).
  destruct (process_pool_effect D _ _ _ _ _ _ _ H Hp) as (ps' & Hp' & He).
  assert (Hix : match ix with
    | EnablePool | SetAdmin | AddDisablePoolAuthority | RemoveDisablePoolAuthority _ => True
    | _ => False end).
  { destruct He; try exact I;
      repeat match goal with H : active _ |- _ => destruct H end; try congruence.
    destruct ix; try exact I; try tauto;
      repeat match goal with H : _ /\ _ |- _ => destruct H end;
      repeat match goal with H : active _ |- _ => destruct H end; congruence. }
  split; [exact Hix|].
  destruct (process_list_effect D _ _ _ _ _ _ _ H Hl) as (l' & Hl' & Hle).
  pose proof (process_rec_effect D _ _ _ _ _ _ H) as Hre.
  split; [|split; [|split]].
  - unfold process in H. apply guard_ok in H as (_ & H). destruct ix; try tauto.
    + apply set_admin_inv in H. exs. subst w'. split; reflexivity.
    + apply add_auth_inv in H. exs. subst w'. split; reflexivity.
    + apply remove_auth_inv in H. exs. subst w'. split; reflexivity.
    + apply enable_pool_inv in H. exs. subst w'. split; reflexivity.
  - destruct Hle as [(-> & _)|(? & _ & Hle)]; [tauto|].
    destruct ix; try tauto; inversion Hle; subst; try tauto; congruence.
  - destruct ix; try tauto; exact Hre.
  - exists ps, ps'. split; [exact Hp|]. split; [exact Hp'|].
    destruct ix; try tauto; inversion He; subst; try tauto; now destruct ps || (destruct ps'; reflexivity).
Qed.

Lemma W13_disabled : pool_is_disabled W13.
Proof.
  exists (match the_pool W13 with Some p => p | None => mkPool 0 0 0 0 0 0 0 0 0 0 0 end).
  split; [vm_compute; reflexivity|]. vm_compute. discriminate.
Qed.
Example C15_case : reachable D0 W13 /\ pool_is_disabled W13 /\
  process D0 E0 C0 W13 swap_accs (SwapExactIn swap_in_args) = Err (Ctl PoolDisabled) /\
  process D0 E0 C0 W13 withdraw_accs (WithdrawProtocolFees 5) = Err (Ctl PoolDisabled) /\
  okb R14 = true.
Proof.
  split; [exact W13_reach|]. split; [exact W13_disabled|]. repeat split; vm_compute; reflexivity.
Qed.

(* ------------------------------------------------------------------ *)
(** C16. Who must have signed for each kind of change. *)
Theorem C16_pool_settings D E C w accs ix w' ps ps' :
  process D E C w accs ix = Ok w' -> the_pool w = Some ps -> the_pool w' = Some ps' ->
  (admin ps' <> admin ps -> signed_by accs (admin ps)) /\
  (trading_protocol_fee_bps ps' <> trading_protocol_fee_bps ps -> signed_by accs (admin ps)) /\
  (lp_protocol_fee_bps ps' <> lp_protocol_fee_bps ps -> signed_by accs (admin ps)) /\
  (pricing_program ps' <> pricing_program ps ->
     signed_by accs (admin ps) /\ w_exec w (pricing_program ps') = true) /\
  (protocol_fee_beneficiary ps' <> protocol_fee_beneficiary ps ->
     signed_by accs (protocol_fee_beneficiary ps)) /\
  (rebalance_authority ps' <> rebalance_authority ps ->
     signed_by accs (admin ps) \/ signed_by accs (rebalance_authority ps)) /\
  (is_disabled ps = 0 -> is_disabled ps' <> 0 ->
     signed_by accs (admin ps) \/
     exists au k, the_authorities w = Some au /\ In k au /\ signed_by accs k) /\
  (is_disabled ps <> 0 -> is_disabled ps' = 0 -> signed_by accs (admin ps)) /\
  (is_rebalancing ps' <> is_rebalancing ps -> signed_by accs (rebalance_authority ps)) /\
  lp_token_mint ps' = lp_token_mint ps /\ version ps' = version ps.
Proof.
  intros H Hp Hp'. destruct (process_pool_effect D _ _ _ _ _ _ _ H Hp) as (q & Hq & He).
  assert (q = ps') by congruence. subst q.
  destruct He; subst;
    try match goal with |- context [match ?x with Some _ => _ | None => _ end] => destruct x end;
    try match goal with |- context [match ?x with Some _ => _ | None => _ end] => destruct x end;
    cbn; csplit; try tauto; try congruence; auto.
  - intros _ _. match goal with H : exists _, _ |- _ => destruct H as (k & Hs & [->|(au & Ha & Hin)]) end; eauto 6.
  - intros _. match goal with H : exists _, _ |- _ => destruct H as (k' & Hs & [->| ->]) end; auto.
Qed.

Theorem C16_listing D E C w accs ix w' ps l l' :
  process D E C w accs ix = Ok w' -> the_pool w = Some ps ->
  the_list w = Some l -> the_list w' = Some l' ->
  map listing l' <> map listing l -> signed_by accs (admin ps).
Proof.
  intros H Hp Hl Hl' Hne.
  destruct (process_list_effect D _ _ _ _ _ _ _ H Hl) as (l2 & Hl2 & [(-> & ->)|(ps1 & Hp1 & He)]).
  - congruence.
  - assert (l2 = l') by congruence. subst l2.
    destruct (process_pool_effect D _ _ _ _ _ _ _ H Hp) as (ps' & _ & Hpe).
    destruct He; try congruence; try (exfalso; apply Hne; now apply strip_listing);
      inversion Hpe; subst; tauto.
Qed.

Theorem C16_authorities D E C w accs ix w' ps au au' :
  process D E C w accs ix = Ok w' -> the_pool w = Some ps ->
  the_authorities w = Some au -> the_authorities w' = Some au' -> au' <> au ->
  (ix = AddDisablePoolAuthority /\ signed_by accs (admin ps)) \/
  (exists i k, ix = RemoveDisablePoolAuthority i /\ nth_error au (Z.to_nat i) = Some k /\
     (signed_by accs (admin ps) \/ signed_by accs k)).
Proof.
  intros H Hp Ha Ha' Hne. pose proof (process_auth_effect D _ _ _ _ _ _ H) as He.
  destruct ix; try congruence.
  - left. destruct He as (ps1 & l & k & m & Hp1 & _ & Hs & _). split; auto. congruence.
  - right. destruct He as (ps1 & l & k & Hp1 & Hl & Hn & Hs & _). assert (l = au) by congruence. subst l.
    assert (ps1 = ps) by congruence. subst ps1. eauto 6.
Qed.

(** A rebalance is started and ended only under the rebalance authority's signature. *)
Theorem C16_rebalance D E C w accs ix w' ps :
  process D E C w accs ix = Ok w' -> the_pool w = Some ps ->
  match ix with
  | StartRebalance _ | EndRebalance => signed_by accs (rebalance_authority ps)
  | WithdrawProtocolFees _ => signed_by accs (protocol_fee_beneficiary ps)
  | AddLst | RemoveLst _ | DisableLstInput _ | EnableLstInput _ | SetSolValueCalculator _ | SetAdmin
  | SetProtocolFee _ _ | SetPricingProgram | EnablePool | AddDisablePoolAuthority =>
      signed_by accs (admin ps)
  | _ => True
  end.
Proof.
  intros H Hp. destruct (process_pool_effect D _ _ _ _ _ _ _ H Hp) as (ps' & _ & He).
  destruct ix; try exact I; inversion He; subst; tauto.
Qed.
(* the same calls without the signature, or signed by somebody else, fail *)
Example C16_case :
  okb (process D0 E0 C0 W12 [sg ADMIN; ro USER; rw POOL_STATE_ID] SetAdmin) = true /\
  okb (process D0 E0 C0 W12 [sg USER; ro USER; rw POOL_STATE_ID] SetAdmin) = false /\
  okb (process D0 E0 C0 W12 [ro ADMIN; ro USER; rw POOL_STATE_ID] SetAdmin) = false /\
  okb (process D0 E0 C0 W12 disable_accs DisablePool) = true /\
  okb (process D0 E0 C0 W11 disable_accs DisablePool) = false /\
  okb (process D0 E0 C0 W13 [sg USER; rw POOL_STATE_ID] EnablePool) = false /\
  okb (process D0 E0 C0 W12 [sg ADMIN; ro USER; rw POOL_STATE_ID] SetRebalanceAuthority) = true /\
  okb (process D0 E0 C0 W12 [sg USER; ro USER; rw POOL_STATE_ID] SetRebalanceAuthority) = false.
Proof. repeat split; vm_compute; reflexivity. Qed.

(* ------------------------------------------------------------------ *)
(** C18. An LST whose input is disabled is never taken in. *)
(** The list index and the mint account of the LST a call would take into the pool. *)
Definition taken_in (accs : list Meta) (ix : Ix) : option (Z * Meta) :=
  match ix with
  | SwapExactIn a => option_map (pair (si_src_lst_index a)) (nth_error accs 1)
  | SwapExactOut a => option_map (pair (so_src_lst_index a)) (nth_error accs 1)
  | AddLiquidity a => option_map (pair (al_lst_index a)) (nth_error accs 1)
  | StartRebalance a => option_map (pair (sr_dst_lst_index a)) (nth_error accs 5)
  | _ => None
  end.
Theorem C18_index D E C w accs ix w' l i m ls :
  process D E C w accs ix = Ok w' -> the_list w = Some l -> taken_in accs ix = Some (i, m) ->
  nth_error l (Z.to_nat i) = Some ls -> is_input_disabled ls = 0 /\ ls_mint ls = mk m.
Proof.
  intros H Hl Ht Hn. unfold process in H. apply guard_ok in H as (Hwf & H).
  unfold the_list in Hl. destruct ix; try discriminate; cbn in Ht.
  - apply swap_exact_in_inv in H; auto. unfold swap_facts, nth_lst in H. exs. subst accs. cbn in Ht.
    injection Ht as <- <-. assert (x4 = l) by congruence. subst.
    match goal with H1 : nth_error l ?n = Some ?a, H2 : nth_error l ?n = Some ?b |- _ =>
      tryif constr_eq a b then fail else assert (a = b) by congruence; subst end. auto.
  - apply swap_exact_out_inv in H; auto. unfold swap_facts, nth_lst in H. exs. subst accs. cbn in Ht.
    injection Ht as <- <-. assert (x4 = l) by congruence. subst.
    match goal with H1 : nth_error l ?n = Some ?a, H2 : nth_error l ?n = Some ?b |- _ =>
      tryif constr_eq a b then fail else assert (a = b) by congruence; subst end. auto.
  - apply add_liquidity_inv in H; auto. unfold liq_facts, nth_lst in H. exs. subst accs. cbn in Ht.
    injection Ht as <- <-. assert (x3 = l) by congruence. subst.
    match goal with H1 : nth_error l ?n = Some ?a, H2 : nth_error l ?n = Some ?b |- _ =>
      tryif constr_eq a b then fail else assert (a = b) by congruence; subst end. auto.
  - apply start_rebalance_inv in H.
    destruct H as (x1&x2&x3&x4&x5&x6&x7&x8&x9&x10&x11&x12&cs&cd&ps0&l0&lsrc&ldst&ts&td&w1&w2&ps2&w3&w4&ps4&
      Hacc & _ & _ & _ & _ & _ & _ & Hs & Hk & Hp & Hac & Hl0 & _ & Hnd & _ & Hm & Hdis & _).
    subst accs. cbn in Ht. injection Ht as <- <-. unfold nth_lst in Hnd.
    assert (ls = ldst) by congruence. subst. auto.
Qed.
Theorem C18_mint D E C w accs ix w' l i m ls :
  derive_ok D -> reachable D w -> process D E C w accs ix = Ok w' -> the_list w = Some l ->
  taken_in accs ix = Some (i, m) -> In ls l -> ls_mint ls = mk m -> is_input_disabled ls = 0.
Proof.
  intros HD Hr H Hl Ht Hin Hm. destruct (reachable_inv D HD w Hr) as ((l' & au & Hl' & _ & Hnd & _) & _).
  assert (l' = l) by congruence. subst l'.
  assert (Hex : exists ls', nth_error l (Z.to_nat i) = Some ls').
  { pose proof H as H0. unfold process in H. apply guard_ok in H as (Hwf & H).
    unfold the_list in Hl. destruct ix; try discriminate; cbn in Ht.
    - apply swap_exact_in_inv in H; auto. unfold swap_facts, nth_lst in H. exs. subst accs. cbn in Ht.
      injection Ht as <- <-. eexists. match goal with H1 : w_list w _ = Some ?x |- _ => assert (x = l) by congruence; subst x end. eassumption.
    - apply swap_exact_out_inv in H; auto. unfold swap_facts, nth_lst in H. exs. subst accs. cbn in Ht.
      injection Ht as <- <-. eexists. match goal with H1 : w_list w _ = Some ?x |- _ => assert (x = l) by congruence; subst x end. eassumption.
    - apply add_liquidity_inv in H; auto. unfold liq_facts, nth_lst in H. exs. subst accs. cbn in Ht.
      injection Ht as <- <-. eexists. match goal with H1 : w_list w _ = Some ?x |- _ => assert (x = l) by congruence; subst x end. eassumption.
    - apply start_rebalance_inv in H. unfold nth_lst in H. exs. subst accs. cbn in Ht. injection Ht as <- <-.
      eexists. match goal with H1 : w_list w _ = Some ?x |- _ => assert (x = l) by congruence; subst x end. eassumption. }
  destruct Hex as (ls' & Hn). destruct (C18_index _ _ _ _ _ _ _ _ _ _ _ H Hl Ht Hn) as (Hd & Hm').
  replace ls with ls'; auto.
  apply In_nth_error in Hin as (j & Hj).
  assert (j = Z.to_nat i).
  { rewrite NoDup_nth_error in Hnd. apply Hnd.
    - apply nth_error_Some. erewrite map_nth_error by eassumption. discriminate.
    - erewrite !map_nth_error by eassumption. congruence. }
  congruence.
Qed.
(* after DisableLstInput of MB: depositing it fails, redeeming it still works *)
Example C18_case : reachable D0 W16 /\
  process D0 E0 C0 W16 (liq_accs MB UB FB SPL_TOKEN_2022_ID RB CB) (AddLiquidity add_args_b)
    = Err (Ctl LstInputDisabled) /\
  okb (process D0 E0 C0 W16 (liq_accs MB UB FB SPL_TOKEN_2022_ID RB CB) (RemoveLiquidity rem_args)) = true /\
  okb (process D0 E0 C0 W16 swap_accs (SwapExactIn swap_in_args)) = true /\
  process D0 E0 (reb_ctx 0) W16 start_accs (StartRebalance start_args) = Err (Ctl LstInputDisabled).
Proof. split; [exact W16_reach|]. repeat split; vm_compute; reflexivity. Qed.

(* ------------------------------------------------------------------ *)
(** C19. Delisting removes exactly one worthless, empty LST. *)
Theorem C19_delist D E C w accs i w' :
  process D E C w accs (RemoveLst i) = Ok w' ->
  exists l1 ls l2 r f,
    the_list w = Some (l1 ++ ls :: l2) /\ length l1 = Z.to_nat i /\ the_list w' = Some (l1 ++ l2) /\
    the_pool w' = the_pool w /\ sol_value ls = 0 /\
    d_create D POOL_STATE_ID (w_owner w (ls_mint ls)) (ls_mint ls) (pool_reserves_bump ls) = Some r /\
    d_create D PROTOCOL_FEE_ID (w_owner w (ls_mint ls)) (ls_mint ls)
      (protocol_fee_accumulator_bump ls) = Some f /\
    balance w r = 0 /\ balance w f = 0 /\ w_tok w r <> None /\ w_tok w f <> None /\
    w_tok w' r = None /\ w_tok w' f = None /\
    (forall k, k <> r -> k <> f -> w_tok w' k = w_tok w k) /\ w_mint w' = w_mint w.
Proof.
  intros H. unfold process in H. apply guard_ok in H as (Hwf & H). apply remove_lst_inv in H.
  destruct H as (adm & rf & lm & pr & pfa & pfaa & pst & lsl & ltp & rest & ps & l & ls & tr & tf & w1 &
      w2 & Hacc & _ & _ & _ & _ & _ & _ & _ & _ & _ & Hp & _ & Hl & Hn & Hm & G1 & G2 & Htr & Htf & Hz & Z1 & Z2 &
      C1 & C2 & ->).
  unfold nth_lst in Hn. apply nth_error_split in Hn as (l1 & l2 & -> & Hlen).
  exists l1, ls, l2, (mk pr), (mk pfa). rewrite the_list_put.
  pose proof (close_ctl _ _ _ _ _ _ C1) as (P1 & _). pose proof (close_ctl _ _ _ _ _ _ C2) as (P2 & _).
  pose proof (close_mint _ _ _ _ _ _ C1) as (M1 & _). pose proof (close_mint _ _ _ _ _ _ C2) as (M2 & _).
  apply close_inv in C1 as (t1 & _ & T1 & _ & _ & _ & _ & W1). apply close_inv in C2 as (t2 & _ & T2 & _ & _ & _ & _ & W2).
  unfold the_pool, the_list, balance. rewrite Hm, Htr, Htf. cbn. rewrite W2, W1. cbn.
  csplit; auto; try congruence.
  - rewrite <- Hlen. f_equal. clear. induction l1; cbn; congruence.
  - apply upd_same.
  - destruct (Z.eq_dec (mk pfa) (mk pr)) as [->|N]; [apply upd_same|]. rewrite upd_other by auto. apply upd_same.
  - intros k N1 N2. now rewrite !upd_other by auto.
Qed.
Definition remove_accs := [sg ADMIN; rw PAYER; ro MB; rw RB; rw FB; rw PROTOCOL_FEE_ID; ro POOL_STATE_ID;
  rw LST_STATE_LIST_ID; ro SPL_TOKEN_2022_ID].
(* fresh LST: can be delisted; once it has value it cannot *)
Example C19_case :
  okb (process D0 E0 C0 W3 remove_accs (RemoveLst 1)) = true /\
  process D0 E0 C0 W5 remove_accs (RemoveLst 1) = Err (Ctl LstStillHasValue).
Proof. split; vm_compute; reflexivity. Qed.

(* ------------------------------------------------------------------ *)
(** C27. StartRebalance succeeds only if the end is scheduled in the same transaction... *)
Lemma end_ix_scheduled C m :
  (exists ix, In ix (skipn (S (cx_cur C)) (cx_ixs C)) /\ is_end_rebalance_ix ix m = true) <->
  end_scheduled C m.
Proof.
  unfold end_scheduled, is_end_rebalance_ix. split.
  - intros (ix & Hin & H). apply In_nth_error in Hin as (n & Hn).
    destruct (ti_data ix) as [|d data] eqn:Hd; [discriminate|].
    apply andb_true_iff in H as (H & H3). apply andb_true_iff in H as (H1 & H2).
    destruct (nth_error (ti_accs ix) 4) as [a|] eqn:Ha; [|discriminate].
    exists (S (cx_cur C) + n)%nat, ix, data, a. apply Z.eqb_eq in H1, H2, H3.
    unfold END_REBALANCE_IX_DISCM in H1. csplit; auto; try lia; try congruence.
    revert Hn. generalize (S (cx_cur C)). intros k. generalize (cx_ixs C). clear.
    induction k; intros [|x l] Hn; cbn in *; auto. now destruct n.
  - intros (n & ix & data & a & Hn & Hi & Hp & Hd & Ha & Hm). exists ix. split.
    + apply nth_error_In with (n := (n - S (cx_cur C))%nat).
      revert n Hn Hi. generalize (cx_cur C), (cx_ixs C). clear.
      intros k. induction k; intros [|x l] n Hn Hi; try (destruct n; discriminate).
      * destruct n; [lia|]. cbn in *. now replace (n - 0)%nat with n by lia.
      * destruct n; [lia|]. cbn in Hi. cbn [skipn]. replace (S n - S (S k))%nat with (n - S k)%nat by lia.
        apply IHk; auto. lia.
    + rewrite Hd, Hp, Ha, Hm, !Z.eqb_refl. reflexivity.
Qed.
Theorem C27_needs_end D E C w accs a w' :
  process D E C w accs (StartRebalance a) = Ok w' ->
  exists m, nth_error accs 5 = Some m /\ end_scheduled C (mk m).
Proof.
  intros H. unfold process in H. apply guard_ok in H as (Hwf & H). apply start_rebalance_inv in H.
  destruct H as (x1&x2&x3&x4&x5&x6&x7&x8&x9&x10&x11&x12&cs&cd&ps&l&lsrc&ldst&ts&td&w1&w2&ps2&w3&w4&ps4&
      Hacc & _ & _ & _ & _ & _ & _ & _ & _ & Hp & Hac & Hl & _ & Hnd & _ & _ & _ & _ & _ & _ & _ & _ & _ & _ & _ & Hend & _).
  subst accs. exists x6. split; [reflexivity|]. now apply end_ix_scheduled.
Qed.
(** ...and that is the only thing it asks of the rest of the transaction: a start accepted in one
    transaction is accepted, with the same effect, in any other that schedules the end. *)
Theorem C27_enough D E C C' w accs a w' m :
  process D E C w accs (StartRebalance a) = Ok w' ->
  nth_error accs 5 = Some m -> end_scheduled C' (mk m) ->
  process D E C' w accs (StartRebalance a) = Ok w'.
Proof.
  intros H Hm Hs. destruct (C27_needs_end _ _ _ _ _ _ _ H) as (m' & Hm' & Hs').
  assert (m' = m) by congruence. subst m'.
  apply end_ix_scheduled, scan_spec in Hs. apply end_ix_scheduled, scan_spec in Hs'.
  unfold process in *. apply guard_ok in H as (Hwf & H). rewrite Hwf. cbn [guard].
  unfold process_start_rebalance in *.
  do 12 (destruct accs as [|? accs]; [discriminate|]). cbn in Hm. injection Hm as ->.
  unfold verify_has_succeeding_end_rebalance_ix in *. rewrite Hs. rewrite Hs' in H. exact H.
Qed.
(** No other instruction looks at the surrounding transaction. *)
Theorem C27_others_ignore D E C C' w accs ix :
  (forall a, ix <> StartRebalance a) -> process D E C w accs ix = process D E C' w accs ix.
Proof. intros H. unfold process. destruct ix; try reflexivity. exfalso. now eapply H. Qed.
Example C27_case : okb R9 = true /\ end_scheduled (reb_ctx 0) MB /\
  process D0 E0 (reb_ctx 1) W8 start_accs (StartRebalance start_args) = Err (Ctl NoSucceedingEndRebalance).
Proof.
  split; [vm_compute; reflexivity|]. split; [|vm_compute; reflexivity].
  exists 1%nat, end_ix, [], (ro MB). repeat split. cbn. lia.
Qed.

(* ------------------------------------------------------------------ *)
(** C28. The account suffix is split, without gap or overlap, into one group per external program; each
    group starts with the program recorded on chain for that LST (or as pricing program). *)
Theorem C28_suffix_split D E C w accs ix w' :
  process D E C w accs ix = Ok w' ->
  match ix with
  | SwapExactIn (mkSwapIn n m i j _ _) | SwapExactOut (mkSwapOut n m i j _ _) =>
      exists g1 g2 g3 p1 p2 p3 ps l ls1 ls2,
        skipn 12 accs = (p1 :: g1) ++ (p2 :: g2) ++ (p3 :: g3) /\
        Z.of_nat (length (p1 :: g1)) = n /\ Z.of_nat (length (p2 :: g2)) = m /\
        the_pool w = Some ps /\ the_list w = Some l /\
        nth_error l (Z.to_nat i) = Some ls1 /\ nth_error l (Z.to_nat j) = Some ls2 /\
        mk p1 = sol_value_calculator ls1 /\ mk p2 = sol_value_calculator ls2 /\
        mk p3 = pricing_program ps
  | AddLiquidity (mkAddLiq n i _ _) | RemoveLiquidity (mkRemLiq n i _ _) =>
      exists g1 g3 p1 p3 ps l ls1,
        skipn 11 accs = (p1 :: g1) ++ (p3 :: g3) /\ Z.of_nat (length (p1 :: g1)) = n /\
        the_pool w = Some ps /\ the_list w = Some l /\ nth_error l (Z.to_nat i) = Some ls1 /\
        mk p1 = sol_value_calculator ls1 /\ mk p3 = pricing_program ps
  | StartRebalance (mkStartReb n i j _ _ _) =>
      exists g1 g2 p1 p2 l ls1 ls2,
        skipn 12 accs = (p1 :: g1) ++ (p2 :: g2) /\ Z.of_nat (length (p1 :: g1)) = n /\
        the_list w = Some l /\ nth_error l (Z.to_nat i) = Some ls1 /\
        nth_error l (Z.to_nat j) = Some ls2 /\
        mk p1 = sol_value_calculator ls1 /\ mk p2 = sol_value_calculator ls2
  | EndRebalance =>
      exists g p l r ls, skipn 6 accs = p :: g /\ the_list w = Some l /\ the_record w = Some r /\
        nth_error l (Z.to_nat (dst_lst_index r)) = Some ls /\ mk p = sol_value_calculator ls
  | SyncSolValue i =>
      exists g p l ls, skipn 4 accs = p :: g /\ the_list w = Some l /\
        nth_error l (Z.to_nat i) = Some ls /\ mk p = sol_value_calculator ls
  | _ => True
  end.
Proof.
  intros H. unfold process in H. apply guard_ok in H as (Hwf & H).
  destruct ix; try exact I.
  - apply sync_proc_inv in H. exs. subst accs. cbn. eauto 12.
  - apply swap_exact_in_inv in H; auto. unfold swap_facts, nth_lst in H. exs. subst accs.
    destruct a. cbn in *. exs.
    repeat eexists; try eassumption; try reflexivity; cbn in Hwf;
      unfold u64b, u8b, u32b in Hwf; repeat rewrite andb_true_iff in Hwf; lia.
  - apply swap_exact_out_inv in H; auto. unfold swap_facts, nth_lst in H. exs. subst accs.
    destruct a. cbn in *. exs.
    repeat eexists; try eassumption; try reflexivity; cbn in Hwf;
      unfold u64b, u8b, u32b in Hwf; repeat rewrite andb_true_iff in Hwf; lia.
  - apply add_liquidity_inv in H; auto. unfold liq_facts, nth_lst in H. exs. subst accs.
    destruct a. cbn in *. exs.
    repeat eexists; try eassumption; try reflexivity; cbn in Hwf;
      unfold u64b, u8b, u32b in Hwf; repeat rewrite andb_true_iff in Hwf; lia.
  - apply remove_liquidity_inv in H; auto. unfold liq_facts, nth_lst in H. exs. subst accs.
    destruct a. cbn in *. exs.
    repeat eexists; try eassumption; try reflexivity; cbn in Hwf;
      unfold u64b, u8b, u32b in Hwf; repeat rewrite andb_true_iff in Hwf; lia.
  - apply start_rebalance_inv in H. unfold nth_lst in H. exs. subst accs.
    destruct a. cbn in *. exs.
    repeat eexists; try eassumption; try reflexivity; cbn in Hwf;
      unfold u64b, u8b, u32b in Hwf; repeat rewrite andb_true_iff in Hwf; lia.
  - apply end_rebalance_inv in H. unfold nth_lst in H. exs. subst accs. cbn.
    repeat eexists; eassumption.
Qed.
(* one account too few or a foreign calculator is refused *)
Example C28_case :
  okb R6 = true /\ length (skipn 12 swap_accs) = 3%nat /\
  process D0 E0 C0 W5 (firstn 14 swap_accs) (SwapExactIn swap_in_args) = Err NotEnoughAccountKeys /\
  process D0 E0 C0 W5 (firstn 12 swap_accs ++ [ro CB; ro CB; ro PP]) (SwapExactIn swap_in_args)
    = Err (Ctl IncorrectSolValueCalculator) /\
  process D0 E0 C0 W5 (firstn 14 swap_accs ++ [ro CA]) (SwapExactIn swap_in_args)
    = Err (Ctl IncorrectPricingProgram).
Proof. repeat split; vm_compute; reflexivity. Qed.

(* ------------------------------------------------------------------ *)
(** C33. The controller's accounts must be the canonical ones. *)
Theorem C33_canonical_accounts D E C w accs ix w' n k :
  process D E C w accs ix = Ok w' -> In (n, k) (canonical_positions ix) ->
  exists m, nth_error accs n = Some m /\ mk m = k.
Proof.
  intros H Hin. unfold process in H. apply guard_ok in H as (Hwf & H).
  destruct ix; cbn in Hin;
  repeat match goal with H : _ \/ _ |- _ => destruct H as [H|H] end; try tauto; injection Hin as <- <-;
  match type of H with
  | process_sync_sol_value _ _ _ _ _ = _ => apply sync_proc_inv in H
  | process_swap_exact_in _ _ _ _ _ = _ => apply swap_exact_in_inv in H; [|exact Hwf]; unfold swap_facts in H
  | process_swap_exact_out _ _ _ _ _ = _ => apply swap_exact_out_inv in H; [|exact Hwf]; unfold swap_facts in H
  | process_add_liquidity _ _ _ _ _ = _ => apply add_liquidity_inv in H; unfold liq_facts in H
  | process_remove_liquidity _ _ _ _ _ = _ => apply remove_liquidity_inv in H; unfold liq_facts in H
  | process_set_lst_input _ _ _ _ = _ => apply set_lst_input_inv in H
  | process_add_lst _ _ _ = _ => apply add_lst_inv in H
  | process_remove_lst _ _ _ _ = _ => apply remove_lst_inv in H
  | process_set_sol_value_calculator _ _ _ _ _ = _ => apply set_calculator_inv in H
  | process_set_admin _ _ = _ => apply set_admin_inv in H
  | process_set_protocol_fee _ _ _ _ = _ => apply set_protocol_fee_inv in H
  | process_set_protocol_fee_beneficiary _ _ = _ => apply set_beneficiary_inv in H
  | process_set_pricing_program _ _ = _ => apply set_pricing_inv in H
  | process_withdraw_protocol_fees _ _ _ _ = _ => apply withdraw_inv in H
  | process_add_disable_pool_authority _ _ = _ => apply add_auth_inv in H
  | process_remove_disable_pool_authority _ _ _ = _ => apply remove_auth_inv in H
  | process_disable_pool _ _ = _ => apply disable_pool_inv in H
  | process_enable_pool _ _ = _ => apply enable_pool_inv in H
  | process_start_rebalance _ _ _ _ _ _ = _ => apply start_rebalance_inv in H
  | process_end_rebalance _ _ _ _ = _ => apply end_rebalance_inv in H
  | process_set_rebalance_authority _ _ = _ => apply set_rebalance_authority_inv in H
  | process_initialize _ _ = _ => apply initialize_inv in H
  end; exs; subst accs; eexists; (split; [reflexivity|assumption]).
Qed.

Ltac same_list := repeat match goal with
  | H1 : w_list ?w LST_STATE_LIST_ID = Some ?x, H2 : w_list ?w LST_STATE_LIST_ID = Some ?y |- _ =>
      tryif constr_eq x y then clear H2 else (assert (x = y) by congruence; subst x) end.

(** Reserves and fee accumulators must be the derived accounts of the LST at the given list index,
    and the mint account must be that LST's mint. *)
Theorem C33_reserve_accounts D E C w accs ix w' i pm pr :
  process D E C w accs ix = Ok w' -> In (i, pm, pr) (reserve_positions w ix) ->
  exists l ls mm mr, the_list w = Some l /\ nth_error l (Z.to_nat i) = Some ls /\
    nth_error accs pm = Some mm /\ mk mm = ls_mint ls /\ nth_error accs pr = Some mr /\
    d_create D POOL_STATE_ID (w_owner w (ls_mint ls)) (ls_mint ls) (pool_reserves_bump ls) = Some (mk mr).
Proof.
  intros H Hin. unfold process in H. apply guard_ok in H as (Hwf & H).
  destruct (the_record w) as [rec|] eqn:Hrec; destruct ix; cbn [reserve_positions] in Hin; rewrite ?Hrec in Hin;
  cbn [In] in Hin; try tauto; unfold the_record in Hrec;
  repeat match goal with H : _ \/ _ |- _ => destruct H as [H|H] end; try tauto; injection Hin as <- <- <-;
  match type of H with
  | process_sync_sol_value _ _ _ _ _ = _ => apply sync_proc_inv in H
  | process_swap_exact_in _ _ _ _ _ = _ => apply swap_exact_in_inv in H; [|exact Hwf]; unfold swap_facts in H
  | process_swap_exact_out _ _ _ _ _ = _ => apply swap_exact_out_inv in H; [|exact Hwf]; unfold swap_facts in H
  | process_add_liquidity _ _ _ _ _ = _ => apply add_liquidity_inv in H; unfold liq_facts in H
  | process_remove_liquidity _ _ _ _ _ = _ => apply remove_liquidity_inv in H; unfold liq_facts in H
  | process_remove_lst _ _ _ _ = _ => apply remove_lst_inv in H
  | process_set_sol_value_calculator _ _ _ _ _ = _ => apply set_calculator_inv in H
  | process_start_rebalance _ _ _ _ _ _ = _ => apply start_rebalance_inv in H
  | process_end_rebalance _ _ _ _ = _ => apply end_rebalance_inv in H
  end; unfold nth_lst in H; exs; subst accs;
  try match type of Hrec with _ = Some _ => match goal with H1 : w_rec w _ = Some ?x |- context [nth_error _ (Z.to_nat (dst_lst_index rec))] => assert (x = rec) by congruence; subst x end end;
  repeat match goal with H : ls_mint _ = mk _ |- _ => rewrite <- H in * end;
  do 4 eexists; csplit; try eassumption; try reflexivity; try (symmetry; eassumption).
Qed.
Theorem C33_accumulator_accounts D E C w accs ix w' i pm pr :
  process D E C w accs ix = Ok w' -> In (i, pm, pr) (accumulator_positions ix) ->
  exists l ls mm mr, the_list w = Some l /\ nth_error l (Z.to_nat i) = Some ls /\
    nth_error accs pm = Some mm /\ mk mm = ls_mint ls /\ nth_error accs pr = Some mr /\
    d_create D PROTOCOL_FEE_ID (w_owner w (ls_mint ls)) (ls_mint ls) (protocol_fee_accumulator_bump ls)
      = Some (mk mr).
Proof.
  intros H Hin. unfold process in H. apply guard_ok in H as (Hwf & H).
  destruct ix; cbn in Hin; try tauto;
  repeat match goal with H : _ \/ _ |- _ => destruct H as [H|H] end; try tauto; injection Hin as <- <- <-;
  match type of H with
  | process_swap_exact_in _ _ _ _ _ = _ => apply swap_exact_in_inv in H; [|exact Hwf]; unfold swap_facts in H
  | process_swap_exact_out _ _ _ _ _ = _ => apply swap_exact_out_inv in H; [|exact Hwf]; unfold swap_facts in H
  | process_add_liquidity _ _ _ _ _ = _ => apply add_liquidity_inv in H; unfold liq_facts in H
  | process_remove_liquidity _ _ _ _ _ = _ => apply remove_liquidity_inv in H; unfold liq_facts in H
  | process_remove_lst _ _ _ _ = _ => apply remove_lst_inv in H
  end; unfold nth_lst in H; exs; subst accs;
  repeat match goal with H : ls_mint _ = mk _ |- _ => rewrite <- H in * end;
  do 4 eexists; csplit; try eassumption; try reflexivity; try (symmetry; eassumption).
Qed.
(** AddLst and WithdrawProtocolFees use the canonical (bump-searched) addresses. *)
Theorem C33_found_accounts D E C w accs ix w' :
  process D E C w accs ix = Ok w' ->
  match ix with
  | AddLst => exists m r f, nth_error accs 2 = Some m /\ nth_error accs 3 = Some r /\
      nth_error accs 4 = Some f /\
      mk r = fst (d_find D POOL_STATE_ID (w_owner w (mk m)) (mk m)) /\
      mk f = fst (d_find D PROTOCOL_FEE_ID (w_owner w (mk m)) (mk m))
  | WithdrawProtocolFees _ => exists to m f t, nth_error accs 1 = Some to /\ nth_error accs 6 = Some m /\
      nth_error accs 2 = Some f /\ w_tok w (mk to) = Some t /\ mk m = ta_mint t /\
      mk f = fst (d_find D PROTOCOL_FEE_ID (w_owner w (mk to)) (mk m))
  | _ => True
  end.
Proof.
  intros H. unfold process in H. apply guard_ok in H as (Hwf & H). destruct ix; try exact I.
  - apply add_lst_inv in H. exs. subst accs. do 3 eexists. csplit; try reflexivity.
    + match goal with H : d_find D POOL_STATE_ID _ _ = _ |- _ => now rewrite H end.
    + match goal with H : d_find D PROTOCOL_FEE_ID _ _ = _ |- _ => now rewrite H end.
  - apply withdraw_inv in H. exs. subst accs. do 4 eexists. csplit; try reflexivity; try eassumption. auto.
Qed.
Definition swap_fake (n : nat) (k : key) : list Meta := replace_nth swap_accs n (rw k).
Example C33_case :
  okb (process D0 E0 C0 W5 swap_accs (SwapExactIn swap_in_args)) = true /\
  forallb (fun n => negb (okb (process D0 E0 C0 W5 (swap_fake n 99) (SwapExactIn swap_in_args))))
    [5; 8; 9; 10; 11]%nat = true /\
  (* the user's own account of the right mint does not pass for the reserves *)
  okb (process D0 E0 C0 W5 (swap_fake 11 UB) (SwapExactIn swap_in_args)) = false.
Proof. repeat split; vm_compute; reflexivity. Qed.

(* ------------------------------------------------------------------ *)
(** C39. In every reachable state each listed LST has its reserves and fee accumulator: they exist,
    sit at the canonical derived addresses with the recorded bumps, hold that mint, belong to the
    mint's token program and are owned by the pool and by the fee authority; and the LP mint is
    controlled by the pool. *)
Theorem C39_listed_accounts_exist D w l ls :
  derive_ok D -> reachable D w -> the_list w = Some l -> In ls l ->
  let p := w_owner w (ls_mint ls) in
  is_token_program p = true /\ w_mint w (ls_mint ls) <> None /\
  exists r f tr tf,
    d_find D POOL_STATE_ID p (ls_mint ls) = (r, pool_reserves_bump ls) /\
    d_create D POOL_STATE_ID p (ls_mint ls) (pool_reserves_bump ls) = Some r /\
    d_find D PROTOCOL_FEE_ID p (ls_mint ls) = (f, protocol_fee_accumulator_bump ls) /\
    d_create D PROTOCOL_FEE_ID p (ls_mint ls) (protocol_fee_accumulator_bump ls) = Some f /\
    w_tok w r = Some tr /\ ta_mint tr = ls_mint ls /\ ta_owner tr = POOL_STATE_ID /\ w_owner w r = p /\
    w_tok w f = Some tf /\ ta_mint tf = ls_mint ls /\ ta_owner tf = PROTOCOL_FEE_ID /\ w_owner w f = p /\
    r <> f.
Proof.
  intros HD Hr Hl Hin. cbn. destruct (reachable_ata D HD w Hr) as (Ha & HL & _).
  specialize (HL l Hl). rewrite Forall_forall in HL. destruct (HL ls Hin) as (A & B & r & f & F1 & F2 & R & F).
  split; auto. split; auto. pose proof (find_create D HD _ _ _ _ _ F1) as G1.
  pose proof (find_create D HD _ _ _ _ _ F2) as G2.
  destruct (w_tok w r) as [tr|] eqn:Tr; [|congruence]. destruct (w_tok w f) as [tf|] eqn:Tf; [|congruence].
  destruct (Ha _ _ _ _ _ (or_introl eq_refl) G1) as (_ & Q1). destruct (Q1 _ Tr) as (? & ? & ?).
  destruct (Ha _ _ _ _ _ (or_intror eq_refl) G2) as (_ & Q2). destruct (Q2 _ Tf) as (? & ? & ?).
  exists r, f, tr, tf. csplit; auto. intros ->. destruct HD as (_ & HD & _).
  destruct (HD _ _ _ _ _ _ _ _ _ G1 G2) as (X & _). discriminate X.
Qed.
Theorem C39_lp_mint D w ps :
  derive_ok D -> reachable D w -> the_pool w = Some ps ->
  w_owner w (lp_token_mint ps) = SPL_TOKEN_ID /\
  exists i, w_mint w (lp_token_mint ps) = Some i /\ m_auth i = Some POOL_STATE_ID.
Proof. intros HD Hr Hp. destruct (reachable_ata D HD w Hr) as (_ & _ & H). auto. Qed.
(** Accounts of different LSTs are different. *)
Theorem C39_accounts_disjoint D w l i j a b ka kb wa wb ba bb :
  derive_ok D -> reachable D w -> the_list w = Some l ->
  nth_error l i = Some a -> nth_error l j = Some b -> i <> j ->
  d_create D wa (w_owner w (ls_mint a)) (ls_mint a) ba = Some ka ->
  d_create D wb (w_owner w (ls_mint b)) (ls_mint b) bb = Some kb -> ka <> kb.
Proof.
  intros HD Hr Hl Hi Hj Hne Ha Hb ->. destruct HD as (D1 & D2 & D3).
  destruct (D2 _ _ _ _ _ _ _ _ _ Ha Hb) as (_ & _ & Hm).
  assert (HD : derive_ok D) by (split; auto).
  destruct (reachable_inv D HD w Hr) as ((l' & au & Hl' & _ & Hn & _) & _).
  assert (l' = l) by congruence. subst l'. apply Hne.
  rewrite NoDup_nth_error in Hn. apply Hn.
  - apply nth_error_Some. erewrite map_nth_error by eassumption. discriminate.
  - erewrite !map_nth_error by eassumption. congruence.
Qed.
Example C39_case : reachable D0 W8 /\
  match w_tok W8 RA, w_tok W8 FB with
  | Some a, Some b => (ta_mint a =? MA) && (ta_owner a =? POOL_STATE_ID) && (0 <? ta_amount a) &&
                      (ta_mint b =? MB) && (ta_owner b =? PROTOCOL_FEE_ID) && (0 <? ta_amount b) = true
  | _, _ => False end.
Proof. split; [exact W8_reach|]. vm_compute. reflexivity. Qed.
