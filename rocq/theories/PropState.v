(** Properties of every reachable state: C01, C02, C03, C14, C17, C29, C32. *)
From Coq Require Import ZArith List Bool Lia.
From Verif Require Import Base Ratio Calc State Controller Inversion ProcInv Spec CalcProofs InvProofs
  AccessProofs Concrete ConcreteReach.
Import ListNotations.
Open Scope Z_scope.

(** C01. In every state reachable from genesis by any controller instructions (any accounts, any
    answers of calculators and pricing programs) interleaved with any outside steps, the list of LSTs
    exists and, once the pool exists, its total equals the sum of the recorded SOL values. *)
Theorem C01_total_is_sum D w :
  derive_ok D -> reachable D w ->
  exists l, the_list w = Some l /\
    (the_pool w = None -> l = []) /\
    (forall ps, the_pool w = Some ps -> total_sol_value ps = sumZ (map sol_value l)).
Proof.
  intros HD Hr. destruct (reachable_inv D HD w Hr) as ((l & au & Hl & _ & _ & _ & _ & _ & Hp) & _).
  exists l. split; auto. destruct (the_pool w) as [ps|]; split; try congruence.
  intros ps' [= <-]. apply Hp.
Qed.
(* after swaps and a redemption both LSTs have value *)
Example C01_case : reachable D0 W8 /\
  match the_pool W8, the_list W8 with
  | Some ps, Some l => total_sol_value ps = 1897688 /\ map sol_value l = [1015064; 882624]
  | _, _ => False end.
Proof. split; [exact W8_reach|]. vm_compute. split; reflexivity. Qed.

(** C02. No mint is listed twice. *)
Theorem C02_no_duplicate_lst D w l :
  derive_ok D -> reachable D w -> the_list w = Some l ->
  forall i j a b, nth_error l i = Some a -> nth_error l j = Some b -> ls_mint a = ls_mint b -> i = j.
Proof.
  intros HD Hr Hl i j a b Hi Hj Hab.
  destruct (reachable_inv D HD w Hr) as ((l' & au & Hl' & _ & Hn & _) & _).
  assert (l' = l) by congruence. subst l'.
  apply (map_nth_error ls_mint) in Hi, Hj.
  assert (Hlt : (i < length (map ls_mint l))%nat) by (apply nth_error_Some; congruence).
  rewrite NoDup_nth_error in Hn. apply Hn; congruence.
Qed.
(* a second listing of the same mint is refused in a pool that lists it *)
Example C02_case : reachable D0 W3 /\
  process D0 E0 C0 W3 (add_accs MB RB FB CB SPL_TOKEN_2022_ID) AddLst = Err (Ctl DuplicateLst).
Proof. split; [exact W3_reach|]. vm_compute. reflexivity. Qed.

(** C03. No key is registered twice as disable authority; an addition appends one absent key signed
    for by the admin; a removal takes out exactly the chosen position. *)
Theorem C03_authorities_distinct D w :
  derive_ok D -> reachable D w -> exists l, the_authorities w = Some l /\ NoDup l.
Proof.
  intros HD Hr. destruct (reachable_inv D HD w Hr) as ((l & au & _ & Ha & _ & Hn & _) & _). eauto.
Qed.
Theorem C03_add_appends D E C w accs w' :
  process D E C w accs AddDisablePoolAuthority = Ok w' ->
  exists l m, the_authorities w = Some l /\ nth_error accs 3 = Some m /\ ~ In (mk m) l /\
    the_authorities w' = Some (l ++ [mk m]).
Proof.
  intros H. apply process_auth_effect in H. destruct H as (ps & l & k & m & ? & ? & ? & ? & -> & ? & ?).
  eauto 8.
Qed.
Theorem C03_remove_takes_one D E C w accs i w' :
  process D E C w accs (RemoveDisablePoolAuthority i) = Ok w' ->
  exists l1 k l2, the_authorities w = Some (l1 ++ k :: l2) /\ length l1 = Z.to_nat i /\
    the_authorities w' = Some (l1 ++ l2) /\
    exists ps, the_pool w = Some ps /\ (signed_by accs (admin ps) \/ signed_by accs k).
Proof.
  intros H. apply process_auth_effect in H. destruct H as (ps & l & k & Hp & Ha & Hn & Hs & Hr).
  apply nth_error_split in Hn as (l1 & l2 & -> & Hlen). exists l1, k, l2. repeat split; eauto.
  rewrite Hr, <- Hlen. f_equal. clear. induction l1; cbn; congruence.
Qed.
Example C03_case :
  the_authorities W12 = Some [USER] /\
  process D0 E0 C0 W12 add_auth_accs AddDisablePoolAuthority = Err (Ctl DuplicateDisablePoolAuthority) /\
  okb (process D0 E0 C0 W12 [rw PAYER; sg USER; ro USER; ro POOL_STATE_ID; rw DISABLE_POOL_AUTHORITY_LIST_ID]
    (RemoveDisablePoolAuthority 0)) = true.
Proof. repeat split; vm_compute; reflexivity. Qed.

(** C14. Rebalancing flag and rebalance record go together; never rebalancing and disabled; flags
    are 0 or 1; the recorded destination is on the list. *)
Theorem C14_flag_iff_record D w :
  derive_ok D -> reachable D w ->
  (pool_is_rebalancing w <-> the_record w <> None) /\
  ~ (pool_is_rebalancing w /\ pool_is_disabled w) /\
  (forall r, the_record w = Some r ->
     exists l, the_list w = Some l /\ nth_error l (Z.to_nat (dst_lst_index r)) <> None).
Proof.
  intros HD Hr. destruct (reachable_inv D HD w Hr) as (_ & HF). unfold flag_inv in HF.
  unfold pool_is_rebalancing, pool_is_disabled.
  destruct (the_pool w) as [ps|] eqn:Hp.
  - destruct HF as [(H0 & Hn)|(H1 & H2 & r & l & Hr' & Hl & _ & _ & Hn)].
    + rewrite Hn. split; [|split].
      * split; [intros (x & [= <-] & Hx); congruence | congruence].
      * intros ((x & [= <-] & Hx) & _). congruence.
      * discriminate.
    + rewrite Hr'. split; [|split].
      * split; [discriminate|]. intros _. exists ps. split; auto. lia.
      * intros (_ & (x & [= <-] & Hx)). congruence.
      * intros r' [= <-]. eauto.
  - rewrite HF. split; [|split].
    + split; [intros (x & [=] & _) | congruence].
    + intros ((x & [=] & _) & _).
    + discriminate.
Qed.
Example C14_case : reachable D0 W9 /\ pool_is_rebalancing W9 /\ the_record W9 = Some (mkRec 1897688 1).
Proof.
  split; [exact W9_reach|]. split; [|vm_compute; reflexivity].
  destruct (the_pool W9) as [ps|] eqn:Hp.
  - exists ps. split; auto.
    assert (H : match the_pool W9 with Some p => is_rebalancing p | None => 1 end = 1)
      by (vm_compute; reflexivity). rewrite Hp in H. lia.
  - assert (H : match the_pool W9 with Some p => True | None => False end) by (vm_compute; exact I).
    rewrite Hp in H. destruct H.
Qed.

(** C17. Fee rates are at most 10000 bps in every reachable state, and a request above that fails
    (so, by C35, changes nothing). *)
Theorem C17_fee_rates_bounded D w ps :
  derive_ok D -> reachable D w -> the_pool w = Some ps ->
  0 <= trading_protocol_fee_bps ps <= 10000 /\ 0 <= lp_protocol_fee_bps ps <= 10000.
Proof.
  intros HD Hr Hp. destruct (reachable_inv D HD w Hr) as ((l & au & _ & _ & _ & _ & _ & _ & H) & _).
  rewrite Hp in H. destruct H as ((_ & ? & ? & _) & _). auto.
Qed.
Theorem C17_excess_refused D E C w accs t l x :
  t = Some x \/ l = Some x -> x > 10000 ->
  forall w', process D E C w accs (SetProtocolFee t l) <> Ok w'.
Proof.
  intros Hx Hgt w' H. unfold process in H. apply guard_ok in H as (_ & H).
  apply set_protocol_fee_inv in H. exs.
  unfold fee_ok, BPS_DENOMINATOR in *.
  destruct Hx as [-> | ->]; match goal with H : (_ <=? _) = true |- _ => apply Z.leb_le in H; lia end.
Qed.
(** What an accepted request does. *)
Theorem C17_set_fee_effect D E C w accs t l w' :
  process D E C w accs (SetProtocolFee t l) = Ok w' ->
  exists ps ps', the_pool w = Some ps /\ the_pool w' = Some ps' /\
    trading_protocol_fee_bps ps' = match t with Some x => x | None => trading_protocol_fee_bps ps end /\
    lp_protocol_fee_bps ps' = match l with Some x => x | None => lp_protocol_fee_bps ps end /\
    signed_by accs (admin ps).
Proof.
  intros H. pose proof H as H0. unfold process in H. apply guard_ok in H as (_ & H).
  apply set_protocol_fee_inv in H.
  destruct H as (adm & pst & rest & ps & -> & _ & _ & Hs & Hk & Hp & _ & _ & _ & ->).
  exists ps. rewrite the_pool_put. eexists. split; [exact Hp|]. split; [reflexivity|].
  split; [destruct t, l; reflexivity|]. split; [destruct t, l; reflexivity|].
  exists adm. cbn. auto.
Qed.
Example C17_case : okb (process D0 E0 C0 W8 [sg ADMIN; rw POOL_STATE_ID] (SetProtocolFee (Some 10000) None)) = true
  /\ process D0 E0 C0 W8 [sg ADMIN; rw POOL_STATE_ID] (SetProtocolFee (Some 10001) (Some 3)) = Err (Ctl FeeTooHigh).
Proof. split; vm_compute; reflexivity. Qed.

(** C29. Initialisation: only once, only by the designated authority, only with a fresh 9-decimals LP
    mint it controls; it hands mint and freeze authority to the pool. *)
Theorem C29_initialize_conditions D E C w accs w' :
  process D E C w accs Initialize = Ok w' ->
  the_pool w = None /\ signed_by accs INITIAL_AUTHORITY_ID /\
  exists lp m ps', nth_error accs 3 = Some lp /\
    w_owner w (mk lp) = SPL_TOKEN_ID /\ w_mint w (mk lp) = Some m /\
    m_supply m = 0 /\ m_decimals m = 9 /\
    m_auth m = Some INITIAL_AUTHORITY_ID /\ m_freeze m = Some INITIAL_AUTHORITY_ID /\
    w_mint w' (mk lp) = Some (mkMint 0 9 (Some POOL_STATE_ID) (Some POOL_STATE_ID)) /\
    the_pool w' = Some ps' /\ lp_token_mint ps' = mk lp /\ total_sol_value ps' = 0 /\
    admin ps' = INITIAL_AUTHORITY_ID /\ is_disabled ps' = 0 /\ is_rebalancing ps' = 0.
Proof.
  intros H. unfold process in H. apply guard_ok in H as (_ & H). apply initialize_inv in H.
  destruct H as (p & a & pst & lp & lpp & sy & rest & m & -> & _ & Ha & _ & _ & _ & _ & Hs & Hp & Ho & Hm &
    Hsup & Hd & Hma & Hmf & ->).
  split; [exact Hp|]. split; [exists a; cbn; auto|].
  exists lp, m. eexists. unfold the_pool. cbn. rewrite !upd_same.
  csplit; auto.
Qed.
Theorem C29_never_again D w w' E C accs :
  the_pool w <> None -> steps D w w' ->
  the_pool w' <> None /\ forall w'', process D E C w' accs Initialize <> Ok w''.
Proof.
  intros Hp Hs.
  assert (Hp' : the_pool w' <> None).
  { induction Hs as [w0|w1 w2 w3 Hs IH Hst]; auto.
    destruct (the_pool w2) as [ps|] eqn:E2; [|exfalso; now apply IH].
    destruct Hst as [HX|E' C' accs' ix _ HX].
    - rewrite (x_pool _ _ _ HX). congruence.
    - destruct (process_pool_effect _ _ _ _ _ _ _ _ HX E2) as (ps' & -> & _). discriminate. }
  split; auto. intros w'' H. apply C29_initialize_conditions in H as (H & _). congruence.
Qed.
Example C29_case : okb (process D0 E0 C0 W0 init_accs Initialize) = true /\
  process D0 E0 C0 W1 init_accs Initialize = Err SystemErr.
Proof. split; vm_compute; reflexivity. Qed.

(** C32. Every recorded number fits its on-chain type in every reachable state. *)
Definition fits (bits : Z) (x : Z) : Prop := 0 <= x < 2 ^ bits.
Theorem C32_recorded_figures_fit D w :
  derive_ok D -> reachable D w ->
  (forall ps, the_pool w = Some ps ->
     fits 64 (total_sol_value ps) /\ fits 16 (trading_protocol_fee_bps ps) /\
     fits 16 (lp_protocol_fee_bps ps) /\ fits 8 (version ps) /\ fits 8 (is_disabled ps) /\
     fits 8 (is_rebalancing ps)) /\
  (forall l ls, the_list w = Some l -> In ls l ->
     fits 64 (sol_value ls) /\ fits 8 (is_input_disabled ls) /\ fits 8 (pool_reserves_bump ls) /\
     fits 8 (protocol_fee_accumulator_bump ls)) /\
  (forall r, the_record w = Some r -> fits 64 (old_total_sol_value r) /\ fits 32 (dst_lst_index r)) /\
  (forall k t, w_tok w k = Some t -> fits 64 (ta_amount t)) /\
  (forall m i, w_mint w m = Some i -> fits 64 (m_supply i)).
Proof.
  intros HD Hr. destruct (reachable_inv D HD w Hr) as ((l & au & Hl & Ha & _ & _ & Hf & (Ht & Hm) & Hp) & HF).
  unfold fits. change (2 ^ 64) with (U64_MAX + 1). change (2 ^ 16) with 65536. change (2 ^ 8) with (U8_MAX + 1).
  change (2 ^ 32) with (U32_MAX + 1).
  split; [|split; [|split; [|split]]].
  - intros ps Hps. rewrite Hps in Hp. destruct Hp as ((H1 & H2 & H3 & H4 & H5 & H6) & _).
    unfold U64, U8_MAX in *. lia.
  - intros l' ls Hl' Hin. assert (l' = l) by congruence. subst l'.
    rewrite Forall_forall in Hf. specialize (Hf ls Hin). destruct Hf as (H1 & H2 & H3 & H4).
    unfold U64, U8_MAX in *. lia.
  - intros r Hrec. unfold flag_inv in HF. destruct (the_pool w); [|congruence].
    destruct HF as [(_ & ?)|(_ & _ & r' & l' & Hr' & _ & H1 & H2 & _)]; [congruence|].
    assert (r' = r) by congruence. subst r'. unfold U64 in *. lia.
  - intros k t Hk. specialize (Ht k t Hk). unfold U64 in *. lia.
  - intros k t Hk. specialize (Hm k t Hk). unfold U64 in *. lia.
Qed.
(** An answer that would overflow the total makes the instruction fail. *)
Definition E_big : Env := {|
  e_lst_to_sol := fun _ _ _ _ _ => Ok (U64_MAX, U64_MAX); e_sol_to_lst := e_sol_to_lst E0;
  e_price_exact_in := e_price_exact_in E0; e_price_exact_out := e_price_exact_out E0;
  e_price_lp_to_mint := e_price_lp_to_mint E0; e_price_lp_to_redeem := e_price_lp_to_redeem E0 |}.
Example C32_case : process D0 E_big C0 W8 sync_accs (SyncSolValue 1) = Err (Ctl MathError).
Proof. vm_compute. reflexivity. Qed.
