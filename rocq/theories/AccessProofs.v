(** Who may change what: per-instruction effect on the controller's own accounts. *)
From Coq Require Import ZArith List Bool Lia.
From Verif Require Import Base Ratio Calc State Controller Inversion ProcInv Spec CalcProofs InvProofs.
Import ListNotations.
Open Scope Z_scope.

Ltac exs := repeat match goal with H : exists _, _ |- _ => destruct H end;
  repeat match goal with H : _ /\ _ |- _ => destruct H end.

Lemma signed_in accs a k : In a accs -> is_signer a = true -> mk a = k -> signed_by accs k.
Proof. intros; exists a; auto. Qed.

Lemma the_pool_put w v : the_pool (put_pool w POOL_STATE_ID v) = v.
Proof. unfold the_pool. cbn. apply upd_same. Qed.
Lemma the_list_put w v : the_list (put_list w LST_STATE_LIST_ID v) = v.
Proof. unfold the_list. cbn. apply upd_same. Qed.
Lemma the_auth_put w v : the_authorities (put_auth w DISABLE_POOL_AUTHORITY_LIST_ID v) = v.
Proof. unfold the_authorities. cbn. apply upd_same. Qed.
Lemma the_rec_put w v : the_record (put_rec w REBALANCE_RECORD_ID v) = v.
Proof. unfold the_record. cbn. apply upd_same. Qed.

Section WithDerive.
Variable D : Derive.

(** The pool account as changed by each instruction (up to the total). *)
Inductive pool_effect (accs : list Meta) (w : World) (ps : PoolState) : Ix -> PoolState -> Prop :=
| pe_vals ix v :
    match ix with
    | SyncSolValue _ | SwapExactIn _ | SwapExactOut _ | AddLiquidity _ | RemoveLiquidity _ => True
    | _ => False end -> active ps -> pool_effect accs w ps ix (set_total ps v)
| pe_none ix :
    match ix with
    | AddLst | RemoveLst _ | DisableLstInput _ | EnableLstInput _ => signed_by accs (admin ps) /\ active ps
    | WithdrawProtocolFees _ => signed_by accs (protocol_fee_beneficiary ps) /\ active ps
    | AddDisablePoolAuthority => signed_by accs (admin ps)
    | RemoveDisablePoolAuthority _ => True
    | _ => False end -> pool_effect accs w ps ix ps
| pe_calc i v : signed_by accs (admin ps) -> active ps ->
    pool_effect accs w ps (SetSolValueCalculator i) (set_total ps v)
| pe_admin k : signed_by accs (admin ps) -> pool_effect accs w ps SetAdmin (set_admin_key ps k)
| pe_fee t l ps' : signed_by accs (admin ps) -> active ps -> fee_ok t = true -> fee_ok l = true ->
    ps' = (let ps1 := match t with Some x => set_trading_fee ps x | None => ps end in
           match l with Some x => set_lp_fee ps1 x | None => ps1 end) ->
    pool_effect accs w ps (SetProtocolFee t l) ps'
| pe_benef k : signed_by accs (protocol_fee_beneficiary ps) -> active ps ->
    pool_effect accs w ps SetProtocolFeeBeneficiary (set_beneficiary_key ps k)
| pe_pricing k : signed_by accs (admin ps) -> active ps -> w_exec w k = true ->
    pool_effect accs w ps SetPricingProgram (set_pricing_key ps k)
| pe_disable : active ps ->
    (exists k, signed_by accs k /\
       (k = admin ps \/ exists l, the_authorities w = Some l /\ In k l)) ->
    pool_effect accs w ps DisablePool (set_disabled ps 1)
| pe_enable : signed_by accs (admin ps) -> is_disabled ps <> 0 ->
    pool_effect accs w ps EnablePool (set_disabled ps 0)
| pe_start a v : signed_by accs (rebalance_authority ps) -> active ps ->
    pool_effect accs w ps (StartRebalance a) (set_rebalancing (set_total ps v) 1)
| pe_end v : signed_by accs (rebalance_authority ps) -> is_rebalancing ps <> 0 ->
    pool_effect accs w ps EndRebalance (set_total (set_rebalancing ps 0) v)
| pe_reb k : (exists s, signed_by accs s /\ (s = admin ps \/ s = rebalance_authority ps)) ->
    active ps -> pool_effect accs w ps SetRebalanceAuthority (set_rebalance_auth_key ps k).

Ltac sgn :=
  match goal with Hk : mk ?a = ?k |- signed_by ?accs ?k =>
    apply (signed_in accs a k); [subst; cbn; tauto | assumption | exact Hk] end.

Lemma process_pool_effect E C w accs ix w' ps :
  process D E C w accs ix = Ok w' -> the_pool w = Some ps ->
  exists ps', the_pool w' = Some ps' /\ pool_effect accs w ps ix ps'.
Proof.
  intros H Hps. unfold process in H. apply guard_ok in H as (Hwf & H). unfold the_pool in Hps.
  destruct ix.
  - pose proof (sync_proc_vals _ _ _ _ _ _ H) as (HV & _).
    destruct (vals_pool _ _ _ HV Hps) as (v & Hv). exists (set_total ps v). split; auto.
    apply sync_proc_inv in H. exs. apply pe_vals; auto. congruence.
  - pose proof (swap_in_vals _ _ _ _ _ _ Hwf H) as (HV & _).
    destruct (vals_pool _ _ _ HV Hps) as (v & Hv). exists (set_total ps v). split; auto.
    apply swap_exact_in_inv in H; auto. unfold swap_facts in H. exs. apply pe_vals; auto. congruence.
  - pose proof (swap_out_vals _ _ _ _ _ _ Hwf H) as (HV & _).
    destruct (vals_pool _ _ _ HV Hps) as (v & Hv). exists (set_total ps v). split; auto.
    apply swap_exact_out_inv in H; auto. unfold swap_facts in H. exs. apply pe_vals; auto. congruence.
  - pose proof (add_liq_vals _ _ _ _ _ _ Hwf H) as (HV & _).
    destruct (vals_pool _ _ _ HV Hps) as (v & Hv). exists (set_total ps v). split; auto.
    apply add_liquidity_inv in H; auto. unfold liq_facts in H. exs. apply pe_vals; auto. congruence.
  - pose proof (remove_liq_vals _ _ _ _ _ _ Hwf H) as (HV & _).
    destruct (vals_pool _ _ _ HV Hps) as (v & Hv). exists (set_total ps v). split; auto.
    apply remove_liquidity_inv in H; auto. unfold liq_facts in H. exs. apply pe_vals; auto. congruence.
  - apply set_lst_input_inv in H. exs. match goal with H : w_pool w _ = Some ?x |- _ => assert (x = ps) by congruence; subst x end.
    exists ps. split; [subst w'; auto|]. apply pe_none. split; auto. sgn.
  - apply set_lst_input_inv in H. exs. match goal with H : w_pool w _ = Some ?x |- _ => assert (x = ps) by congruence; subst x end.
    exists ps. split; [subst w'; auto|]. apply pe_none. split; auto. sgn.
  - apply add_lst_inv in H. exs. match goal with H : w_pool w _ = Some ?x |- _ => assert (x = ps) by congruence; subst x end.
    repeat match goal with H : create_ata_if_not_exist _ _ _ _ _ = Ok _ |- _ =>
      apply create_ata_if_ctl in H; destruct H as (? & _) end.
    exists ps. split; [subst w'; unfold the_pool; cbn; congruence|]. apply pe_none. split; auto. sgn.
  - apply remove_lst_inv in H. exs. match goal with H : w_pool w _ = Some ?x |- _ => assert (x = ps) by congruence; subst x end.
    repeat match goal with H : close_token_account _ _ _ _ _ = Ok _ |- _ =>
      apply close_ctl in H; destruct H as (? & _) end.
    exists ps. split; [subst w'; unfold the_pool; cbn; congruence|]. apply pe_none. split; auto. sgn.
  - apply set_calculator_inv in H. exs. match goal with H : w_pool w _ = Some ?x |- _ => assert (x = ps) by congruence; subst x end.
    match goal with H : sync_sol_value_unchecked _ _ _ _ _ _ _ _ = Ok _ |- _ =>
      apply sync_vals in H; destruct (vals_pool _ _ ps H) as (v & Hv) end; [exact Hps|].
    exists (set_total ps v). split; auto. apply pe_calc; auto. sgn.
  - apply set_admin_inv in H. exs. match goal with H : w_pool w _ = Some ?x |- _ => assert (x = ps) by congruence; subst x end.
    subst w'. rewrite the_pool_put. eexists. split; [reflexivity|]. apply pe_admin. sgn.
  - apply set_protocol_fee_inv in H. exs. match goal with H : w_pool w _ = Some ?x |- _ => assert (x = ps) by congruence; subst x end.
    subst w'. rewrite the_pool_put. eexists. split; [reflexivity|]. apply pe_fee; auto. sgn.
  - apply set_beneficiary_inv in H. exs. match goal with H : w_pool w _ = Some ?x |- _ => assert (x = ps) by congruence; subst x end.
    subst w'. rewrite the_pool_put. eexists. split; [reflexivity|]. apply pe_benef; auto. sgn.
  - apply set_pricing_inv in H. exs. match goal with H : w_pool w _ = Some ?x |- _ => assert (x = ps) by congruence; subst x end.
    subst w'. rewrite the_pool_put. eexists. split; [reflexivity|]. apply pe_pricing; auto. sgn.
  - apply withdraw_inv in H. exs. match goal with H : w_pool w _ = Some ?x |- _ => assert (x = ps) by congruence; subst x end.
    match goal with H : transfer_checked _ _ _ _ _ _ _ _ = Ok _ |- _ =>
      apply transfer_ctl in H; destruct H as (? & _) end.
    exists ps. split; [unfold the_pool; congruence|]. apply pe_none. split; auto. sgn.
  - apply add_auth_inv in H. exs. match goal with H : w_pool w _ = Some ?x |- _ => assert (x = ps) by congruence; subst x end.
    subst w'. exists ps. split; auto. apply pe_none. sgn.
  - apply remove_auth_inv in H. exs. match goal with H : w_pool w _ = Some ?x |- _ => assert (x = ps) by congruence; subst x end.
    subst w'. exists ps. split; auto. now apply pe_none.
  - apply disable_pool_inv in H. exs. match goal with H : w_pool w _ = Some ?x |- _ => assert (x = ps) by congruence; subst x end.
    subst w'. rewrite the_pool_put. eexists. split; [reflexivity|]. apply pe_disable; auto.
    eexists. split; [|eassumption]. eapply signed_in; [|eassumption|reflexivity]. subst; cbn; tauto.
  - apply enable_pool_inv in H. exs. match goal with H : w_pool w _ = Some ?x |- _ => assert (x = ps) by congruence; subst x end.
    subst w'. rewrite the_pool_put. eexists. split; [reflexivity|]. apply pe_enable; auto. sgn.
  - apply start_rebalance_inv in H.
    destruct H as (x1&x2&x3&x4&x5&x6&x7&x8&x9&x10&x11&x12&cs&cd&ps0&l&lsrc&ldst&ts&td&w1&w2&ps2&w3&w4&ps4&
      Hacc & _ & _ & _ & _ & _ & _ & Hs & Hk & Hp & Hac & Hl & _ & Hnd & _ & _ & _ & _ & _ & _ & _ & _ & _ & _ & _ & _ &
      S1 & S2 & Hp2 & T & S3 & Hr4 & Hp4 & ->).
    assert (ps0 = ps) by congruence. subst ps0.
    assert (HV : vals_only w w4).
    { eapply vals_trans; [eapply sync_vals, S1|]. eapply vals_trans; [eapply sync_vals, S2|].
      eapply vals_trans; [eapply ctl_vals, transfer_ctl, T|]. eapply sync_vals, S3. }
    destruct (vals_pool _ _ _ HV Hps) as (v & Hv).
    assert (ps4 = set_total ps v) by (unfold the_pool in Hv; congruence). subst ps4.
    rewrite the_pool_put. eexists. split; [reflexivity|]. apply pe_start; auto.
    eapply signed_in; [|exact Hs|exact Hk]. subst; cbn; tauto.
  - apply end_rebalance_inv in H.
    destruct H as (x1&x2&x3&x4&x5&x6&c&ps0&l&r&ldst&w2&ps2&Hacc&_&_&_&_&_&_&Hs&Hk&Hp&Hr&_&_&_&_&_&_&S&Hp2&_&->).
    assert (ps0 = ps) by congruence. subst ps0.
    apply sync_vals in S. destruct (vals_pool _ _ (set_rebalancing ps 0) S) as (v & Hv).
    { apply the_pool_put. }
    exists (set_total (set_rebalancing ps 0) v). split; [exact Hv|]. apply pe_end; auto.
    eapply signed_in; [|exact Hs|exact Hk]. subst; cbn; tauto.
  - apply set_rebalance_authority_inv in H. exs. match goal with H : w_pool w _ = Some ?x |- _ => assert (x = ps) by congruence; subst x end.
    subst w'. rewrite the_pool_put. eexists. split; [reflexivity|]. apply pe_reb; auto.
    eexists. split; [|eassumption]. eapply signed_in; [|eassumption|reflexivity]. subst; cbn; tauto.
  - apply initialize_inv in H. exs. congruence.
Qed.

(** The LST list as changed by each instruction. *)
Inductive list_effect (accs : list Meta) (ps : PoolState) (l : list LstState) : Ix -> list LstState -> Prop :=
| le_vals ix l' :
    match ix with
    | SyncSolValue _ | SwapExactIn _ | SwapExactOut _ | AddLiquidity _ | RemoveLiquidity _
    | StartRebalance _ | EndRebalance => True
    | _ => False end -> map strip l' = map strip l -> list_effect accs ps l ix l'
| le_same ix :
    match ix with
    | SyncSolValue _ | SwapExactIn _ | SwapExactOut _ | AddLiquidity _ | RemoveLiquidity _
    | StartRebalance _ | EndRebalance | AddLst | RemoveLst _ | DisableLstInput _ | EnableLstInput _
    | SetSolValueCalculator _ => False
    | _ => True end -> list_effect accs ps l ix l
| le_disable i ls m : nth_error accs 1 = Some m -> mk m = ls_mint ls ->
    nth_error l (Z.to_nat i) = Some ls ->
    list_effect accs ps l (DisableLstInput i) (replace_nth l (Z.to_nat i) (set_input_disabled ls 1))
| le_enable i ls m : nth_error accs 1 = Some m -> mk m = ls_mint ls ->
    nth_error l (Z.to_nat i) = Some ls ->
    list_effect accs ps l (EnableLstInput i) (replace_nth l (Z.to_nat i) (set_input_disabled ls 0))
| le_add m c b1 b2 : nth_error accs 2 = Some m -> nth_error accs 6 = Some c ->
    ~ In (mk m) (map ls_mint l) ->
    d_find D POOL_STATE_ID (mk (nth 11 accs m)) (mk m) = (mk (nth 3 accs m), b1) ->
    d_find D PROTOCOL_FEE_ID (mk (nth 11 accs m)) (mk m) = (mk (nth 4 accs m), b2) ->
    list_effect accs ps l AddLst (l ++ [mkLst 0 b1 b2 0 (mk m) (mk c)])
| le_remove i ls m : nth_error accs 2 = Some m -> mk m = ls_mint ls ->
    nth_error l (Z.to_nat i) = Some ls -> sol_value ls = 0 ->
    list_effect accs ps l (RemoveLst i) (remove_nth l (Z.to_nat i))
| le_calc i ls m c v : nth_error accs 1 = Some m -> mk m = ls_mint ls -> nth_error accs 5 = Some c ->
    nth_error l (Z.to_nat i) = Some ls ->
    list_effect accs ps l (SetSolValueCalculator i)
      (replace_nth l (Z.to_nat i) (set_sol_value (set_calculator ls (mk c)) v)).

Lemma process_list_effect E C w accs ix w' l :
  process D E C w accs ix = Ok w' -> the_list w = Some l ->
  exists l', the_list w' = Some l' /\
    (ix = Initialize /\ l' = l \/ exists ps, the_pool w = Some ps /\ list_effect accs ps l ix l').
Proof.
  intros H Hl. pose proof H as H0. unfold process in H. apply guard_ok in H as (Hwf & H). unfold the_list in Hl.
  destruct ix;
  try (match type of H with
       | process_set_admin _ _ = _ => apply set_admin_inv in H
       | process_set_protocol_fee _ _ _ _ = _ => apply set_protocol_fee_inv in H
       | process_set_protocol_fee_beneficiary _ _ = _ => apply set_beneficiary_inv in H
       | process_set_pricing_program _ _ = _ => apply set_pricing_inv in H
       | process_add_disable_pool_authority _ _ = _ => apply add_auth_inv in H
       | process_remove_disable_pool_authority _ _ _ = _ => apply remove_auth_inv in H
       | process_disable_pool _ _ = _ => apply disable_pool_inv in H
       | process_enable_pool _ _ = _ => apply enable_pool_inv in H
       | process_set_rebalance_authority _ _ = _ => apply set_rebalance_authority_inv in H
       end; exs; subst w'; exists l; split; [exact Hl|]; right; eexists; split; [eassumption|];
       apply le_same; exact I).
  - pose proof (sync_proc_vals _ _ _ _ _ _ H) as (HV & _).
    destruct (vals_list _ _ _ HV Hl) as (l' & Hv & He). exists l'. split; auto.
    apply sync_proc_inv in H. exs. right. eexists. split; [eassumption|]. now apply le_vals.
  - pose proof (swap_in_vals _ _ _ _ _ _ Hwf H) as (HV & _).
    destruct (vals_list _ _ _ HV Hl) as (l' & Hv & He). exists l'. split; auto.
    apply swap_exact_in_inv in H; auto. unfold swap_facts in H. exs. right. eexists. split; [eassumption|]. now apply le_vals.
  - pose proof (swap_out_vals _ _ _ _ _ _ Hwf H) as (HV & _).
    destruct (vals_list _ _ _ HV Hl) as (l' & Hv & He). exists l'. split; auto.
    apply swap_exact_out_inv in H; auto. unfold swap_facts in H. exs. right. eexists. split; [eassumption|]. now apply le_vals.
  - pose proof (add_liq_vals _ _ _ _ _ _ Hwf H) as (HV & _).
    destruct (vals_list _ _ _ HV Hl) as (l' & Hv & He). exists l'. split; auto.
    apply add_liquidity_inv in H; auto. unfold liq_facts in H. exs. right. eexists. split; [eassumption|]. now apply le_vals.
  - pose proof (remove_liq_vals _ _ _ _ _ _ Hwf H) as (HV & _).
    destruct (vals_list _ _ _ HV Hl) as (l' & Hv & He). exists l'. split; auto.
    apply remove_liquidity_inv in H; auto. unfold liq_facts in H. exs. right. eexists. split; [eassumption|]. now apply le_vals.
  - apply set_lst_input_inv in H.
    destruct H as (adm & lm & pst & lsl & rest & ps & l0 & ls & -> & _ & _ & _ & _ & _ & _ & Hp & _ & Hl0 & Hn & Hm & ->).
    assert (l0 = l) by congruence. subst l0. rewrite the_list_put. eexists. split; [reflexivity|]. right.
    exists ps. split; [exact Hp|]. eapply le_disable; [reflexivity|exact Hm|exact Hn].
  - apply set_lst_input_inv in H.
    destruct H as (adm & lm & pst & lsl & rest & ps & l0 & ls & -> & _ & _ & _ & _ & _ & _ & Hp & _ & Hl0 & Hn & Hm & ->).
    assert (l0 = l) by congruence. subst l0. rewrite the_list_put. eexists. split; [reflexivity|]. right.
    exists ps. split; [exact Hp|]. eapply le_enable; [reflexivity|exact Hm|exact Hn].
  - apply add_lst_inv in H.
    destruct H as (adm & payer & lst_mint & pr & pfa & pfaa & calc & pst & lsl & ap & sp & ltp & rest &
      ps & l0 & mi & w1 & w2 & prb & pfb & Hacc & _ & _ & _ & Htp & _ & _ & _ & _ & _ & _ & F1 & F2 & _ & _ & _ &
      Hp & _ & Hl0 & Hni & C1 & C2 & ->).
    assert (l0 = l) by congruence. subst l0. rewrite the_list_put. eexists. split; [reflexivity|]. right.
    exists ps. split; [exact Hp|]. subst accs.
    eapply le_add; cbn; [reflexivity|reflexivity|exact Hni| |]; congruence.
  - apply remove_lst_inv in H.
    destruct H as (adm & rf & lm & pr & pfa & pfaa & pst & lsl & ltp & rest & ps & l0 & ls & tr & tf & w1 &
      w2 & Hacc & _ & _ & _ & _ & _ & _ & _ & _ & _ & Hp & _ & Hl0 & Hn & Hm & _ & _ & Htr & Htf & Hz & Hz1 & Hz2 &
      C1 & C2 & ->).
    assert (l0 = l) by congruence. subst l0. rewrite the_list_put. eexists. split; [reflexivity|]. right.
    exists ps. split; [exact Hp|]. subst accs.
    eapply le_remove; [reflexivity| |exact Hn|exact Hz]. auto.
  - apply set_calculator_inv in H.
    destruct H as (adm & lm & pst & pr & lsl & ps & l0 & ls & c & Hacc & _ & _ & _ & _ & _ & _ & Hp & _ & Hl0 & Hn & Hm & _ & _ & S).
    assert (l0 = l) by congruence. subst l0.
    apply sync_revalued in S. destruct S as (v & hi & ps1 & l1 & ls1 & _ & _ & _ & Hl1 & Hn1 & _ & Hl' & _).
    rewrite the_list_put in Hl1. injection Hl1 as <-. unfold nth_lst in Hn.
    rewrite (nth_error_replace_same _ _ _ ls) in Hn1 by exact Hn. injection Hn1 as <-.
    rewrite Hl'. eexists. split; [reflexivity|]. right. exists ps. split; [exact Hp|].
    assert (Hrr : forall (x : list LstState) n a b, replace_nth (replace_nth x n a) n b = replace_nth x n b).
    { induction x; intros [|n] a0 b; cbn; auto. now rewrite IHx. }
    rewrite Hrr. subst accs. eapply le_calc; [reflexivity| |reflexivity|exact Hn]. auto.
  - apply withdraw_inv in H. exs.
    match goal with H : transfer_checked _ _ _ _ _ _ _ _ = Ok _ |- _ =>
      apply transfer_ctl in H; destruct H as (? & ? & _) end.
    exists l. split; [unfold the_list; congruence|]. right. eexists. split; [eassumption|]. now apply le_same.
  - apply start_rebalance_inv in H.
    destruct H as (x1&x2&x3&x4&x5&x6&x7&x8&x9&x10&x11&x12&cs&cd&ps0&l0&lsrc&ldst&ts&td&w1&w2&ps2&w3&w4&ps4&
      Hacc & _ & _ & _ & _ & _ & _ & Hs & Hk & Hp & Hac & Hl0 & _ & Hnd & _ & _ & _ & _ & _ & _ & _ & _ & _ & _ & _ & _ &
      S1 & S2 & Hp2 & T & S3 & Hr4 & Hp4 & ->).
    assert (HV : vals_only w w4).
    { eapply vals_trans; [eapply sync_vals, S1|]. eapply vals_trans; [eapply sync_vals, S2|].
      eapply vals_trans; [eapply ctl_vals, transfer_ctl, T|]. eapply sync_vals, S3. }
    destruct (vals_list _ _ _ HV Hl) as (l' & Hv & He). exists l'. split; [exact Hv|].
    right. eexists. split; [exact Hp|]. now apply le_vals.
  - apply end_rebalance_inv in H.
    destruct H as (x1&x2&x3&x4&x5&x6&c&ps0&l0&r&ldst&w2&ps2&Hacc&_&_&_&_&_&_&Hs&Hk&Hp&Hr&_&_&_&_&_&_&S&Hp2&_&->).
    apply sync_vals in S. destruct (vals_list _ _ l S) as (l' & Hv & He); [exact Hl|].
    exists l'. split; [exact Hv|]. right. eexists. split; [exact Hp|]. now apply le_vals.
  - apply initialize_inv in H. exs. subst w'. exists l. split; [exact Hl|]. left. auto.
Qed.

(** The authority list and the rebalance record. *)
Lemma process_auth_effect E C w accs ix w' :
  process D E C w accs ix = Ok w' ->
  match ix with
  | AddDisablePoolAuthority => exists ps l k m,
      the_pool w = Some ps /\ the_authorities w = Some l /\ signed_by accs (admin ps) /\
      nth_error accs 3 = Some m /\ k = mk m /\ ~ In k l /\ the_authorities w' = Some (l ++ [k])
  | RemoveDisablePoolAuthority i => exists ps l k,
      the_pool w = Some ps /\ the_authorities w = Some l /\ nth_error l (Z.to_nat i) = Some k /\
      (signed_by accs (admin ps) \/ signed_by accs k) /\
      the_authorities w' = Some (remove_nth l (Z.to_nat i))
  | _ => the_authorities w' = the_authorities w
  end.
Proof.
  intros H. pose proof H as H0. unfold process in H. apply guard_ok in H as (Hwf & H).
  destruct ix;
  try (match type of H with
       | process_set_lst_input _ _ _ _ = _ => apply set_lst_input_inv in H
       | process_set_admin _ _ = _ => apply set_admin_inv in H
       | process_set_protocol_fee _ _ _ _ = _ => apply set_protocol_fee_inv in H
       | process_set_protocol_fee_beneficiary _ _ = _ => apply set_beneficiary_inv in H
       | process_set_pricing_program _ _ = _ => apply set_pricing_inv in H
       | process_disable_pool _ _ = _ => apply disable_pool_inv in H
       | process_enable_pool _ _ = _ => apply enable_pool_inv in H
       | process_set_rebalance_authority _ _ = _ => apply set_rebalance_authority_inv in H
       | process_initialize _ _ = _ => apply initialize_inv in H
       end; exs; subst w'; reflexivity).
  - apply (sync_proc_vals _ _ _ _ _ _) in H as ((? & _) & _). auto.
  - apply (swap_in_vals _ _ _ _ _ _ Hwf) in H as ((? & _) & _). auto.
  - apply (swap_out_vals _ _ _ _ _ _ Hwf) in H as ((? & _) & _). auto.
  - apply (add_liq_vals _ _ _ _ _ _ Hwf) in H as ((? & _) & _). auto.
  - apply (remove_liq_vals _ _ _ _ _ _ Hwf) in H as ((? & _) & _). auto.
  - apply add_lst_inv in H. exs.
    repeat match goal with H : create_ata_if_not_exist _ _ _ _ _ = Ok _ |- _ =>
      apply create_ata_if_ctl in H; destruct H as (? & ? & ? & _) end.
    subst w'. unfold the_authorities. cbn. congruence.
  - apply remove_lst_inv in H. exs.
    repeat match goal with H : close_token_account _ _ _ _ _ = Ok _ |- _ =>
      apply close_ctl in H; destruct H as (? & ? & ? & _) end.
    subst w'. unfold the_authorities. cbn. congruence.
  - apply set_calculator_inv in H. exs.
    match goal with H : sync_sol_value_unchecked _ _ _ _ _ _ _ _ = Ok _ |- _ =>
      apply sync_vals in H; destruct H as (? & _) end. auto.
  - apply withdraw_inv in H. exs.
    match goal with H : transfer_checked _ _ _ _ _ _ _ _ = Ok _ |- _ =>
      apply transfer_ctl in H; destruct H as (? & ? & ? & _) end.
    unfold the_authorities. congruence.
  - apply add_auth_inv in H.
    destruct H as (p & a & ps & na & la & sy & rest & P & l & -> & _ & _ & _ & Hs & Hk & Hp & Ha & Hn & ->).
    exists P, l, (mk na), na. rewrite the_auth_put. csplit; auto.
    eapply signed_in; [|exact Hs|exact Hk]. cbn; tauto.
  - apply remove_auth_inv in H.
    destruct H as (p & a & au & ps & la & rest & P & l & -> & _ & _ & _ & Hs & Hk & Hp & Ha & Hn & ->).
    exists P, l, (mk au). rewrite the_auth_put. csplit; auto.
    destruct Hk as [Hk|Hk]; [left|right]; (eapply signed_in; [|exact Hs|exact Hk]); cbn; tauto.
  - apply start_rebalance_inv in H.
    destruct H as (x1&x2&x3&x4&x5&x6&x7&x8&x9&x10&x11&x12&cs&cd&ps0&l0&lsrc&ldst&ts&td&w1&w2&ps2&w3&w4&ps4&
      Hacc & _ & _ & _ & _ & _ & _ & Hs & Hk & Hp & Hac & Hl0 & _ & Hnd & _ & _ & _ & _ & _ & _ & _ & _ & _ & _ & _ & _ &
      S1 & S2 & Hp2 & T & S3 & Hr4 & Hp4 & ->).
    assert (HV : vals_only w w4).
    { eapply vals_trans; [eapply sync_vals, S1|]. eapply vals_trans; [eapply sync_vals, S2|].
      eapply vals_trans; [eapply ctl_vals, transfer_ctl, T|]. eapply sync_vals, S3. }
    destruct HV as (HV & _). exact HV.
  - apply end_rebalance_inv in H.
    destruct H as (x1&x2&x3&x4&x5&x6&c&ps0&l0&r&ldst&w2&ps2&Hacc&_&_&_&_&_&_&Hs&Hk&Hp&Hr&_&_&_&_&_&_&S&Hp2&_&->).
    apply sync_vals in S as (S & _). exact S.
Qed.

Lemma process_rec_effect E C w accs ix w' :
  process D E C w accs ix = Ok w' ->
  match ix with
  | StartRebalance _ => the_record w = None /\ the_record w' <> None
  | EndRebalance => the_record w <> None /\ the_record w' = None
  | _ => the_record w' = the_record w
  end.
Proof.
  intros H. pose proof H as H0. unfold process in H. apply guard_ok in H as (Hwf & H).
  destruct ix;
  try (match type of H with
       | process_set_lst_input _ _ _ _ = _ => apply set_lst_input_inv in H
       | process_set_admin _ _ = _ => apply set_admin_inv in H
       | process_set_protocol_fee _ _ _ _ = _ => apply set_protocol_fee_inv in H
       | process_set_protocol_fee_beneficiary _ _ = _ => apply set_beneficiary_inv in H
       | process_set_pricing_program _ _ = _ => apply set_pricing_inv in H
       | process_add_disable_pool_authority _ _ = _ => apply add_auth_inv in H
       | process_remove_disable_pool_authority _ _ _ = _ => apply remove_auth_inv in H
       | process_disable_pool _ _ = _ => apply disable_pool_inv in H
       | process_enable_pool _ _ = _ => apply enable_pool_inv in H
       | process_set_rebalance_authority _ _ = _ => apply set_rebalance_authority_inv in H
       | process_initialize _ _ = _ => apply initialize_inv in H
       end; exs; subst w'; reflexivity).
  - apply (sync_proc_vals _ _ _ _ _ _) in H as ((_ & ? & _) & _). auto.
  - apply (swap_in_vals _ _ _ _ _ _ Hwf) in H as ((_ & ? & _) & _). auto.
  - apply (swap_out_vals _ _ _ _ _ _ Hwf) in H as ((_ & ? & _) & _). auto.
  - apply (add_liq_vals _ _ _ _ _ _ Hwf) in H as ((_ & ? & _) & _). auto.
  - apply (remove_liq_vals _ _ _ _ _ _ Hwf) in H as ((_ & ? & _) & _). auto.
  - apply add_lst_inv in H. exs.
    repeat match goal with H : create_ata_if_not_exist _ _ _ _ _ = Ok _ |- _ =>
      apply create_ata_if_ctl in H; destruct H as (? & ? & ? & ? & _) end.
    subst w'. unfold the_record. cbn. congruence.
  - apply remove_lst_inv in H. exs.
    repeat match goal with H : close_token_account _ _ _ _ _ = Ok _ |- _ =>
      apply close_ctl in H; destruct H as (? & ? & ? & ? & _) end.
    subst w'. unfold the_record. cbn. congruence.
  - apply set_calculator_inv in H. exs.
    match goal with H : sync_sol_value_unchecked _ _ _ _ _ _ _ _ = Ok _ |- _ =>
      apply sync_vals in H; destruct H as (_ & ? & _) end. auto.
  - apply withdraw_inv in H. exs.
    match goal with H : transfer_checked _ _ _ _ _ _ _ _ = Ok _ |- _ =>
      apply transfer_ctl in H; destruct H as (? & ? & ? & ? & _) end.
    unfold the_record. congruence.
  - apply start_rebalance_inv in H.
    destruct H as (x1&x2&x3&x4&x5&x6&x7&x8&x9&x10&x11&x12&cs&cd&ps0&l0&lsrc&ldst&ts&td&w1&w2&ps2&w3&w4&ps4&
      Hacc & _ & _ & _ & _ & _ & _ & Hs & Hk & Hp & Hac & Hl0 & _ & Hnd & _ & _ & _ & _ & _ & _ & _ & _ & _ & _ & _ & _ &
      S1 & S2 & Hp2 & T & S3 & Hr4 & Hp4 & ->).
    assert (HV : vals_only w w4).
    { eapply vals_trans; [eapply sync_vals, S1|]. eapply vals_trans; [eapply sync_vals, S2|].
      eapply vals_trans; [eapply ctl_vals, transfer_ctl, T|]. eapply sync_vals, S3. }
    destruct HV as (_ & HV & _). split; [unfold the_record in *; congruence|].
    unfold the_record. cbn. rewrite upd_same. discriminate.
  - apply end_rebalance_inv in H.
    destruct H as (x1&x2&x3&x4&x5&x6&c&ps0&l0&r&ldst&w2&ps2&Hacc&_&_&_&_&_&_&Hs&Hk&Hp&Hr&_&Hrr&_&_&_&_&S&Hp2&_&->).
    rewrite the_rec_put. split; auto. unfold the_record. congruence.
Qed.

End WithDerive.
