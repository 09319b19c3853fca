(** C58: LSTs that charge for transfers (Token-2022's TransferFeeConfig). *)
From Coq Require Import ZArith List Bool Lia.
From Verif Require Import Base Ratio Calc State Controller Inversion ProcInv Spec CalcProofs InvProofs
  TokProofs AccessProofs ShapeProofs MoneyProofs Concrete ConcreteReach PropState PropTok PropMoney PropLp Fee FeeSpec FeeProofs.
Import ListNotations.
Open Scope Z_scope.

(** The fee a transfer of [a] tokens of [m] pays. *)
Definition tax (F : key -> Z -> Z) (w : World) (m : key) (a : Z) : Z := withheld F (w_owner w m) m a.

(* ------------------------------------------------------------------ *)
(** Where no mint charges a fee the instructions are those of the rest of the development, and so are the histories. *)
Lemma transfer_no_fee F w p f t m au s a : (forall m a, F m a = 0) -> transfer_fee F w p f t m au s a = transfer_checked w p f t m au s a.
Proof.
  intros HF. unfold transfer_fee, transfer_checked, withheld. rewrite HF.
  replace (if p =? SPL_TOKEN_2022_ID then 0 else 0) with 0 by (destruct (p =? _); reflexivity).
  rewrite !Z.sub_0_r. reflexivity.
Qed.
Lemma bind_ext A B (r : res A) (f g : A -> res B) : (forall x, f x = g x) -> bind r f = bind r g.
Proof. intros H. destruct r; cbn; auto. Qed.
Lemma guard_ext A b e (r r' : res A) : r = r' -> guard b e r = guard b e r'.
Proof. now intros ->. Qed.
Theorem C58_no_fee D F E C w accs ix : (forall m a, F m a = 0) ->
  process_f D F E C w accs ix = process D E C w accs ix.
Proof.
  intros HF.
  assert (HT := fun w p f t m au s a => transfer_no_fee F w p f t m au s a HF).
  unfold process_f, process, process_swap_exact_in_f, process_swap_exact_in, process_swap_exact_out_f, process_swap_exact_out,
    swap_settle_f, swap_settle, process_add_liquidity_f, process_add_liquidity,
    process_remove_liquidity_f, process_remove_liquidity, process_withdraw_protocol_fees_f, process_withdraw_protocol_fees,
    process_start_rebalance_f, process_start_rebalance.
  destruct (ix_wfb ix) eqn:Hw; [|reflexivity]. destruct ix; cbn [guard]; rewrite ?Hw; cbn [guard];
  repeat match goal with
    | |- ?a = ?a => reflexivity
    | |- bind (transfer_fee F ?w ?p ?f ?t ?m ?au ?s ?x) _ = _ => rewrite (HT w p f t m au s x)
    | |- transfer_fee F ?w ?p ?f ?t ?m ?au ?s ?x = _ => rewrite (HT w p f t m au s x)
    | |- bind ?r _ = bind ?r _ => apply (bind_ext _ _ r); intros
    | |- bind _ _ = bind _ _ => f_equal
    | |- guard _ _ _ = guard _ _ _ => apply guard_ext
    | |- verify_keys_privs _ _ _ _ _ = _ => unfold verify_keys_privs
    | |- (match ?x with _ => _ end) = _ => destruct x
    end.
Qed.
Theorem C58_no_fee_histories D F w : (forall m a, F m a = 0) -> (fee_reachable D F w <-> reachable D w).
Proof.
  intros HF. split; intros (w0 & Hg & Hs); exists w0; split; auto; clear Hg.
  - induction Hs as [|w1 w2 _ IH Hst]; [constructor|]. eapply steps_cons; [exact IH|].
    destruct Hst as [Hx|E C accs ix Hp H]; [apply step_external; exact Hx|].
    rewrite (C58_no_fee _ _ _ _ _ _ _ HF) in H. eapply step_controller; eauto.
  - induction Hs as [|w1 w2 w3 _ IH Hst]; [constructor|]. eapply fee_cons; [exact IH|].
    destruct Hst as [Hx|E C accs ix Hp H]; [apply fee_external; exact Hx|].
    apply (fee_controller _ _ _ _ E C accs ix Hp). rewrite (C58_no_fee _ _ _ _ _ _ _ HF). exact H.
Qed.

(* ------------------------------------------------------------------ *)
Section WithFee.
Variable D : Derive.
Variable F : key -> Z -> Z.
Hypothesis HF : fee_fun F.
Hypothesis HD : derive_ok D.

(** The books stay right: total = sum of the recorded values, whatever the mints charge. *)
Theorem C58_total w : fee_reachable D F w ->
  exists l, the_list w = Some l /\
    (the_pool w = None -> l = []) /\
    (forall ps, the_pool w = Some ps -> total_sol_value ps = sumZ (map sol_value l)).
Proof.
  intros Hr. destruct (fee_reachable_inv D F HF HD w Hr) as (((l & au & Hl & _ & _ & _ & _ & _ & Hp) & _) & _).
  exists l. split; auto. destruct (the_pool w) as [ps|]; split; try congruence.
  intros ps' [= <-]. apply Hp.
Qed.

(** A swap never lowers the pool's value: both reserves are valued on what really arrived in and left them, and the swap is
    refused unless they are worth at least as much as before (swap_keeps_value is C04's). *)
Lemma swap_flow_f_keeps_value E w accs n m i j w2 si so fee w' :
  0 <= i -> 0 <= j -> i <> j -> swap_flow_f F E w accs n m i j w2 si so fee w' -> total w2 <= total w' ->
  swap_keeps_value E w accs n m i j w'.
Proof.
  intros Hi Hj Hne (w1 & w3 & w4 & R1 & R2 & Hc & _ & _ & R3 & R4) Ht.
  pose proof R1 as R1'. pose proof R2 as R2'.
  apply same_ctl_figures in Hc as (Hct & Hcr).
  apply revalued_figures in R1 as (vs & V1 & E1 & T1 & O1 & B1), R2 as (vd & V2 & E2 & T2 & O2 & B2),
    R3 as (vs' & V3 & E3 & T3 & O3 & B3), R4 as (vd' & V4 & E4 & T4 & O4 & B4); auto.
  exists w1, w2, w3, w4, vs, vd, vs', vd'. rewrite B1 in V2. rewrite B4, B3. rewrite B3 in V4.
  csplit; auto.
  - rewrite T4, T3, Hct, (O3 j), Hcr, E2, (O2 i) in Ht by auto. lia.
  - rewrite (O4 i) by auto. exact E3.
Qed.
Lemma process_f_wf E C w accs ix w' : process_f D F E C w accs ix = Ok w' -> ix_wfb ix = true.
Proof. intros H. unfold process_f in H. apply guard_ok in H as (Hwf & H). exact Hwf. Qed.

Theorem C58_swap_exact_in_value E C w accs a w' :
  fee_reachable D F w -> process_f D F E C w accs (SwapExactIn a) = Ok w' ->
  swap_keeps_value E w accs (si_src_lst_value_calc_accs a) (si_dst_lst_value_calc_accs a)
    (si_src_lst_index a) (si_dst_lst_index a) w'.
Proof.
  intros Hr H. pose proof (proj1 (proj1 (fee_reachable_inv D F HF HD _ Hr))) as Hb.
  pose proof (process_f_wf _ _ _ _ _ _ H) as Hwf. wf Hwf.
  destruct (swap_in_parties_f _ _ _ _ _ _ _ _ H) as (l & lsrc & ldst & _ & N1 & N2 & HQ).
  apply swap_in_run_f in H; auto. cbv zeta in H. destruct H as (w2 & ? & ? & ? & ? & ? & fee & HFl & H).
  eapply swap_flow_f_keeps_value; [| |eapply parties_distinct; eauto|exact HFl|]; lia.
Qed.
Theorem C58_swap_exact_out_value E C w accs a w' :
  fee_reachable D F w -> process_f D F E C w accs (SwapExactOut a) = Ok w' ->
  swap_keeps_value E w accs (so_src_lst_value_calc_accs a) (so_dst_lst_value_calc_accs a)
    (so_src_lst_index a) (so_dst_lst_index a) w'.
Proof.
  intros Hr H. pose proof (proj1 (proj1 (fee_reachable_inv D F HF HD _ Hr))) as Hb.
  pose proof (process_f_wf _ _ _ _ _ _ H) as Hwf. wf Hwf.
  destruct (swap_out_parties_f _ _ _ _ _ _ _ _ H) as (l & lsrc & ldst & _ & N1 & N2 & HQ).
  apply swap_out_run_f in H; auto. cbv zeta in H. destruct H as (w2 & ? & ? & ? & ? & ? & fee & HFl & H).
  eapply swap_flow_f_keeps_value; [| |eapply parties_distinct; eauto|exact HFl|]; lia.
Qed.

(** What a swap moves: the reserves receive the input less the fee; the user and the protocol receive the output and the
    cut less theirs. *)
Definition swap_moves_f (w : World) accs (src_in dst_out fee : Z) (w' : World) : Prop :=
  balance w' (sw_user_src accs) = balance w (sw_user_src accs) - src_in /\
  balance w' (sw_user_dst accs) = balance w (sw_user_dst accs) + (dst_out - tax F w (sw_dst_mint accs) dst_out) /\
  balance w' (sw_src_reserves accs) = balance w (sw_src_reserves accs) + (src_in - tax F w (sw_src_mint accs) src_in) /\
  balance w' (sw_dst_reserves accs) = balance w (sw_dst_reserves accs) - dst_out - fee /\
  balance w' (sw_fee_acc accs) = balance w (sw_fee_acc accs) + (fee - tax F w (sw_dst_mint accs) fee) /\
  (forall k, ~ In k [sw_user_src accs; sw_user_dst accs; sw_src_reserves accs; sw_dst_reserves accs;
                     sw_fee_acc accs] -> balance w' k = balance w k) /\
  (forall M, supply w' M = supply w M).

Lemma arrives_ne w m x y a : x <> y -> arrives F w m x y a = a - tax F w m a.
Proof. intros H. unfold arrives, tax. now apply Z.eqb_neq in H as ->. Qed.
Lemma tax_range w m a : 0 <= a -> 0 <= tax F w m a <= a.
Proof. apply withheld_range, HF. Qed.
Lemma swap_flow_f_moves E w accs n m i j w2 si so fee w' lsrc ldst :
  ata_ok D w -> pdas_do_not_sign accs -> swap_parties D w accs lsrc ldst ->
  users_account w (sw_user_dst accs) ->
  swap_flow_f F E w accs n m i j w2 si so fee w' -> swap_moves_f w accs si so fee w'.
Proof.
  intros Ha Hn HQ Hu (w1 & w3 & w4 & R1 & R2 & _ & HM & HB & R3 & R4).
  destruct HQ as (Hne & _ & _ & _ & (us & US & USm & USo & USs) & (ud & UD & UDm) & (rs & RS & RSm) &
    (rd & RDd & RDm & RDo) & (fa & FA & FAm) & D1 & D2 & D3).
  pose proof (signer_users _ _ _ _ Hn US USo USs _ US) as (N1 & N2). destruct (Hu _ UD) as (N3 & N4).
  pose proof (derived_held _ _ _ _ _ _ _ _ Ha (or_introl eq_refl) D1 RS) as O1.
  pose proof (derived_held _ _ _ _ _ _ _ _ Ha (or_intror eq_refl) D3 FA) as O3.
  pose proof pool_ne_fee as PF.
  apply revalued_supply in R1 as (S1 & B1), R2 as (S2 & B2), R3 as (S3 & B3), R4 as (S4 & B4).
  assert (HB' : forall k, balance w' k = balance w k
       - on k (sw_user_src accs) si + on k (sw_src_reserves accs) (si - tax F w (sw_src_mint accs) si)
       - on k (sw_dst_reserves accs) (so + fee)
       + on k (sw_fee_acc accs) (fee - tax F w (sw_dst_mint accs) fee) + on k (sw_user_dst accs) (so - tax F w (sw_dst_mint accs) so)).
  { intros k. rewrite B4, B3, HB, B2, B1. rewrite !arrives_ne by (intros Heq; rewrite Heq in *; congruence). reflexivity. }
  clear HB B1 B2 B3 B4. unfold swap_moves_f.
  csplit; try (rewrite HB', ?on_same; repeat rewrite on_other by (intros Heq; rewrite Heq in *; congruence); lia).
  - intros k Hk. cbn in Hk. rewrite HB'. rewrite !on_other by (intros ->; tauto). lia.
  - intros M. rewrite S4, S3. transitivity (supply w2 M); [unfold supply; now rewrite HM|]. now rewrite S2, S1.
Qed.
(** The bound the user signs is checked against what leaves the reserves, not against what arrives: an exact-in swap sends
    at least the minimum, an exact-out swap exactly the amount, and the mint's fee comes off that
    ([C58_minimum_not_met] below). *)
Theorem C58_swap_exact_in_moves E C w accs a w' :
  fee_reachable D F w -> pdas_do_not_sign accs -> users_account w (sw_user_dst accs) ->
  process_f D F E C w accs (SwapExactIn a) = Ok w' ->
  exists dst_out fee, swap_moves_f w accs (si_amount a) dst_out fee w' /\
    0 < si_amount a <= balance w (sw_user_src accs) /\
    si_min_amount_out a <= dst_out /\ 0 < dst_out /\ 0 <= fee /\
    (exists t, w_tok w (sw_user_src accs) = Some t /\ ta_mint t = sw_src_mint accs /\ signed_by accs (ta_owner t)) /\
    (exists t, w_tok w (sw_user_dst accs) = Some t /\ ta_mint t = sw_dst_mint accs).
Proof.
  intros Hr Hn Hu H. destruct (fee_reachable_inv D F HF HD _ Hr) as ((Hb & _) & (Ha & _)).
  destruct (swap_in_parties_f _ _ _ _ _ _ _ _ H) as (l & lsrc & ldst & _ & _ & _ & HQ).
  apply swap_in_run_f in H; auto. cbv zeta in *.
  destruct H as (w2 & in_sol & in_hi & out_sol & dst_out & dst_hi & fee & HFl & H).
  exists dst_out, fee. pose proof HQ as (_ & _ & _ & _ & (u & U1 & U2 & U3 & U4) & HD' & _).
  csplit; try lia; eauto using swap_flow_f_moves. exists u. rewrite U3. auto.
Qed.
Theorem C58_swap_exact_out_moves E C w accs a w' :
  fee_reachable D F w -> pdas_do_not_sign accs -> users_account w (sw_user_dst accs) ->
  process_f D F E C w accs (SwapExactOut a) = Ok w' ->
  exists src_in fee, swap_moves_f w accs src_in (so_amount a) fee w' /\
    0 < so_amount a /\ 0 < src_in <= so_max_amount_in a /\ src_in <= balance w (sw_user_src accs) /\ 0 <= fee /\
    (exists t, w_tok w (sw_user_src accs) = Some t /\ ta_mint t = sw_src_mint accs /\ signed_by accs (ta_owner t)) /\
    (exists t, w_tok w (sw_user_dst accs) = Some t /\ ta_mint t = sw_dst_mint accs).
Proof.
  intros Hr Hn Hu H. destruct (fee_reachable_inv D F HF HD _ Hr) as ((Hb & _) & (Ha & _)).
  destruct (swap_out_parties_f _ _ _ _ _ _ _ _ H) as (l & lsrc & ldst & _ & _ & _ & HQ).
  apply swap_out_run_f in H; auto. cbv zeta in *.
  destruct H as (w2 & out_lo & out_sol & in_sol & src_lo & src_in & fee & HFl & H).
  exists src_in, fee. pose proof HQ as (_ & _ & _ & _ & (u & U1 & U2 & U3 & U4) & HD' & _).
  csplit; try lia; eauto using swap_flow_f_moves. exists u. rewrite U3. auto.
Qed.

(* ------------------------------------------------------------------ *)
(** AddLiquidity credits the deposit before the mint's fee comes off: the pool's value rises by [after] less what the fee
    on the reserves' share is worth, the LP tokens are minted for all of [after]. It is only refused when the pool
    as a whole would end up with less than before. *)
Lemma deposit_value_f n d e R v amt sol after P tr fee t v' :
  0 < n -> 0 < d -> 0 < amt -> 0 <= after <= sol -> 0 <= P <= sol - after ->
  v * d <= R * n -> sol * d <= amt * n -> (R + tr - t) * n < (v' + e) * d ->
  tr + fee = amt -> fee * sol <= P * amt -> 0 <= fee -> 0 < tr ->
  (v + after - e - v') * d < t * n.
Proof.
  intros Hn Hd Ha Haf HP Hv Hs Hv' Hsum Hf Hf0 Htr.
  assert (Htn : after * d <= tr * n).
  { destruct (Z.eq_dec sol 0) as [->|Hs0]; [nia|].
    assert (H1 : after * amt <= tr * sol) by nia.
    assert (H2 : after * (sol * d) <= after * (amt * n)) by (apply Z.mul_le_mono_nonneg_l; lia).
    assert (H3 : after * amt * n <= tr * sol * n) by (apply Z.mul_le_mono_nonneg_r; lia).
    assert (H4 : sol * (after * d) <= sol * (tr * n)) by nia.
    apply Z.mul_le_mono_pos_l in H4; lia. }
  nia.
Qed.
Lemma add_reserves_f E w accs n i w1 tr fee lp w' ls t :
  ata_ok D w -> pdas_do_not_sign accs -> liq_parties D w accs ls ->
  w_tok w (lq_user_lst accs) = Some t -> ta_owner t = key_at accs 0 -> signed_by accs (key_at accs 0) ->
  0 <= lp -> add_flow_f F E w accs n i w1 tr fee lp w' ->
  balance w (lq_reserves accs) + (tr - tax F w (lq_mint accs) tr) <= balance w' (lq_reserves accs).
Proof.
  intros Ha Hn HQ US USo USs Hlp (w2 & R1 & _ & HS & HB & R2).
  destruct HQ as (_ & _ & _ & (rs & RS & RSm) & (fa & FA & FAm) & D1 & D2).
  pose proof (signer_users _ _ _ _ Hn US USo USs _ US) as (N1 & N2).
  pose proof (derived_held _ _ _ _ _ _ _ _ Ha (or_introl eq_refl) D1 RS) as O1.
  pose proof (derived_held _ _ _ _ _ _ _ _ Ha (or_intror eq_refl) D2 FA) as O3.
  pose proof pool_ne_fee as PF.
  apply revalued_supply in R1 as (S1 & B1), R2 as (S2 & B2). rewrite B2, HB, B1.
  rewrite on_same, (on_other _ (lq_user_lst accs)), (on_other _ (lq_fee_acc accs))
    by (intros Heq; rewrite Heq in *; congruence).
  rewrite arrives_ne by (intros Heq; rewrite Heq in *; congruence).
  unfold on. destruct (lq_reserves accs =? lq_user_lp accs); lia.
Qed.
Theorem C58_add_liquidity E C w accs a w' n d e :
  fee_reachable D F w -> pdas_do_not_sign accs -> process_f D F E C w accs (AddLiquidity a) = Ok w' ->
  let g := group accs 11 (al_lst_value_calc_accs a) in
  let gp := skipn (11 + Z.to_nat (al_lst_value_calc_accs a)) accs in
  at_rate E (group_prog g) (lq_mint accs) (group_accs g) n d e ->
  exists w1 sol hi after to_reserves,
    revalued E w (al_lst_index a) (lq_reserves accs) (group_prog g) (lq_mint accs) (group_accs g) w1 /\
    e_lst_to_sol E w1 (group_prog g) (lq_mint accs) (group_accs g) (al_lst_amount a) = Ok (sol, hi) /\
    e_price_lp_to_mint E w1 (group_prog gp) (lq_mint accs) (group_accs gp) (al_lst_amount a) sol = Ok after /\
    0 < to_reserves <= al_lst_amount a /\
    let S := supply w (lq_lp_mint accs) in let S' := supply w' (lq_lp_mint accs) in
    let t := tax F w (lq_mint accs) to_reserves in
    0 <= after <= sol /\ total w1 <= total w' /\
    (total w1 + after - e - total w') * d < t * n /\
    (0 < S -> 0 < total w1 -> S' - S = after * S / total w1) /\
    (0 < S -> (total w1 * S' - total w' * S - e * S) * d < t * n * S).
Proof.
  intros Hr Hn H g gp Hrate. destruct (fee_reachable_inv D F HF HD _ Hr) as ((Hb & _) & (Ha & _)).
  destruct (add_parties_f _ _ _ _ _ _ _ _ H) as (l & ls & us & _ & _ & _ & HQ & US & USo & USs).
  pose proof (process_f_wf _ _ _ _ _ _ H) as Hwf. wf Hwf.
  apply add_run_f in H; auto. cbv zeta in H. fold g in H. fold gp in H.
  destruct H as (w1 & sol & hi & after & tr & fee & lp & HFl & I1 & I2 & Hc & Hlp & U1 & U2 & Haf & Hsum & Htr & Hfee &
    Hlp0 & _ & Ha0 & Hbps & Hbe & Ht & Ut & Us & Hse & _).
  pose proof (add_reserves_f _ _ _ _ _ _ _ _ _ _ _ _ Ha Hn HQ US USo USs (Z.lt_le_incl _ _ Hlp0) HFl) as HR.
  unfold U64 in *. pose proof Hrate as (Hn0 & Hd0 & He & Hrt).
  exists w1, sol, hi, after, tr. set (t := tax F w (lq_mint accs) tr) in *.
  destruct HFl as (w2 & R1 & Hctl & HS' & HB & R2). fold g in R1, R2.
  split; [exact R1|]. split; [exact I1|]. split; [exact I2|]. split; [lia|]. cbv zeta.
  pose proof (revalued_supply _ _ _ _ _ _ _ _ R1) as (S1 & B1). pose proof (revalued_supply _ _ _ _ _ _ _ _ R2) as (S2 & B2).
  assert (HSs : supply w' (lq_lp_mint accs) = supply w (lq_lp_mint accs) + lp) by (rewrite S2, HS', S1, on_same; reflexivity).
  apply same_ctl_figures in Hctl as (Hct & Hcr).
  assert (Hidx : 0 <= al_lst_index a) by lia.
  apply revalued_figures in R1 as (v & V1 & E1 & T1 & O1 & _), R2 as (v' & V2 & E2 & T2 & O2 & _); auto.
  rewrite <- B2 in V2. rewrite Hct, Hcr, E1 in T2.
  apply add_fee_eq in Hc as (Hb1 & Hfe & _); [|lia].
  pose proof (Hrt _ _ _ V1) as Q1. pose proof (Hrt _ _ _ V2) as Q2. pose proof (Hrt _ _ _ (ex_intro _ hi I1)) as Q3.
  pose proof (bps_share_bounds (lp_fee_bps w1) (sol - after) ltac:(lia) ltac:(lia)) as QP.
  assert (Hfs : fee * sol <= bps_share (lp_fee_bps w1) (sol - after) * al_lst_amount a).
  { rewrite Hfe. destruct (Z.eq_dec sol 0) as [->|]; [nia|]. rewrite Z.mul_comm. apply Z.mul_div_le. lia. }
  assert (Hval : (v + after - e - v') * d < t * n).
  { assert (HQ2 : (balance w (lq_reserves accs) + tr - t) * n < (v' + e) * d).
    { eapply Z.le_lt_trans; [|apply Q2]. apply Z.mul_le_mono_nonneg_r; lia. }
    eapply (deposit_value_f n d e _ v (al_lst_amount a) sol after _ tr fee t v' Hn0 Hd0 Ha0); try exact HQ2; try exact Hfs; try apply Q1; try apply Q3; lia. }
  assert (Htot : (total w1 + after - e - total w') * d < t * n).
  { replace (total w1 + after - e - total w') with (v + after - e - v') by lia. exact Hval. }
  rewrite Hse in Hlp, Us. set (S := supply w (lq_lp_mint accs)) in *.
  csplit; auto; try lia.
  - intros HS0 HT0. rewrite HSs. revert Hlp. unfold calc_lp_tokens_to_mint.
    destruct (Z.eqb_spec S 0); [lia|]. destruct (Z.eqb_spec (total w1) 0); [lia|].
    intros Hq. apply floor_apply_eq in Hq. lia.
  - intros HS0. rewrite HSs.
    assert (HL : total w1 * lp <= after * S).
    { destruct (Z.eq_dec (total w1) 0) as [Hz|Hz]; [rewrite Hz; nia|]. apply lp_to_mint_le in Hlp; lia. }
    assert (Hm : total w1 * (S + lp) - total w' * S - e * S <= (total w1 + after - e - total w') * S) by nia.
    assert (Hm2 : (total w1 + after - e - total w') * d * S < t * n * S) by (apply Z.mul_lt_mono_pos_r; lia).
    nia.
Qed.

(* ------------------------------------------------------------------ *)
(** RemoveLiquidity is as safe for those who stay as without fees: what leaves the reserves is what the redeemer is sent plus
    the protocol's cut, and the fee comes off what they receive (the statement is C07_price's). *)
Lemma remove_reserves_f E w accs n i w1 lp tu fee w' ls t :
  ata_ok D w -> pdas_do_not_sign accs -> liq_parties D w accs ls ->
  w_tok w (lq_user_lp accs) = Some t -> ta_owner t = key_at accs 0 -> signed_by accs (key_at accs 0) ->
  0 <= tu -> remove_flow_f F E w accs n i w1 lp tu fee w' ->
  balance w (lq_reserves accs) - tu - fee <= balance w' (lq_reserves accs).
Proof.
  intros Ha Hn HQ US USo USs Htu (w2 & R1 & _ & HS & HB & R2).
  destruct HQ as (_ & _ & _ & (rs & RS & RSm) & (fa & FA & FAm) & D1 & D2).
  pose proof (signer_users _ _ _ _ Hn US USo USs _ US) as (N1 & N2).
  pose proof (derived_held _ _ _ _ _ _ _ _ Ha (or_introl eq_refl) D1 RS) as O1.
  pose proof (derived_held _ _ _ _ _ _ _ _ Ha (or_intror eq_refl) D2 FA) as O3.
  pose proof pool_ne_fee as PF.
  apply revalued_supply in R1 as (S1 & B1), R2 as (S2 & B2). rewrite B2, HB, B1.
  rewrite on_same, (on_other _ (lq_user_lp accs)), (on_other _ (lq_fee_acc accs))
    by (intros Heq; rewrite Heq in *; congruence).
  unfold on. destruct (lq_reserves accs =? lq_user_lst accs); [|lia].
  assert (Hge : 0 <= arrives F w (lq_mint accs) (lq_reserves accs) (lq_user_lst accs) tu).
  { unfold arrives. pose proof (tax_range w (lq_mint accs) tu Htu) as Ht. unfold tax in Ht. destruct (_ =? _); lia. }
  lia.
Qed.
Theorem C58_remove_liquidity E C w accs a w' n d :
  fee_reachable D F w -> pdas_do_not_sign accs -> process_f D F E C w accs (RemoveLiquidity a) = Ok w' ->
  let g := group accs 11 (rl_lst_value_calc_accs a) in
  let gp := skipn (11 + Z.to_nat (rl_lst_value_calc_accs a)) accs in
  at_rate E (group_prog g) (lq_mint accs) (group_accs g) n d 1 ->
  exists w1 sol after to_user hi,
    revalued E w (rl_lst_index a) (lq_reserves accs) (group_prog g) (lq_mint accs) (group_accs g) w1 /\
    sol = rl_lp_token_amount a * total w1 / supply w (lq_lp_mint accs) /\
    e_price_lp_to_redeem E w1 (group_prog gp) (lq_mint accs) (group_accs gp) (rl_lp_token_amount a) sol = Ok after /\
    e_sol_to_lst E w1 (group_prog g) (lq_mint accs) (group_accs g) after = Ok (to_user, hi) /\
    0 <= after <= sol /\
    let S := supply w (lq_lp_mint accs) in let S' := supply w' (lq_lp_mint accs) in
    (0 < after -> to_user * n <= after * d ->
       total w' >= total w1 - sol /\ total w' * S >= total w1 * S') /\
    (0 < after -> (to_user - 1) * n < after * d ->
       (total w1 - total w' - sol - 1) * (d * after) < n * sol /\
       (total w1 * S' - total w' * S - S) * (d * after) <= n * sol * S).
Proof.
  intros Hr Hn H g gp Hrate. destruct (fee_reachable_inv D F HF HD _ Hr) as ((Hb & _) & (Ha & _)).
  destruct (remove_parties_f _ _ _ _ _ _ _ _ H) as (l & ls & us & _ & _ & HQ & US & USo & USs).
  pose proof (process_f_wf _ _ _ _ _ _ H) as Hwf. wf Hwf.
  apply remove_run_f in H; auto. cbv zeta in H. fold g in H. fold gp in H.
  destruct H as (w1 & sol & after & tu & hi & fee & HFl & Hlp & I1 & I2 & Hc & U1 & U2 & Haf & Htu & _ & Hfee &
    Hlp0 & Hbps & Hbe & Ut & Us & Hse & Hls & _). unfold U64 in *.
  assert (Htu0 : 0 <= tu) by lia.
  pose proof (remove_reserves_f _ _ _ _ _ _ _ _ _ _ _ _ Ha Hn HQ US USo USs Htu0 HFl) as HR.
  destruct HFl as (w2 & R1 & Hctl & HS' & _ & R2). fold g in R1, R2.
  apply remove_fee_eq in Hc as (_ & Hfe); [|lia].
  destruct Hrate as (Hn0 & Hd0 & _ & Hrate).
  exists w1, sol, after, tu, hi. split; [exact R1|].
  pose proof (revalued_supply _ _ _ _ _ _ _ _ R1) as (S1 & B1). pose proof (revalued_supply _ _ _ _ _ _ _ _ R2) as (S2 & B2).
  apply same_ctl_figures in Hctl as (Hct & Hcr).
  apply revalued_figures in R1 as (v & V1 & E1 & T1 & O1 & _), R2 as (v' & V2 & E2 & T2 & O2 & _); try lia.
  rewrite <- B2 in V2. rewrite Hct, Hcr, E1 in T2.
  assert (HSs : supply w' (lq_lp_mint accs) = supply w (lq_lp_mint accs) - rl_lp_token_amount a)
    by (rewrite S2, HS', S1, on_same; reflexivity).
  pose proof (Hrate _ _ _ V1) as Q1. pose proof (Hrate _ _ _ V2) as Q2.
  pose proof (bps_share_bounds (lp_fee_bps w1) (sol - after) ltac:(lia) ltac:(lia)) as QP.
  rewrite Hse in Hlp, Us. rewrite HSs. set (S := supply w (lq_lp_mint accs)) in *.
  assert (Hsol : sol = rl_lp_token_amount a * total w1 / S).
  { revert Hlp. unfold calc_lp_tokens_sol_value. destruct (Z.eqb_spec (total w1) 0) as [->|]; cbn [orb].
    - intros [= <-]. rewrite Z.mul_0_r, Zdiv_0_l. reflexivity.
    - destruct (Z.eqb_spec S 0); [lia|]. apply floor_apply_eq. }
  apply lp_sol_value_le in Hlp as (_ & _ & Hlp); try lia.
  csplit; auto; try lia; intros Haf0 Hr1.
  1-2: assert (Hval : (v - v' - 1) * d * after < tu * n * sol)
    by (apply (withdraw_value n d (balance w (lq_reserves accs)) (balance w' (lq_reserves accs)) v v' tu fee
          (bps_share (lp_fee_bps w1) (sol - after)) sol after); auto; try lia;
        rewrite Hfe, Z.mul_comm; apply Z.mul_div_le; lia).
  - assert (Hle : v - v' <= sol).
    { assert (QH1 : tu * n * sol <= after * d * sol) by (apply Z.mul_le_mono_nonneg_r; lia).
      assert (QH2 : (d * after) * (v - v' - 1) < (d * after) * sol) by lia.
      apply Z.mul_lt_mono_pos_l in QH2; [lia|nia]. }
    split; [lia|]. nia.
  - assert (Hle : (total w1 - total w' - sol - 1) * (d * after) < n * sol).
    { assert (QH1 : (tu - 1) * n * sol <= after * d * sol) by (apply Z.mul_le_mono_nonneg_r; lia). nia. }
    split; [exact Hle|].
    replace (total w1 * (S - rl_lp_token_amount a) - total w' * S - S)
      with ((total w1 - total w' - sol - 1) * S + (sol * S - rl_lp_token_amount a * total w1)) by ring.
    assert (QH0 : 0 < d * after) by nia.
    assert (QH1 : (total w1 - total w' - sol - 1) * (d * after) * S <= n * sol * S)
      by (apply Z.mul_le_mono_nonneg_r; lia).
    assert (QH2 : (sol * S - rl_lp_token_amount a * total w1) * (d * after) <= 0) by nia. nia.
Qed.

(** A rebalance: the record written by StartRebalance is the total before anything left, and EndRebalance succeeds only when
    the total has at least come back to the record, whatever was withheld on the way out and back in. *)
Theorem C58_rebalance_start E C w accs a w' :
  fee_reachable D F w -> process_f D F E C w accs (StartRebalance a) = Ok w' ->
  let gs := group accs 12 (sr_src_lst_calc_accs a) in let gd := skipn (12 + Z.to_nat (sr_src_lst_calc_accs a)) accs in
  exists w1 w2,
    revalued E w (sr_src_lst_index a) (key_at accs 6) (group_prog gs) (key_at accs 4) (group_accs gs) w1 /\
    revalued E w1 (sr_dst_lst_index a) (key_at accs 7) (group_prog gd) (key_at accs 5) (group_accs gd) w2 /\
    the_record w' = Some (mkRec (total w2) (sr_dst_lst_index a)).
Proof.
  intros Hr H. pose proof (process_f_wf _ _ _ _ _ _ H) as Hwf. unfold process_f in H. apply guard_ok in H as (_ & H). wf Hwf.
  apply start_rebalance_inv_f in H.
  destruct H as (x1&x2&x3&x4&x5&x6&x7&x8&x9&x10&x11&x12&cs&cd&ps&l&lsrc&ldst&ts&td&w1&w2&ps2&w3&w4&ps4&
    Hac & Hn & _ & _ & _ & _ & _ & _ & _ & Hp & _ & Hl & _ & _ & _ & _ & _ & _ & _ & _ & _ & _ & _ & _ & _ & _ &
    S1 & S2 & Hp2 & T & S3 & Hr4 & Hp4 & ->).
  assert (Hs12 : forall q, skipn (12 + q) accs = skipn q
     ((cpi_prog cs :: cpi_accs cs) ++ (cpi_prog cd :: cpi_accs cd))) by (intros q; rewrite Hac; reflexivity).
  assert (G1 : group accs 12 (sr_src_lst_calc_accs a) = cpi_prog cs :: cpi_accs cs).
  { unfold group. rewrite (Hs12 0%nat : skipn 12 accs = _). cbn [skipn]. now apply firstn_group. }
  assert (G2 : skipn (12 + Z.to_nat (sr_src_lst_calc_accs a)) accs = cpi_prog cd :: cpi_accs cd).
  { rewrite (Hs12 (Z.to_nat (sr_src_lst_calc_accs a))). rewrite <- Hn.
    rewrite skipn_app, skipn_all, Nat.sub_diag. reflexivity. }
  assert (K4 : key_at accs 4 = mk x5) by (rewrite Hac; reflexivity).
  assert (K5 : key_at accs 5 = mk x6) by (rewrite Hac; reflexivity).
  assert (K6 : key_at accs 6 = mk x7) by (rewrite Hac; reflexivity).
  assert (K7 : key_at accs 7 = mk x8) by (rewrite Hac; reflexivity).
  apply sync_revalued in S1, S2.
  cbv zeta. exists w1, w2. rewrite G1, G2, K4, K5, K6, K7. cbn [group_prog group_accs tl].
  csplit; auto. unfold the_record. cbn. rewrite upd_same. f_equal. f_equal. unfold total, the_pool. now rewrite Hp2.
Qed.
Theorem C58_rebalance_end E C w accs w' r :
  fee_reachable D F w -> the_record w = Some r -> process_f D F E C w accs EndRebalance = Ok w' ->
  old_total_sol_value r <= total w' /\ the_record w' = None /\
  exists v wz, same_tokens w wz /\ valued E wz (key_at accs 6) (key_at accs 4) (skipn 7 accs) (balance w (key_at accs 5)) v /\
    recorded w' (dst_lst_index r) = v.
Proof.
  intros Hr Hrec H. unfold process_f in H. apply guard_ok in H as (Hw & H). unfold process in H.
  apply guard_ok in H as (_ & H). apply end_rebalance_inv in H.
  destruct H as (ra & pst & lst & rr & dm & dr & c & q & l' & r' & ld & w2 & ps2 & -> & _ & _ & _ & _ & _ & _ &
    _ & _ & Hq & _ & Hl' & Hrec' & Hn & Hm & _ & _ & S & Hp2 & Hle & ->).
  assert (r' = r) by (unfold the_record in Hrec; congruence). subst r'.
  apply sync_revalued in S.
  destruct S as (v & hi & qz & lz & lsz & _ & Hv & Hpz & Hlz & Hnz & Hpz' & Hlz' & _ & _ & _).
  split; [|split].
  - unfold total, the_pool. cbn. rewrite Hp2. exact Hle.
  - unfold the_record. cbn. apply upd_same.
  - exists v, (put_pool w POOL_STATE_ID (Some (set_rebalancing q 0))).
    split; [split; reflexivity|]. split; [exists hi; exact Hv|].
    unfold recorded, the_list. cbn [w_list put_rec]. unfold the_list in Hlz'. rewrite Hlz'. erewrite nth_error_replace_same; eauto.
Qed.
End WithFee.

(* ------------------------------------------------------------------ *)
(** A history: MB charges one token in ten, rounded up. *)
Definition F1 (m a : Z) : Z := if m =? MB then (a + 9) / 10 else 0.
Lemma F1_ok : fee_fun F1.
Proof.
  intros m a Ha. unfold F1. destruct (m =? MB); [|lia].
  split; [apply Z.div_pos; lia|]. destruct (Z.eq_dec a 0) as [->|]; [reflexivity|].
  assert (a + 9 < 10 * (a + 1)) by lia. assert ((a + 9) / 10 < a + 1) by (apply Z.div_lt_upper_bound; lia). lia.
Qed.
(** spl-token-2022's own formula is such a function, for any schedule of rates and caps per mint. *)
Definition token_2022_fee (bps max : key -> Z) (m a : Z) : Z := Z.min (max m) ((a * bps m + 9999) / 10000).
Theorem C58_token_2022 bps max : (forall m, 0 <= bps m <= 10000) -> (forall m, 0 <= max m) -> fee_fun (token_2022_fee bps max).
Proof.
  intros Hb Hm m a Ha. unfold token_2022_fee. specialize (Hb m). specialize (Hm m).
  assert (H0 : 0 <= (a * bps m + 9999) / 10000) by (apply Z.div_pos; nia).
  assert (H1 : (a * bps m + 9999) / 10000 < a + 1) by (apply Z.div_lt_upper_bound; nia). lia.
Qed.
Lemma fee_reach_ctl D F E C w accs ix w' :
  fee_reachable D F w -> pdas_do_not_sign accs -> process_f D F E C w accs ix = Ok w' -> fee_reachable D F w'.
Proof. intros (w0 & Hg & Hs) Hp H. exists w0. split; auto. eapply fee_cons; [exact Hs|]. eapply fee_controller; eauto. Qed.
Definition fee_swap_accs_ba :=
  [sg USER; ro MB; ro MA; rw UB; rw UA; rw FA; ro SPL_TOKEN_2022_ID; ro SPL_TOKEN_ID;
   rw POOL_STATE_ID; rw LST_STATE_LIST_ID; rw RB; rw RA; ro CB; ro CA; ro PP].
Definition Q1 := process_f D0 F1 E0 C0 W0 init_accs Initialize.
Definition G1 := get Q1.
Definition Q2 := process_f D0 F1 E0 C0 G1 (add_accs MA RA FA CA SPL_TOKEN_ID) AddLst.
Definition G2 := get Q2.
Definition Q3 := process_f D0 F1 E0 C0 G2 (add_accs MB RB FB CB SPL_TOKEN_2022_ID) AddLst.
Definition G3 := get Q3.
Definition Q4 := process_f D0 F1 E0 C0 G3 (liq_accs MA UA FA SPL_TOKEN_ID RA CA) (AddLiquidity add_args_a).
Definition G4 := get Q4.
Definition Q5 := process_f D0 F1 E0 C0 G4 (liq_accs MB UB FB SPL_TOKEN_2022_ID RB CB) (AddLiquidity add_args_b).
Definition G5 := get Q5.

Definition fee_swap_args := mkSwapIn 1 1 0 1 4950 10001.
Definition Q6 := process_f D0 F1 E0 C0 G5 swap_accs (SwapExactIn fee_swap_args).
Definition G6 := get Q6.
Definition Q7 := process_f D0 F1 E0 C0 G6 swap_accs (SwapExactOut swap_out_args).
Definition G7 := get Q7.
Definition Q8 := process_f D0 F1 E0 C0 G7 (liq_accs MB UB FB SPL_TOKEN_2022_ID RB CB) (RemoveLiquidity rem_args).
Definition G8 := get Q8.
(* a rebalance out of MB into MA *)
Definition fee_start_accs :=
  [sg REBALANCER; rw POOL_STATE_ID; rw LST_STATE_LIST_ID; rw REBALANCE_RECORD_ID; ro MB; ro MA;
   rw RB; rw RA; rw UB; ro INSTRUCTIONS_SYSVAR_ID; ro SYSTEM_PROGRAM_ID; ro SPL_TOKEN_2022_ID; ro CB; ro CA].
Definition fee_end_accs :=
  [sg REBALANCER; rw POOL_STATE_ID; rw LST_STATE_LIST_ID; rw REBALANCE_RECORD_ID; ro MA; rw RA; ro CA].
Definition fee_ctx (i : nat) : Ctx := mkCtx [mkTop S_CONTROLLER_ID fee_start_accs [19]; mkTop S_CONTROLLER_ID fee_end_accs [20]] i.
Definition fee_start_args := mkStartReb 1 1 0 10000 0 U64_MAX.
Definition Q9 := process_f D0 F1 E0 (fee_ctx 0) G8 fee_start_accs (StartRebalance fee_start_args).
Definition G9 := get Q9.
Definition Q10 := transfer_checked G9 SPL_TOKEN_ID UA RA MA USER true 20000.
Definition G10 := get Q10.
Definition Q11 := process_f D0 F1 E0 (fee_ctx 1) G10 fee_end_accs EndRebalance.
Definition G11 := get Q11.

Lemma fee_reach_get D F E C w accs ix :
  fee_reachable D F w -> pdas_do_not_signb accs = true -> okb (process_f D F E C w accs ix) = true ->
  fee_reachable D F (get (process_f D F E C w accs ix)).
Proof. intros H Hp Hk. eapply fee_reach_ctl; [exact H|apply pdas_do_not_signb_ok, Hp|apply okb_get, Hk]. Qed.
Ltac freach G Q H := unfold G, Q; apply fee_reach_get; [exact H | vm_compute; reflexivity | vm_compute; reflexivity].
Lemma G0_reach : fee_reachable D0 F1 W0.
Proof. exists W0. split; [exact W0_genesis|constructor]. Qed.
Lemma G1_reach : fee_reachable D0 F1 G1. Proof. freach G1 Q1 G0_reach. Qed.
Lemma G2_reach : fee_reachable D0 F1 G2. Proof. freach G2 Q2 G1_reach. Qed.
Lemma G3_reach : fee_reachable D0 F1 G3. Proof. freach G3 Q3 G2_reach. Qed.
Lemma G4_reach : fee_reachable D0 F1 G4. Proof. freach G4 Q4 G3_reach. Qed.
Lemma G5_reach : fee_reachable D0 F1 G5. Proof. freach G5 Q5 G4_reach. Qed.
Lemma G6_reach : fee_reachable D0 F1 G6. Proof. freach G6 Q6 G5_reach. Qed.
Lemma G7_reach : fee_reachable D0 F1 G7. Proof. freach G7 Q7 G6_reach. Qed.
Lemma G8_reach : fee_reachable D0 F1 G8. Proof. freach G8 Q8 G7_reach. Qed.
Lemma G9_reach : fee_reachable D0 F1 G9. Proof. freach G9 Q9 G8_reach. Qed.
Lemma Q4_ok : Q4 = Ok G4. Proof. apply okb_get; vm_compute; reflexivity. Qed.
Lemma Q5_ok : Q5 = Ok G5. Proof. apply okb_get; vm_compute; reflexivity. Qed.
Lemma Q5_run : process_f D0 F1 E0 C0 G4 (liq_accs MB UB FB SPL_TOKEN_2022_ID RB CB) (AddLiquidity add_args_b) = Ok G5. Proof. unfold G5, Q5. apply okb_get; vm_compute; reflexivity. Qed.
Lemma Q6_ok : Q6 = Ok G6. Proof. apply okb_get; vm_compute; reflexivity. Qed.
Lemma Q6_run : process_f D0 F1 E0 C0 G5 swap_accs (SwapExactIn fee_swap_args) = Ok G6. Proof. unfold G6, Q6. apply okb_get; vm_compute; reflexivity. Qed.
Lemma Q7_ok : Q7 = Ok G7. Proof. apply okb_get; vm_compute; reflexivity. Qed.
Lemma Q8_ok : Q8 = Ok G8. Proof. apply okb_get; vm_compute; reflexivity. Qed.
Lemma Q9_ok : Q9 = Ok G9. Proof. apply okb_get; vm_compute; reflexivity. Qed.
Lemma Q10_ok : Q10 = Ok G10. Proof. apply okb_get; vm_compute; reflexivity. Qed.
Lemma Q11_ok : Q11 = Ok G11. Proof. apply okb_get; vm_compute; reflexivity. Qed.
Lemma fee_reach_transfer F (HF : fee_fun F) w prog from to mint auth s amt :
  fee_reachable D0 F w -> 0 <= amt -> ~ In auth controller_pdas ->
  okb (transfer_checked w prog from to mint auth s amt) = true ->
  fee_reachable D0 F (get (transfer_checked w prog from to mint auth s amt)).
Proof.
  intros H Ha Hn Hk. destruct (fee_reachable_inv D0 F HF D0_ok _ H) as ((Hb & _) & (Hat & _)).
  destruct H as (w0 & Hg & Hs). exists w0. split; [exact Hg|]. eapply fee_cons; [exact Hs|]. apply fee_external.
  eapply transfer_external; [|exact Hat|exact Ha|exact Hn|apply okb_get, Hk]. apply base_u64, Hb.
Qed.
Lemma G10_reach : fee_reachable D0 F1 G10.
Proof.
  unfold G10, Q10. apply fee_reach_transfer; [exact F1_ok|exact G9_reach|lia| |vm_compute; reflexivity].
  unfold USER. cbn. unfold POOL_STATE_ID, LST_STATE_LIST_ID, DISABLE_POOL_AUTHORITY_LIST_ID,
      REBALANCE_RECORD_ID, PROTOCOL_FEE_ID. intuition lia.
Qed.

(** The findings, on that history. A deposit of 500000 MB (worth 1000000 - 2% priced) lands 10% short: the LP tokens already out
    lose 4.6% of their value to it, in a pool where an honest calculator and the default pricing are used: the claim C06
    (nobody is diluted) is false of listed mints that charge for transfers. *)
Theorem C58_dilution :
  exists D F E C w accs a w' n d,
    derive_ok D /\ fee_fun F /\ fee_reachable D F w /\ pdas_do_not_sign accs /\
    process_f D F E C w accs (AddLiquidity a) = Ok w' /\
    (let g := group accs 11 (al_lst_value_calc_accs a) in at_rate E (group_prog g) (lq_mint accs) (group_accs g) n d 1) /\
    0 < supply w (lq_lp_mint accs) /\
    total w' * supply w (lq_lp_mint accs) < total w * supply w' (lq_lp_mint accs).
Proof.
  exists D0, F1, E0, C0, G4, (liq_accs MB UB FB SPL_TOKEN_2022_ID RB CB), add_args_b, G5, 2, 1.
  split; [exact D0_ok|]. split; [exact F1_ok|]. split; [exact G4_reach|]. split; [apply pdas_do_not_signb_ok; reflexivity|].
  split; [exact Q5_run|]. split; [apply (E0_rate_b MB [])|].
  split; [vm_compute; reflexivity|]. vm_compute. reflexivity.
Qed.
(** A swap whose signed minimum is 4950 succeeds and 4455 arrive. *)
Theorem C58_minimum_not_met :
  exists D F E C w accs a w',
    derive_ok D /\ fee_fun F /\ fee_reachable D F w /\ pdas_do_not_sign accs /\ users_account w (sw_user_dst accs) /\
    process_f D F E C w accs (SwapExactIn a) = Ok w' /\
    0 <= balance w' (sw_user_dst accs) - balance w (sw_user_dst accs) < si_min_amount_out a.
Proof.
  exists D0, F1, E0, C0, G5, swap_accs, fee_swap_args, G6.
  split; [exact D0_ok|]. split; [exact F1_ok|]. split; [exact G5_reach|]. split; [apply pdas_do_not_signb_ok; reflexivity|].
  split. { intros t Ht. vm_compute in Ht. injection Ht as <-. cbn. unfold POOL_STATE_ID, PROTOCOL_FEE_ID. lia. }
  split; [exact Q6_run|]. split; vm_compute; [discriminate|reflexivity].
Qed.
Example C58_swap_case :
  fee_reachable D0 F1 G5 /\ Q6 = Ok G6 /\ total G5 <= total G6 /\ fee_reachable D0 F1 G6 /\ Q7 = Ok G7 /\ total G6 <= total G7 /\
  pdas_do_not_sign swap_accs /\
  (* the other way round the fee exceeds the pricing spread and the pool's check refuses *)
  process_f D0 F1 E0 C0 G5 fee_swap_accs_ba (SwapExactIn (mkSwapIn 1 1 1 0 1 10000)) = Err (Ctl PoolWouldLoseSolValue).
Proof.
  split; [exact G5_reach|]. split; [exact Q6_ok|]. split; [vm_compute; discriminate|].
  split; [exact G6_reach|]. split; [exact Q7_ok|]. split; [vm_compute; discriminate|].
  split; [apply pdas_do_not_signb_ok; reflexivity|]. vm_compute. reflexivity.
Qed.
Example C58_remove_case :
  fee_reachable D0 F1 G7 /\ Q8 = Ok G8 /\ total G8 * supply G7 LP >= total G7 * supply G8 LP /\
  balance G8 UB - balance G7 UB = 42903 /\ balance G7 RB - balance G8 RB >= 47670.
Proof.
  split; [exact G7_reach|]. split; [exact Q8_ok|]. vm_compute. repeat split; congruence.
Qed.
Example C58_rebalance_case :
  fee_reachable D0 F1 G8 /\ Q9 = Ok G9 /\ fee_reachable D0 F1 G10 /\ Q11 = Ok G11 /\ the_record G10 = Some (mkRec 1802810 0) /\
  total G11 = 1802810 /\
  process_f D0 F1 E0 (fee_ctx 1) G9 fee_end_accs EndRebalance = Err (Ctl PoolWouldLoseSolValue).
Proof.
  split; [exact G8_reach|]. split; [exact Q9_ok|]. split; [exact G10_reach|].
  split; [exact Q11_ok|]. split; [vm_compute; reflexivity|]. split; vm_compute; reflexivity.
Qed.
