(** Swaps and liquidity: C04, C05, C08, C09. *)
From Coq Require Import ZArith List Bool Lia.
From Verif Require Import Base Ratio Calc State Controller Inversion ProcInv Spec CalcProofs InvProofs
  TokProofs AccessProofs ShapeProofs MoneyProofs Concrete ConcreteReach PropTok.
Import ListNotations.
Open Scope Z_scope.

(** What one measurement does to the recorded figures. *)
Lemma revalued_figures E w i r c m a w' :
  0 <= i -> revalued E w i r c m a w' ->
  exists v, valued E w c m a (balance w r) v /\ recorded w' i = v /\
    total w' = total w - recorded w i + v /\
    (forall j, 0 <= j -> j <> i -> recorded w' j = recorded w j) /\ balance w' = balance w.
Proof.
  intros Hi H. pose proof (proj2 (revalued_supply _ _ _ _ _ _ _ _ H)) as HB.
  destruct H as (v & hi & ps & l & ls & _ & Hv & Hp & Hl & Hn & Hp' & Hl' & _).
  exists v. unfold recorded, total. rewrite Hp, Hp', Hl, Hl', Hn. csplit; auto.
  - now exists hi.
  - erewrite nth_error_replace_same by eauto. reflexivity.
  - intros j Hj Hne. rewrite nth_error_replace_other by lia. reflexivity.
Qed.
Lemma same_ctl_figures w w' : same_controller_accounts w w' -> total w' = total w /\ recorded w' = recorded w.
Proof. intros (A & B & _). unfold total, recorded. now rewrite A, B. Qed.

Lemma parties_distinct D w accs l lsrc ldst i j :
  nth_error l (Z.to_nat i) = Some lsrc -> nth_error l (Z.to_nat j) = Some ldst ->
  swap_parties D w accs lsrc ldst -> i <> j.
Proof. intros H1 H2 (Hne & M1 & M2 & _) ->. rewrite H1 in H2. congruence. Qed.

(* ------------------------------------------------------------------ *)
(** C04. A successful swap measures both reserves, moves the tokens, measures both reserves again (on
    their balances before and after the call), and the pool total after the call is at least the total
    right after the first two measurements; equivalently the two reserves are worth at least as much
    after as before — whatever the pricing program and the calculators answered. [w1], [w3], [w4] are the
    states in which the calculators were asked. *)
Definition swap_keeps_value E w accs n m i j w' : Prop :=
  let gs := group accs 12 n in let gd := group accs (12 + Z.to_nat n) m in
  exists w1 w2 w3 w4 vs vd vs' vd',
    revalued E w i (sw_src_reserves accs) (group_prog gs) (sw_src_mint accs) (group_accs gs) w1 /\
    revalued E w1 j (sw_dst_reserves accs) (group_prog gd) (sw_dst_mint accs) (group_accs gd) w2 /\
    valued E w (group_prog gs) (sw_src_mint accs) (group_accs gs) (balance w (sw_src_reserves accs)) vs /\
    valued E w1 (group_prog gd) (sw_dst_mint accs) (group_accs gd) (balance w (sw_dst_reserves accs)) vd /\
    valued E w3 (group_prog gs) (sw_src_mint accs) (group_accs gs) (balance w' (sw_src_reserves accs)) vs' /\
    valued E w4 (group_prog gd) (sw_dst_mint accs) (group_accs gd) (balance w' (sw_dst_reserves accs)) vd' /\
    total w2 <= total w' /\ vs + vd <= vs' + vd' /\
    recorded w' i = vs' /\ recorded w' j = vd'.
Lemma swap_flow_keeps_value E w accs n m i j w2 si so fee w' :
  0 <= i -> 0 <= j -> i <> j -> swap_flow E w accs n m i j w2 si so fee w' -> total w2 <= total w' ->
  swap_keeps_value E w accs n m i j w'.
Proof.
  intros Hi Hj Hne (w1 & w3 & w4 & R1 & R2 & Hc & _ & _ & R3 & R4) Ht.
  pose proof R1 as R1'. pose proof R2 as R2'.
  apply same_ctl_figures in Hc as (Hct & Hcr).
  apply revalued_figures in R1 as (vs & V1 & E1 & T1 & O1 & B1), R2 as (vd & V2 & E2 & T2 & O2 & B2),
    R3 as (vs' & V3 & E3 & T3 & O3 & B3), R4 as (vd' & V4 & E4 & T4 & O4 & B4); auto.
  exists w1, w2, w3, w4, vs, vd, vs', vd'. rewrite B1 in V2. rewrite B4, B3. rewrite B3 in V4.
  csplit; auto.
  - rewrite T4, T3, Hct, (O3 j), Hcr, E2, (O2 i) in Ht by auto. lia.
  - rewrite (O4 i) by auto. exact E3.
Qed.
Lemma process_wf D E C w accs ix w' : process D E C w accs ix = Ok w' -> ix_wfb ix = true.
Proof. intros H. unfold process in H. apply guard_ok in H as (Hwf & _). exact Hwf. Qed.

Theorem C04_swap_exact_in D (HD : derive_ok D) E C w accs a w' :
  reachable D w -> process D E C w accs (SwapExactIn a) = Ok w' ->
  swap_keeps_value E w accs (si_src_lst_value_calc_accs a) (si_dst_lst_value_calc_accs a)
    (si_src_lst_index a) (si_dst_lst_index a) w'.
Proof.
  intros Hr H. pose proof (proj1 (reachable_inv D HD _ Hr)) as Hb.
  pose proof (process_wf _ _ _ _ _ _ _ H) as Hwf. wf Hwf.
  destruct (swap_in_parties _ _ _ _ _ _ _ H) as (l & lsrc & ldst & _ & N1 & N2 & HQ).
  apply swap_in_run in H; auto. cbv zeta in H. destruct H as (w2 & ? & ? & ? & ? & ? & fee & HF & H).
 
  eapply swap_flow_keeps_value; [| |eapply parties_distinct; eauto|exact HF|]; lia.
Qed.
Theorem C04_swap_exact_out D (HD : derive_ok D) E C w accs a w' :
  reachable D w -> process D E C w accs (SwapExactOut a) = Ok w' ->
  swap_keeps_value E w accs (so_src_lst_value_calc_accs a) (so_dst_lst_value_calc_accs a)
    (so_src_lst_index a) (so_dst_lst_index a) w'.
Proof.
  intros Hr H. pose proof (proj1 (reachable_inv D HD _ Hr)) as Hb.
  pose proof (process_wf _ _ _ _ _ _ _ H) as Hwf. wf Hwf.
  destruct (swap_out_parties _ _ _ _ _ _ _ H) as (l & lsrc & ldst & _ & N1 & N2 & HQ).
  apply swap_out_run in H; auto. cbv zeta in H. destruct H as (w2 & ? & ? & ? & ? & ? & fee & HF & H).
 
  eapply swap_flow_keeps_value; [| |eapply parties_distinct; eauto|exact HF|]; lia.
Qed.
Example C04_case :
  reachable D0 W5 /\ R6 = Ok W6 /\ total W5 = 1998000 /\ total W6 = 1998091 /\
  reachable D0 W6 /\ R7 = Ok W7 /\ total W6 < total W7.
Proof.
  split; [exact W5_reach|]. split; [apply okb_get; vm_compute; reflexivity|].
  split; [vm_compute; reflexivity|]. split; [vm_compute; reflexivity|]. split; [exact W6_reach|].
  split; [apply okb_get; vm_compute; reflexivity|]. vm_compute; reflexivity.
Qed.
(* ------------------------------------------------------------------ *)
(** C05. A successful AddLiquidity measures the LST's reserves before and after the deposit; the pool
    total after the call is at least the total right after the first measurement, i.e. the reserves are
    worth at least as much as before, whatever the external programs answered. *)
Theorem C05_add_liquidity D (HD : derive_ok D) E C w accs a w' :
  reachable D w -> process D E C w accs (AddLiquidity a) = Ok w' ->
  let g := group accs 11 (al_lst_value_calc_accs a) in
  exists w1 w2 v v',
    revalued E w (al_lst_index a) (lq_reserves accs) (group_prog g) (lq_mint accs) (group_accs g) w1 /\
    valued E w (group_prog g) (lq_mint accs) (group_accs g) (balance w (lq_reserves accs)) v /\
    valued E w2 (group_prog g) (lq_mint accs) (group_accs g) (balance w' (lq_reserves accs)) v' /\
    total w1 <= total w' /\ v <= v' /\ recorded w' (al_lst_index a) = v' /\ total w' = total w1 - v + v'.
Proof.
  intros Hr H. pose proof (proj1 (reachable_inv D HD _ Hr)) as Hb.
  pose proof (process_wf _ _ _ _ _ _ _ H) as Hwf. wf Hwf.
  apply add_run in H; auto. cbv zeta in H.
  destruct H as (w1 & lst_sol & lst_hi & af & tr & fee & lp & (w2 & R1 & Hc & _ & HB & R2) & H).
  assert (Ht : total w1 <= total w') by tauto. clear H.
  pose proof R1 as R1'. apply same_ctl_figures in Hc as (Hct & Hcr).
  apply revalued_figures in R1 as (v & V1 & E1 & T1 & O1 & B1), R2 as (v' & V2 & E2 & T2 & O2 & B2); try lia.
  exists w1, w2, v, v'. rewrite B2. rewrite Hct, Hcr, E1 in T2. csplit; auto. lia.
Qed.
Example C05_case : reachable D0 W4 /\ R5 = Ok W5 /\ total W4 < total W5.
Proof.
  split; [exact W4_reach|]. split; [apply okb_get; vm_compute; reflexivity|]. vm_compute; reflexivity.
Qed.

(* ------------------------------------------------------------------ *)
(** C08. The protocol's cut. *)
Lemma ceil_bps_fee_eq bps x f : ceil_bps_fee bps x = Ok f -> bps <= 10000 /\ f = bps_share bps x.
Proof.
  unfold ceil_bps_fee, ceil_fee_charged, BPS_DENOMINATOR, bps_share, ceil_div.
  destruct (Z.ltb_spec 10000 bps); [discriminate|]. change (10000 =? 0) with false. rewrite orb_false_r.
  destruct (Z.eqb_spec bps 0) as [->|]; intros [= <-]; split; auto.
  - now rewrite Z.mul_0_r.
  - f_equal. lia.
Qed.
Lemma floor_apply_eq num denom x r : floor_apply num denom x = Ok r -> r = x * num / denom.
Proof.
  intros H. apply floor_apply_ok in H as (_ & H0 & H1).
  destruct (Z.eq_dec num 0) as [->|]; [rewrite H0, Z.mul_0_r, Zdiv_0_l by auto; reflexivity|].
  destruct (Z.eq_dec denom 0) as [->|]; [rewrite H0, Zdiv_0_r by auto; reflexivity|]. auto.
Qed.
Lemma bps_share_bounds bps x : 0 <= bps <= 10000 -> 0 <= x -> 0 <= bps_share bps x <= x.
Proof.
  intros Hb Hx. unfold bps_share. split; [apply Z.div_pos; nia|].
  assert ((x * bps + 9999) / 10000 < x + 1); [|lia]. apply Z.div_lt_upper_bound; nia.
Qed.
Lemma bps_share_zero bps x : bps = 0 \/ x = 0 -> bps_share bps x = 0.
Proof. unfold bps_share. intros [->| ->]; rewrite ?Z.mul_0_r, ?Z.mul_0_l; reflexivity. Qed.

Lemma add_fee_eq amt sol after bps r p :
  0 <= after <= sol -> calc_add_liquidity_protocol_fees amt sol after bps = Ok (r, p) ->
  bps <= 10000 /\ p = bps_share bps (sol - after) * amt / sol /\ r + p = amt.
Proof.
  intros Ha. unfold calc_add_liquidity_protocol_fees. rewrite sat_sub_spec, Z.max_r by lia.
  destruct (ceil_bps_fee bps (sol - after)) as [f|] eqn:Hf; cbn [bind]; [|discriminate].
  destruct (floor_apply amt sol f) as [q|] eqn:Hq; cbn [bind]; [|discriminate].
  destruct (checked_sub RatioMathErr amt q) as [z|] eqn:Hz; cbn [bind]; [|discriminate].
  intros [= -> ->]. apply ceil_bps_fee_eq in Hf as (? & ->). apply floor_apply_eq in Hq.
  apply checked_sub_ok in Hz. csplit; auto. lia.
Qed.
Lemma remove_fee_eq sol after user bps p :
  0 <= after <= sol -> calc_remove_liquidity_protocol_fees sol after user bps = Ok p ->
  bps <= 10000 /\ p = bps_share bps (sol - after) * user / after.
Proof.
  intros Ha. unfold calc_remove_liquidity_protocol_fees. rewrite sat_sub_spec, Z.max_r by lia.
  destruct (ceil_bps_fee bps (sol - after)) as [f|] eqn:Hf; cbn [bind]; [|discriminate].
  intros Hq. apply ceil_bps_fee_eq in Hf as (? & ->). apply floor_apply_eq in Hq. auto.
Qed.
Lemma swap_fee_eq sin sout dst bps p :
  calc_swap_protocol_fees sin sout dst bps = Ok p ->
  bps <= 10000 /\ p = bps_share bps (Z.max 0 (sin - sout)) * dst / sout.
Proof.
  unfold calc_swap_protocol_fees. rewrite sat_sub_spec.
  destruct (ceil_bps_fee bps (Z.max 0 (sin - sout))) as [f|] eqn:Hf; cbn [bind]; [|discriminate].
  intros Hq. apply ceil_bps_fee_eq in Hf as (? & ->). apply floor_apply_eq in Hq. auto.
Qed.

(** AddLiquidity of [amount] tokens worth [sol] before and [after] after the liquidity fee: the deposit is
    split exactly into what goes to the reserves and what goes to the fee accumulator; the protocol's
    cut [P] is the fee rate's share of sol - after, rounded up, at most the whole fee, and is paid as
    the same proportion of the deposit rounded down. *)
Theorem C08_add_liquidity D (HD : derive_ok D) E C w accs a w' :
  reachable D w -> process D E C w accs (AddLiquidity a) = Ok w' ->
  let n := al_lst_value_calc_accs a in
  let g := group accs 11 n in let gp := skipn (11 + Z.to_nat n) accs in
  exists w1 sol hi after to_reserves fee lp,
    add_flow E w accs n (al_lst_index a) w1 to_reserves fee lp w' /\
    e_lst_to_sol E w1 (group_prog g) (lq_mint accs) (group_accs g) (al_lst_amount a) = Ok (sol, hi) /\
    e_price_lp_to_mint E w1 (group_prog gp) (lq_mint accs) (group_accs gp) (al_lst_amount a) sol = Ok after /\
    0 <= after <= sol /\ to_reserves + fee = al_lst_amount a /\ 0 <= fee /\ 0 < to_reserves /\
    (let P := bps_share (lp_fee_bps w) (sol - after) in
     0 <= P <= sol - after /\ fee = P * al_lst_amount a / sol) /\
    (lp_fee_bps w = 0 \/ sol = after -> fee = 0).
Proof.
  intros Hr H. pose proof (proj1 (reachable_inv D HD _ Hr)) as Hb.
  apply add_run in H; auto. cbv zeta in *.
  destruct H as (w1 & sol & hi & after & tr & fee & lp & HF & I1 & I2 & Hc & _ & U1 & U2 & Haf & Hsum & Htr & Hfee &
    _ & _ & _ & Hbps & Hbe & _). unfold U64 in *.
  exists w1, sol, hi, after, tr, fee, lp. apply add_fee_eq in Hc as (_ & Hp & _); [|lia]. rewrite Hbe in *.
  csplit; auto; try lia; try (apply bps_share_bounds; lia).
  intros Hz. rewrite Hp, bps_share_zero by (destruct Hz; [left|right]; lia). reflexivity.
Qed.
(** RemoveLiquidity of LP tokens worth [sol], [after] after the liquidity fee, paid out as [to_user]. *)
Theorem C08_remove_liquidity D (HD : derive_ok D) E C w accs a w' :
  reachable D w -> process D E C w accs (RemoveLiquidity a) = Ok w' ->
  let n := rl_lst_value_calc_accs a in
  let g := group accs 11 n in let gp := skipn (11 + Z.to_nat n) accs in
  exists w1 sol after to_user hi fee,
    remove_flow E w accs n (rl_lst_index a) w1 (rl_lp_token_amount a) to_user fee w' /\
    sol = rl_lp_token_amount a * total w1 / supply w (lq_lp_mint accs) /\
    e_price_lp_to_redeem E w1 (group_prog gp) (lq_mint accs) (group_accs gp) (rl_lp_token_amount a) sol = Ok after /\
    e_sol_to_lst E w1 (group_prog g) (lq_mint accs) (group_accs g) after = Ok (to_user, hi) /\
    0 <= after <= sol /\ 0 <= fee /\
    (let P := bps_share (lp_fee_bps w) (sol - after) in
     0 <= P <= sol - after /\ fee = P * to_user / after) /\
    (lp_fee_bps w = 0 \/ sol = after -> fee = 0).
Proof.
  intros Hr H. pose proof (proj1 (reachable_inv D HD _ Hr)) as Hb.
  apply remove_run in H; auto. cbv zeta in *.
  destruct H as (w1 & sol & after & tu & hi & fee & HF & Hlp & I1 & I2 & Hc & U1 & U2 & Haf & Htu & _ & Hfee &
    _ & Hbps & Hbe & Ht & Hs & Hse & _). unfold U64 in *.
  exists w1, sol, after, tu, hi, fee. apply remove_fee_eq in Hc as (_ & Hp); [|lia]. rewrite Hbe in *.
  csplit; auto; try lia; try (apply bps_share_bounds; lia).
  - revert Hlp. unfold calc_lp_tokens_sol_value. rewrite Hse.
    destruct (Z.eqb_spec (total w1) 0) as [->|]; cbn [orb].
    + intros [= <-]. rewrite Z.mul_0_r, Zdiv_0_l. reflexivity.
    + destruct (Z.eqb_spec (supply w (lq_lp_mint accs)) 0) as [->|].
      * intros [= <-]. rewrite Zdiv_0_r. reflexivity.
      * intros Hq. apply floor_apply_eq in Hq. exact Hq.
  - intros Hz. rewrite Hp, bps_share_zero by (destruct Hz; [left|right]; lia). reflexivity.
Qed.
(** Swaps: the fee is whatever the pool keeps of [in_sol] above [out_sol]. *)
Theorem C08_swap_exact_in D (HD : derive_ok D) E C w accs a w' :
  reachable D w -> process D E C w accs (SwapExactIn a) = Ok w' ->
  let n := si_src_lst_value_calc_accs a in let m := si_dst_lst_value_calc_accs a in
  let gs := group accs 12 n in let gd := group accs (12 + Z.to_nat n) m in
  let gp := skipn (12 + Z.to_nat n + Z.to_nat m) accs in
  exists w2 in_sol in_hi out_sol dst_out dst_hi fee,
    swap_flow E w accs n m (si_src_lst_index a) (si_dst_lst_index a) w2 (si_amount a) dst_out fee w' /\
    e_lst_to_sol E w2 (group_prog gs) (sw_src_mint accs) (group_accs gs) (si_amount a) = Ok (in_sol, in_hi) /\
    e_price_exact_in E w2 (group_prog gp) (sw_src_mint accs) (sw_dst_mint accs) (group_accs gp)
      (si_amount a) in_sol = Ok out_sol /\
    e_sol_to_lst E w2 (group_prog gd) (sw_dst_mint accs) (group_accs gd) out_sol = Ok (dst_out, dst_hi) /\
    (let keep := Z.max 0 (in_sol - out_sol) in let P := bps_share (trading_fee_bps w) keep in
     0 <= P <= keep /\ fee = P * dst_out / out_sol) /\ 0 <= fee /\
    (trading_fee_bps w = 0 \/ in_sol <= out_sol -> fee = 0).
Proof.
  intros Hr H. pose proof (proj1 (reachable_inv D HD _ Hr)) as Hb.
  apply swap_in_run in H; auto. cbv zeta in *.
  destruct H as (w2 & in_sol & in_hi & out_sol & dst_out & dst_hi & fee & HF & I1 & I2 & I3 & Hc & _ & _ & _ & _ & _ & _ &
    _ & Hfee & Hbps & _ & _ & _ & Hbe).
  exists w2, in_sol, in_hi, out_sol, dst_out, dst_hi, fee. apply swap_fee_eq in Hc as (_ & Hp). rewrite Hbe in *.
  csplit; auto; try (apply bps_share_bounds; lia); try lia.
  intros Hz. rewrite Hp, bps_share_zero by (destruct Hz; [left|right]; lia). reflexivity.
Qed.
Theorem C08_swap_exact_out D (HD : derive_ok D) E C w accs a w' :
  reachable D w -> process D E C w accs (SwapExactOut a) = Ok w' ->
  let n := so_src_lst_value_calc_accs a in let m := so_dst_lst_value_calc_accs a in
  let gs := group accs 12 n in let gd := group accs (12 + Z.to_nat n) m in
  let gp := skipn (12 + Z.to_nat n + Z.to_nat m) accs in
  exists w2 out_lo out_sol in_sol src_lo src_in fee,
    swap_flow E w accs n m (so_src_lst_index a) (so_dst_lst_index a) w2 src_in (so_amount a) fee w' /\
    e_lst_to_sol E w2 (group_prog gd) (sw_dst_mint accs) (group_accs gd) (so_amount a) = Ok (out_lo, out_sol) /\
    e_price_exact_out E w2 (group_prog gp) (sw_src_mint accs) (sw_dst_mint accs) (group_accs gp)
      (so_amount a) out_sol = Ok in_sol /\
    e_sol_to_lst E w2 (group_prog gs) (sw_src_mint accs) (group_accs gs) in_sol = Ok (src_lo, src_in) /\
    (let keep := Z.max 0 (in_sol - out_sol) in let P := bps_share (trading_fee_bps w) keep in
     0 <= P <= keep /\ fee = P * so_amount a / out_sol) /\ 0 <= fee /\
    (trading_fee_bps w = 0 \/ in_sol <= out_sol -> fee = 0).
Proof.
  intros Hr H. pose proof (proj1 (reachable_inv D HD _ Hr)) as Hb.
  apply swap_out_run in H; auto. cbv zeta in *.
  destruct H as (w2 & out_lo & out_sol & in_sol & src_lo & src_in & fee & HF & I1 & I2 & I3 & Hc & _ & _ & _ & _ & _ & _ &
    _ & Hfee & Hbps & _ & _ & _ & Hbe).
  exists w2, out_lo, out_sol, in_sol, src_lo, src_in, fee. apply swap_fee_eq in Hc as (_ & Hp). rewrite Hbe in *.
  csplit; auto; try (apply bps_share_bounds; lia); try lia.
  intros Hz. rewrite Hp, bps_share_zero by (destruct Hz; [left|right]; lia). reflexivity.
Qed.
(** A rate above 100% is refused by the arithmetic itself. *)
Theorem C08_rate_above_100_refused bps :
  10000 < bps ->
  (forall amt sol after, calc_add_liquidity_protocol_fees amt sol after bps = Err RatioMathErr) /\
  (forall sol after user, calc_remove_liquidity_protocol_fees sol after user bps = Err RatioMathErr) /\
  (forall sin sout dst, calc_swap_protocol_fees sin sout dst bps = Err RatioMathErr).
Proof.
  intros H. unfold calc_add_liquidity_protocol_fees, calc_remove_liquidity_protocol_fees, calc_swap_protocol_fees,
    ceil_bps_fee, ceil_fee_charged, BPS_DENOMINATOR.
  destruct (Z.ltb_spec 10000 bps); [|lia]. auto.
Qed.
Example C08_case :
  reachable D0 W5 /\ R6 = Ok W6 /\ trading_fee_bps W5 = 1000 /\ balance W6 FB = balance W5 FB + 5 /\
  reachable D0 W7 /\ R8 = Ok W8 /\ lp_fee_bps W7 = 1000 /\ balance W8 FB = balance W7 FB + 50.
Proof.
  split; [exact W5_reach|]. split; [apply okb_get; vm_compute; reflexivity|].
  split; [vm_compute; reflexivity|]. split; [vm_compute; reflexivity|]. split; [exact W7_reach|].
  split; [apply okb_get; vm_compute; reflexivity|]. split; vm_compute; reflexivity.
Qed.

(* ------------------------------------------------------------------ *)
(** C09. What the user pays and gets. The user's receiving account is assumed not to be one of the
    controller's own accounts (held by the pool or fee PDA); nothing is assumed of the paying account —
    it must be the signer's. *)
Definition users_account (w : World) (k : key) : Prop :=
  forall t, w_tok w k = Some t -> ta_owner t <> POOL_STATE_ID /\ ta_owner t <> PROTOCOL_FEE_ID.

Lemma derived_held D w wallet prog mint b k t :
  ata_ok D w -> wallet = POOL_STATE_ID \/ wallet = PROTOCOL_FEE_ID ->
  d_create D wallet prog mint b = Some k -> w_tok w k = Some t -> ta_owner t = wallet.
Proof. intros Ha Hw Hd Ht. destruct (Ha _ _ _ _ _ Hw Hd) as (_ & H). now destruct (H t Ht) as (_ & ? & _). Qed.
Lemma signer_users w accs k t :
  pdas_do_not_sign accs -> w_tok w k = Some t -> ta_owner t = key_at accs 0 -> signed_by accs (key_at accs 0) ->
  users_account w k.
Proof.
  intros Hn Ht Ho (a & Ha & Hs & He) t' Ht'. assert (t' = t) by congruence. subst t'.
  split; intros Heq; apply (Hn a Ha Hs); rewrite He, <- Ho, Heq; cbn; tauto.
Qed.

Lemma balance_nonneg w k : base_inv w -> 0 <= balance w k.
Proof.
  intros Hb. unfold balance. destruct (w_tok w k) as [t|] eqn:Ht; [|lia].
  apply (proj1 (base_u64 _ Hb)) in Ht. unfold U64 in Ht. lia.
Qed.

(** The exact movements of a swap, for the five accounts involved. *)
Definition swap_moves (w : World) accs (src_in dst_out fee : Z) (w' : World) : Prop :=
  balance w' (sw_user_src accs) = balance w (sw_user_src accs) - src_in /\
  balance w' (sw_user_dst accs) = balance w (sw_user_dst accs) + dst_out /\
  balance w' (sw_src_reserves accs) = balance w (sw_src_reserves accs) + src_in /\
  balance w' (sw_dst_reserves accs) = balance w (sw_dst_reserves accs) - dst_out - fee /\
  balance w' (sw_fee_acc accs) = balance w (sw_fee_acc accs) + fee /\
  (forall k, ~ In k [sw_user_src accs; sw_user_dst accs; sw_src_reserves accs; sw_dst_reserves accs;
                     sw_fee_acc accs] -> balance w' k = balance w k) /\
  (forall M, supply w' M = supply w M).

Lemma swap_flow_moves D E w accs n m i j w2 si so fee w' lsrc ldst :
  ata_ok D w -> pdas_do_not_sign accs -> swap_parties D w accs lsrc ldst ->
  users_account w (sw_user_dst accs) ->
  swap_flow E w accs n m i j w2 si so fee w' -> swap_moves w accs si so fee w'.
Proof.
  intros Ha Hn HQ Hu (w1 & w3 & w4 & R1 & R2 & _ & HM & HB & R3 & R4).
  destruct HQ as (Hne & _ & _ & _ & (us & US & USm & USo & USs) & (ud & UD & UDm) & (rs & RS & RSm) &
    (rd & RDd & RDm & RDo) & (fa & FA & FAm) & D1 & D2 & D3).
  pose proof (signer_users _ _ _ _ Hn US USo USs _ US) as (N1 & N2). destruct (Hu _ UD) as (N3 & N4).
  pose proof (derived_held _ _ _ _ _ _ _ _ Ha (or_introl eq_refl) D1 RS) as O1.
  pose proof (derived_held _ _ _ _ _ _ _ _ Ha (or_intror eq_refl) D3 FA) as O3.
  pose proof pool_ne_fee as PF.
  apply revalued_supply in R1 as (S1 & B1), R2 as (S2 & B2), R3 as (S3 & B3), R4 as (S4 & B4).
  assert (HB' : forall k, balance w' k = balance w k
       - on k (sw_user_src accs) si + on k (sw_src_reserves accs) si
       - on k (sw_dst_reserves accs) (so + fee)
       + on k (sw_fee_acc accs) fee + on k (sw_user_dst accs) so).
  { intros k. rewrite B4, B3, HB, B2, B1. reflexivity. }
  clear HB B1 B2 B3 B4. unfold swap_moves.
  csplit; try (rewrite HB', ?on_same; repeat rewrite on_other by (intros Heq; rewrite Heq in *; congruence); lia).
  - intros k Hk. cbn in Hk. rewrite HB'. rewrite !on_other by (intros ->; tauto). lia.
  - intros M. rewrite S4, S3. transitivity (supply w2 M); [unfold supply; now rewrite HM|]. now rewrite S2, S1.
Qed.
Theorem C09_swap_exact_in D (HD : derive_ok D) E C w accs a w' :
  reachable D w -> pdas_do_not_sign accs -> users_account w (sw_user_dst accs) ->
  process D E C w accs (SwapExactIn a) = Ok w' ->
  exists dst_out fee, swap_moves w accs (si_amount a) dst_out fee w' /\
    0 < si_amount a <= balance w (sw_user_src accs) /\
    si_min_amount_out a <= dst_out /\ 0 < dst_out /\ 0 <= fee /\
    (exists t, w_tok w (sw_user_src accs) = Some t /\ ta_mint t = sw_src_mint accs /\ signed_by accs (ta_owner t)) /\
    (exists t, w_tok w (sw_user_dst accs) = Some t /\ ta_mint t = sw_dst_mint accs).
Proof.
  intros Hr Hn Hu H. pose proof (proj1 (reachable_inv D HD _ Hr)) as Hb.
  pose proof (proj1 (reachable_ata D HD _ Hr)) as Ha.
  destruct (swap_in_parties _ _ _ _ _ _ _ H) as (l & lsrc & ldst & _ & _ & _ & HQ).
  apply swap_in_run in H; auto. cbv zeta in *.
  destruct H as (w2 & in_sol & in_hi & out_sol & dst_out & dst_hi & fee & HF & H).
  exists dst_out, fee. pose proof HQ as (_ & _ & _ & _ & (u & U1 & U2 & U3 & U4) & HD' & _).
  csplit; try lia; eauto using swap_flow_moves. exists u. rewrite U3. auto.
Qed.
Theorem C09_swap_exact_out D (HD : derive_ok D) E C w accs a w' :
  reachable D w -> pdas_do_not_sign accs -> users_account w (sw_user_dst accs) ->
  process D E C w accs (SwapExactOut a) = Ok w' ->
  exists src_in fee, swap_moves w accs src_in (so_amount a) fee w' /\
    0 < so_amount a /\ 0 < src_in <= so_max_amount_in a /\ src_in <= balance w (sw_user_src accs) /\ 0 <= fee /\
    (exists t, w_tok w (sw_user_src accs) = Some t /\ ta_mint t = sw_src_mint accs /\ signed_by accs (ta_owner t)) /\
    (exists t, w_tok w (sw_user_dst accs) = Some t /\ ta_mint t = sw_dst_mint accs).
Proof.
  intros Hr Hn Hu H. pose proof (proj1 (reachable_inv D HD _ Hr)) as Hb.
  pose proof (proj1 (reachable_ata D HD _ Hr)) as Ha.
  destruct (swap_out_parties _ _ _ _ _ _ _ H) as (l & lsrc & ldst & _ & _ & _ & HQ).
  apply swap_out_run in H; auto. cbv zeta in *.
  destruct H as (w2 & out_lo & out_sol & in_sol & src_lo & src_in & fee & HF & H).
  exists src_in, fee. pose proof HQ as (_ & _ & _ & _ & (u & U1 & U2 & U3 & U4) & HD' & _).
  csplit; try lia; eauto using swap_flow_moves. exists u. rewrite U3. auto.
Qed.
(** AddLiquidity. The only aliasing left is an LP mint that is itself the deposited LST. *)
Theorem C09_add_liquidity D (HD : derive_ok D) E C w accs a w' :
  reachable D w -> pdas_do_not_sign accs -> users_account w (lq_user_lp accs) ->
  lq_user_lst accs <> lq_user_lp accs ->
  process D E C w accs (AddLiquidity a) = Ok w' ->
  exists to_reserves fee lp,
    to_reserves + fee = al_lst_amount a /\ 0 < to_reserves /\ 0 <= fee /\ 0 < lp /\ al_min_lp_out a <= lp /\
    al_lst_amount a <= balance w (lq_user_lst accs) /\
    balance w' (lq_user_lst accs) = balance w (lq_user_lst accs) - al_lst_amount a /\
    balance w' (lq_user_lp accs) = balance w (lq_user_lp accs) + lp /\
    balance w' (lq_reserves accs) = balance w (lq_reserves accs) + to_reserves /\
    balance w' (lq_fee_acc accs) = balance w (lq_fee_acc accs) + fee /\
    (forall k, ~ In k [lq_user_lst accs; lq_user_lp accs; lq_reserves accs; lq_fee_acc accs] ->
       balance w' k = balance w k) /\
    (forall M, supply w' M = supply w M + on M (lq_lp_mint accs) lp) /\
    (exists t, w_tok w (lq_user_lst accs) = Some t /\ ta_mint t = lq_mint accs /\ signed_by accs (ta_owner t)) /\
    (exists t, w_tok w (lq_user_lp accs) = Some t /\ ta_mint t = lq_lp_mint accs).
Proof.
  intros Hr Hn Hu Hal H. pose proof (proj1 (reachable_inv D HD _ Hr)) as Hb.
  pose proof (proj1 (reachable_ata D HD _ Hr)) as Ha.
  assert (Hnn : 0 <= balance w' (lq_user_lst accs)).
  { apply balance_nonneg. eapply process_base; eauto. }
  destruct (add_parties _ _ _ _ _ _ _ H) as (l & ls & us & _ & _ & _ & HQ & US & USo & USs).
  apply add_run in H; auto. cbv zeta in *.
  destruct H as (w1 & sol & hi & after & tr & fee & lp & HF & H).
  destruct HF as (w2 & R1 & _ & HS & HB & R2).
  destruct HQ as (_ & (us' & US' & USm) & (ul & UL & ULm) & (rs & RS & RSm) & (fa & FA & FAm) & D1 & D2).
  assert (us' = us) by congruence. subst us'.
  pose proof (signer_users _ _ _ _ Hn US USo USs _ US) as (N1 & N2). destruct (Hu _ UL) as (N3 & N4).
  pose proof (derived_held _ _ _ _ _ _ _ _ Ha (or_introl eq_refl) D1 RS) as O1.
  pose proof (derived_held _ _ _ _ _ _ _ _ Ha (or_intror eq_refl) D2 FA) as O3.
  pose proof pool_ne_fee as PF.
  apply revalued_supply in R1 as (S1 & B1), R2 as (S2 & B2).
  assert (HB' : forall k, balance w' k = balance w k
       - on k (lq_user_lst accs) (tr + fee) + on k (lq_reserves accs) tr + on k (lq_fee_acc accs) fee
       + on k (lq_user_lp accs) lp).
  { intros k. rewrite B2, HB, B1. reflexivity. }
  clear HB B1 B2. exists tr, fee, lp.
  assert (Hd : balance w' (lq_user_lst accs) = balance w (lq_user_lst accs) - (tr + fee)).
  { rewrite HB', on_same; repeat rewrite on_other by (intros Heq; rewrite Heq in *; congruence); lia. }
  csplit; try lia; try (rewrite HB', ?on_same; repeat rewrite on_other by (intros Heq; rewrite Heq in *; congruence); lia); eauto.
  - intros k Hk. cbn in Hk. rewrite HB'. rewrite !on_other by (intros ->; tauto). lia.
  - intros M. now rewrite S2, HS, S1.
  - exists us. rewrite USo. auto.
Qed.
Theorem C09_remove_liquidity D (HD : derive_ok D) E C w accs a w' :
  reachable D w -> pdas_do_not_sign accs -> users_account w (lq_user_lst accs) ->
  lq_user_lst accs <> lq_user_lp accs ->
  process D E C w accs (RemoveLiquidity a) = Ok w' ->
  exists to_user fee,
    0 < rl_lp_token_amount a <= balance w (lq_user_lp accs) /\ 0 < to_user /\ rl_min_lst_out a <= to_user /\ 0 <= fee /\
    balance w' (lq_user_lp accs) = balance w (lq_user_lp accs) - rl_lp_token_amount a /\
    balance w' (lq_user_lst accs) = balance w (lq_user_lst accs) + to_user /\
    balance w' (lq_reserves accs) = balance w (lq_reserves accs) - to_user - fee /\
    balance w' (lq_fee_acc accs) = balance w (lq_fee_acc accs) + fee /\
    (forall k, ~ In k [lq_user_lst accs; lq_user_lp accs; lq_reserves accs; lq_fee_acc accs] ->
       balance w' k = balance w k) /\
    (forall M, supply w' M = supply w M - on M (lq_lp_mint accs) (rl_lp_token_amount a)) /\
    (exists t, w_tok w (lq_user_lp accs) = Some t /\ ta_mint t = lq_lp_mint accs /\ signed_by accs (ta_owner t)) /\
    (exists t, w_tok w (lq_user_lst accs) = Some t /\ ta_mint t = lq_mint accs).
Proof.
  intros Hr Hn Hu Hal H. pose proof (proj1 (reachable_inv D HD _ Hr)) as Hb.
  pose proof (proj1 (reachable_ata D HD _ Hr)) as Ha.
  destruct (remove_parties _ _ _ _ _ _ _ H) as (l & ls & us & _ & _ & HQ & US & USo & USs).
  apply remove_run in H; auto. cbv zeta in *.
  destruct H as (w1 & sol & after & tu & hi & fee & HF & H).
  destruct HF as (w2 & R1 & _ & HS & HB & R2).
  destruct HQ as (_ & (ul & UL & ULm) & (us' & US' & USm) & (rs & RS & RSm) & (fa & FA & FAm) & D1 & D2).
  assert (us' = us) by congruence. subst us'.
  pose proof (signer_users _ _ _ _ Hn US USo USs _ US) as (N1 & N2). destruct (Hu _ UL) as (N3 & N4).
  pose proof (derived_held _ _ _ _ _ _ _ _ Ha (or_introl eq_refl) D1 RS) as O1.
  pose proof (derived_held _ _ _ _ _ _ _ _ Ha (or_intror eq_refl) D2 FA) as O3.
  pose proof pool_ne_fee as PF.
  apply revalued_supply in R1 as (S1 & B1), R2 as (S2 & B2).
  assert (HB' : forall k, balance w' k = balance w k
       - on k (lq_user_lp accs) (rl_lp_token_amount a) - on k (lq_reserves accs) (tu + fee)
       + on k (lq_user_lst accs) tu + on k (lq_fee_acc accs) fee).
  { intros k. rewrite B2, HB, B1. reflexivity. }
  clear HB B1 B2. exists tu, fee.
  csplit; try lia; try (rewrite HB', ?on_same; repeat rewrite on_other by (intros Heq; rewrite Heq in *; congruence); lia); eauto.
  - intros k Hk. cbn in Hk. rewrite HB'. rewrite !on_other by (intros ->; tauto). lia.
  - intros M. now rewrite S2, HS, S1.
  - exists us. rewrite USo. auto.
Qed.
Example C09_case :
  reachable D0 W5 /\ R6 = Ok W6 /\ pdas_do_not_sign swap_accs /\ users_account W5 (sw_user_dst swap_accs) /\
  balance W6 UA = balance W5 UA - 10001 /\ balance W6 UB = balance W5 UB + 4950 /\
  si_min_amount_out swap_in_args = 4000.
Proof.
  split; [exact W5_reach|]. split; [apply okb_get; vm_compute; reflexivity|].
  split; [apply pdas_do_not_signb_ok; reflexivity|].
  split; [intros t Ht; vm_compute in Ht; injection Ht as <-; split; vm_compute; congruence|].
  repeat split; vm_compute; reflexivity.
Qed.
Example C09_case_liquidity :
  reachable D0 W7 /\ R8 = Ok W8 /\ pdas_do_not_sign (liq_accs MB UB FB SPL_TOKEN_2022_ID RB CB) /\
  users_account W7 UB /\ users_account W7 UL /\ UB <> UL /\ balance W8 UL = balance W7 UL - 100000.
Proof.
  split; [exact W7_reach|]. split; [apply okb_get; vm_compute; reflexivity|].
  split; [apply pdas_do_not_signb_ok; reflexivity|].
  split; [intros t Ht; vm_compute in Ht; injection Ht as <-; split; vm_compute; congruence|].
  split; [intros t Ht; vm_compute in Ht; injection Ht as <-; split; vm_compute; congruence|].
  split; [vm_compute; congruence|]. vm_compute; reflexivity.
Qed.
