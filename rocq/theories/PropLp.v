(** LP token value: C06, C07, C26. *)
From Coq Require Import ZArith List Bool Lia.
From Verif Require Import Base Ratio Calc State Controller Inversion ProcInv Spec CalcProofs InvProofs
  TokProofs AccessProofs ShapeProofs MoneyProofs Concrete ConcreteReach PropTok PropMoney.
Import ListNotations.
Open Scope Z_scope.

(** The arithmetic of a deposit at rate n/d with rounding error below e. [R]: reserves before, worth [v];
    [amt] is worth [sol], priced at [after]; [tr] goes to the reserves, [fee] to the protocol. *)
Lemma deposit_value n d e R v amt sol after P tr fee v' :
  0 < n -> 0 < d -> 1 <= e -> 0 < amt -> 0 <= after <= sol -> 0 <= P <= sol - after ->
  v * d <= R * n -> sol * d <= amt * n -> (R + tr) * n < (v' + e) * d ->
  tr + fee = amt -> fee * sol <= P * amt -> 0 <= fee -> 0 < tr ->
  v + after - e < v'.
Proof.
  intros Hn Hd He Ha Haf HP Hv Hs Hv' Hsum Hf Hf0 Htr.
  (* tr*n >= after*d *)
  assert (Htn : after * d <= tr * n).
  { destruct (Z.eq_dec sol 0) as [->|Hs0]; [nia|].
    (* fee*sol <= (sol-after)*amt, so tr*sol >= after*amt *)
    assert (H1 : after * amt <= tr * sol) by nia.
    (* tr*n*sol ... : after*d*sol <= after*amt*n <= tr*sol*n *)
    assert (H2 : after * (sol * d) <= after * (amt * n)) by (apply Z.mul_le_mono_nonneg_l; lia).
    assert (H3 : after * amt * n <= tr * sol * n) by (apply Z.mul_le_mono_nonneg_r; lia).
    assert (H4 : sol * (after * d) <= sol * (tr * n)) by nia.
    apply Z.mul_le_mono_pos_l in H4; lia. }
  nia.
Qed.

Lemma add_reserves D E w accs n i w1 tr fee lp w' ls t :
  ata_ok D w -> pdas_do_not_sign accs -> liq_parties D w accs ls ->
  w_tok w (lq_user_lst accs) = Some t -> ta_owner t = key_at accs 0 -> signed_by accs (key_at accs 0) ->
  0 <= lp -> add_flow E w accs n i w1 tr fee lp w' ->
  balance w (lq_reserves accs) + tr <= balance w' (lq_reserves accs).
Proof.
  intros Ha Hn HQ US USo USs Hlp (w2 & R1 & _ & HS & HB & R2).
  destruct HQ as (_ & _ & _ & (rs & RS & RSm) & (fa & FA & FAm) & D1 & D2).
  pose proof (signer_users _ _ _ _ Hn US USo USs _ US) as (N1 & N2).
  pose proof (derived_held _ _ _ _ _ _ _ _ Ha (or_introl eq_refl) D1 RS) as O1.
  pose proof (derived_held _ _ _ _ _ _ _ _ Ha (or_intror eq_refl) D2 FA) as O3.
  pose proof pool_ne_fee as PF.
  apply revalued_supply in R1 as (S1 & B1), R2 as (S2 & B2). rewrite B2, HB, B1.
  rewrite on_same, (on_other _ (lq_user_lst accs)), (on_other _ (lq_fee_acc accs))
    by (intros Heq; rewrite Heq in *; congruence).
  unfold on. destruct (lq_reserves accs =? lq_user_lp accs); lia.
Qed.

Lemma add_gain E w accs k i w1 tr fee lp w' n d e amt sol hi after bps :
  let g := group accs 11 k in
  0 <= i -> add_flow E w accs k i w1 tr fee lp w' ->
  balance w (lq_reserves accs) + tr <= balance w' (lq_reserves accs) ->
  at_rate E (group_prog g) (lq_mint accs) (group_accs g) n d e ->
  e_lst_to_sol E w1 (group_prog g) (lq_mint accs) (group_accs g) amt = Ok (sol, hi) ->
  calc_add_liquidity_protocol_fees amt sol after bps = Ok (tr, fee) ->
  0 <= after <= sol -> 0 <= bps -> 0 < amt -> 0 < tr -> 0 <= fee ->
  exists w2 v v', valued E w (group_prog g) (lq_mint accs) (group_accs g) (balance w (lq_reserves accs)) v /\
    valued E w2 (group_prog g) (lq_mint accs) (group_accs g) (balance w' (lq_reserves accs)) v' /\
    recorded w' i = v' /\ total w' = total w1 - v + v' /\ v + after - e < v'.
Proof.
  intros g Hi (w2 & R1 & Hctl & HS' & HB & R2) HR (Hn0 & Hd0 & He & Hrate) I1 Hc Haf Hbps Ha0 Htr Hfee.
  fold g in R1, R2. apply add_fee_eq in Hc as (Hb1 & Hfe & Hsum); [|lia].
  pose proof (revalued_supply _ _ _ _ _ _ _ _ R2) as (S2 & B2).
  apply same_ctl_figures in Hctl as (Hct & Hcr).
  apply revalued_figures in R1 as (v & V1 & E1 & T1 & O1 & _), R2 as (v' & V2 & E2 & T2 & O2 & _); try lia.
  rewrite <- B2 in V2. rewrite Hct, Hcr, E1 in T2.
  pose proof (Hrate _ _ _ V1) as Q1. pose proof (Hrate _ _ _ V2) as Q2.
  pose proof (Hrate _ _ _ (ex_intro _ hi I1)) as Q3.
  pose proof (bps_share_bounds bps (sol - after) ltac:(lia) ltac:(lia)) as QP.
  assert (Hfs : fee * sol <= bps_share bps (sol - after) * amt).
  { rewrite Hfe. destruct (Z.eq_dec sol 0) as [->|]; [nia|].
    rewrite Z.mul_comm. apply Z.mul_div_le. lia. }
  exists w2, v, v'. csplit; auto.
  eapply (deposit_value n d e (balance w (lq_reserves accs)) v amt sol after _ tr fee v'); eauto; try lia.
  eapply Z.le_lt_trans; [|apply Q2]. apply Z.mul_le_mono_nonneg_r; lia.
Qed.

(* ------------------------------------------------------------------ *)
(** C06. With a calculator that works at some rate n/d SOL per token, rounding down by less than [e]
    ([e] = 1: exactly the floor), a successful AddLiquidity raises the pool's value by at least the value
    [after] the deposit is credited for, up to [e] - 1 rounding units; the LP tokens minted are
    floor(after * supply / total), never more
    (the first depositor, when no LP token exists, is minted the whole pool value; an empty pool with LP tokens
    outstanding mints one to one); hence value per LP token does not fall ([e] = 1):
    total'/supply' >= total/supply, where total is measured right before the deposit. *)
Theorem C06_add_liquidity D (HD : derive_ok D) E C w accs a w' n d e :
  reachable D w -> pdas_do_not_sign accs -> process D E C w accs (AddLiquidity a) = Ok w' ->
  let g := group accs 11 (al_lst_value_calc_accs a) in
  let gp := skipn (11 + Z.to_nat (al_lst_value_calc_accs a)) accs in
  at_rate E (group_prog g) (lq_mint accs) (group_accs g) n d e ->
  exists w1 sol hi after,
    revalued E w (al_lst_index a) (lq_reserves accs) (group_prog g) (lq_mint accs) (group_accs g) w1 /\
    e_lst_to_sol E w1 (group_prog g) (lq_mint accs) (group_accs g) (al_lst_amount a) = Ok (sol, hi) /\
    e_price_lp_to_mint E w1 (group_prog gp) (lq_mint accs) (group_accs gp) (al_lst_amount a) sol = Ok after /\
    let S := supply w (lq_lp_mint accs) in let S' := supply w' (lq_lp_mint accs) in
    0 <= after <= sol /\
    total w' >= total w1 + after - (e - 1) /\
    (0 < S -> 0 < total w1 -> S' - S = after * S / total w1) /\
    (S = 0 -> S' = total w1 + after) /\
    (0 < S -> total w1 = 0 -> S' - S = after) /\
    (0 < S -> total w' * S >= total w1 * S' - (e - 1) * S).
Proof.
  intros Hr Hn H g gp Hrate. pose proof (proj1 (reachable_inv D HD _ Hr)) as Hb.
  pose proof (proj1 (reachable_ata D HD _ Hr)) as Ha.
  destruct (add_parties _ _ _ _ _ _ _ H) as (l & ls & us & _ & _ & _ & HQ & US & USo & USs).
  pose proof (process_wf _ _ _ _ _ _ _ H) as Hwf. wf Hwf.
  apply add_run in H; auto. cbv zeta in H. fold g in H. fold gp in H.
  destruct H as (w1 & sol & hi & after & tr & fee & lp & HF & I1 & I2 & Hc & Hlp & U1 & U2 & Haf & Hsum & Htr & Hfee &
    Hlp0 & _ & Ha0 & Hbps & Hbe & _ & Ut & Us & Hse & _).
  pose proof (add_reserves _ _ _ _ _ _ _ _ _ _ _ _ _ Ha Hn HQ US USo USs (Z.lt_le_incl _ _ Hlp0) HF) as HR.
  unfold U64 in *. pose proof Hrate as (_ & _ & He & _).
  assert (Hidx : 0 <= al_lst_index a) by lia.
  destruct (add_gain _ _ _ _ _ _ _ _ _ _ _ _ _ _ _ _ _ _ Hidx HF HR Hrate I1 Hc) as
    (w2' & v & v' & _ & _ & _ & T2 & Hval); try lia.
  destruct HF as (w2 & R1 & Hctl & HS' & HB & R2). fold g in R1, R2.
  exists w1, sol, hi, after. split; [exact R1|]. split; [exact I1|]. split; [exact I2|]. cbv zeta.
  pose proof (revalued_supply _ _ _ _ _ _ _ _ R1) as (S1 & B1). pose proof (revalued_supply _ _ _ _ _ _ _ _ R2) as (S2 & B2).
  assert (HSs : supply w' (lq_lp_mint accs) = supply w (lq_lp_mint accs) + lp) by (rewrite S2, HS', S1, on_same; reflexivity).
  rewrite Hse in Hlp, Us. set (S := supply w (lq_lp_mint accs)) in *.
  assert (Hto : total w' >= total w1 + after - (e - 1)) by lia.
  csplit; auto; try lia.
  - intros HS0 HT0. rewrite HSs. revert Hlp. unfold calc_lp_tokens_to_mint.
    destruct (Z.eqb_spec S 0); [lia|]. destruct (Z.eqb_spec (total w1) 0); [lia|].
    intros Hq. apply floor_apply_eq in Hq. lia.
  - intros HS0. rewrite HSs. revert Hlp. unfold calc_lp_tokens_to_mint. rewrite HS0. cbn [Z.eqb].
    intros Hq. apply checked_add_ok in Hq as (Hq & _). lia.
  - intros HS0 HT0. rewrite HSs. revert Hlp. unfold calc_lp_tokens_to_mint. rewrite HT0.
    destruct (Z.eqb_spec S 0); [lia|]. cbn [Z.eqb]. intros Hq. injection Hq as Hq. lia.
  - intros HS0. rewrite HSs.
    destruct (Z.eq_dec (total w1) 0) as [Hz|Hz].
    + rewrite Hz in *. nia.
    + apply lp_to_mint_le in Hlp; [|lia..]. nia.
Qed.
(** The floor case spelled out: nobody is diluted. *)
Corollary C06_no_dilution D (HD : derive_ok D) E C w accs a w' n d :
  reachable D w -> pdas_do_not_sign accs -> process D E C w accs (AddLiquidity a) = Ok w' ->
  let g := group accs 11 (al_lst_value_calc_accs a) in
  at_rate E (group_prog g) (lq_mint accs) (group_accs g) n d 1 ->
  0 < supply w (lq_lp_mint accs) ->
  exists w1,
    revalued E w (al_lst_index a) (lq_reserves accs) (group_prog g) (lq_mint accs) (group_accs g) w1 /\
    total w' * supply w (lq_lp_mint accs) >= total w1 * supply w' (lq_lp_mint accs).
Proof.
  intros Hr Hn H g Hrate HS. destruct (C06_add_liquidity D HD _ _ _ _ _ _ _ _ _ Hr Hn H Hrate) as
    (w1 & sol & hi & after & R & _ & _ & _ & _ & _ & _ & _ & Hd). exists w1. split; auto. specialize (Hd HS). lia.
Qed.
Lemma E0_rate_a m accs : at_rate E0 CA m accs 1 1 1.
Proof. unfold at_rate. csplit; try lia. intros w x v (hi & H). cbn in H. injection H as <- <-. lia. Qed.
Lemma E0_rate_b m accs : at_rate E0 CB m accs 2 1 1.
Proof. unfold at_rate. csplit; try lia. intros w x v (hi & H). assert (v = 2 * x) by (change (Ok (2 * x, 2 * x) = Ok (v, hi)) in H; congruence). lia. Qed.
Example C06_case :
  reachable D0 W4 /\ R5 = Ok W5 /\ pdas_do_not_sign (liq_accs MB UB FB SPL_TOKEN_2022_ID RB CB) /\
  at_rate E0 CB MB [] 2 1 1 /\ 0 < supply W4 LP /\ supply W5 LP = supply W4 LP + 981081 /\ total W4 = 999000.
Proof.
  split; [exact W4_reach|]. split; [apply okb_get; vm_compute; reflexivity|].
  split; [apply pdas_do_not_signb_ok; reflexivity|]. split; [apply E0_rate_b|].
  split; [vm_compute; reflexivity|]. vm_compute. auto.
Qed.

(* ------------------------------------------------------------------ *)
(** C07. Redeeming LP tokens. *)
Lemma remove_reserves D E w accs n i w1 lp tu fee w' ls t :
  ata_ok D w -> pdas_do_not_sign accs -> liq_parties D w accs ls ->
  w_tok w (lq_user_lp accs) = Some t -> ta_owner t = key_at accs 0 -> signed_by accs (key_at accs 0) ->
  0 <= tu -> remove_flow E w accs n i w1 lp tu fee w' ->
  balance w (lq_reserves accs) - tu - fee <= balance w' (lq_reserves accs).
Proof.
  intros Ha Hn HQ US USo USs Htu (w2 & R1 & _ & HS & HB & R2).
  destruct HQ as (_ & _ & _ & (rs & RS & RSm) & (fa & FA & FAm) & D1 & D2).
  pose proof (signer_users _ _ _ _ Hn US USo USs _ US) as (N1 & N2).
  pose proof (derived_held _ _ _ _ _ _ _ _ Ha (or_introl eq_refl) D1 RS) as O1.
  pose proof (derived_held _ _ _ _ _ _ _ _ Ha (or_intror eq_refl) D2 FA) as O3.
  pose proof pool_ne_fee as PF.
  apply revalued_supply in R1 as (S1 & B1), R2 as (S2 & B2). rewrite B2, HB, B1.
  rewrite on_same, (on_other _ (lq_user_lp accs)), (on_other _ (lq_fee_acc accs))
    by (intros Heq; rewrite Heq in *; congruence).
  unfold on. destruct (lq_reserves accs =? lq_user_lst accs); lia.
Qed.

(** The SOL value credited for the burned LP tokens is at most their proportional share of the measured
    total; the user is paid the calculator's lower estimate for no more than that; exactly the LP tokens
    named are burned from the signer's account. Nothing is assumed of the external programs. *)
Theorem C07_share D (HD : derive_ok D) E C w accs a w' :
  reachable D w -> process D E C w accs (RemoveLiquidity a) = Ok w' ->
  let g := group accs 11 (rl_lst_value_calc_accs a) in
  let gp := skipn (11 + Z.to_nat (rl_lst_value_calc_accs a)) accs in
  exists w1 sol after to_user hi fee,
    remove_flow E w accs (rl_lst_value_calc_accs a) (rl_lst_index a) w1 (rl_lp_token_amount a) to_user fee w' /\
    sol * supply w (lq_lp_mint accs) <= rl_lp_token_amount a * total w1 /\
    e_price_lp_to_redeem E w1 (group_prog gp) (lq_mint accs) (group_accs gp) (rl_lp_token_amount a) sol = Ok after /\
    0 <= after <= sol /\
    e_sol_to_lst E w1 (group_prog g) (lq_mint accs) (group_accs g) after = Ok (to_user, hi) /\
    0 < rl_lp_token_amount a <= supply w (lq_lp_mint accs) /\
    supply w' (lq_lp_mint accs) = supply w (lq_lp_mint accs) - rl_lp_token_amount a.
Proof.
  intros Hr H. pose proof (proj1 (reachable_inv D HD _ Hr)) as Hb.
  apply remove_run in H; auto. cbv zeta in *.
  destruct H as (w1 & sol & after & tu & hi & fee & HF & Hlp & I1 & I2 & Hc & U1 & U2 & Haf & Htu & _ & Hfee &
    Hlp0 & Hbps & Hbe & Ht & Hs & Hse & Hls & _). unfold U64 in *.
  exists w1, sol, after, tu, hi, fee.
  apply lp_sol_value_le in Hlp as (_ & _ & Hlp); try lia. rewrite Hse in *.
  csplit; auto; try lia.
  destruct HF as (w2 & R1 & _ & HS & _ & R2).
  apply revalued_supply in R1 as (S1 & _), R2 as (S2 & _). rewrite S2, HS, S1, on_same. reflexivity.
Qed.

Lemma withdraw_value n d R R' v v' tu fee P sol after :
  0 < n -> 0 < d -> 0 < after <= sol -> 0 <= P <= sol - after -> 0 < tu -> 0 <= fee ->
  R * n < (v + 1) * d \/ v * d <= R * n -> 
  v * d <= R * n -> R' * n < (v' + 1) * d -> R - tu - fee <= R' ->
  fee * after <= P * tu ->
  (* value taken out, scaled by after *)
  (v - v' - 1) * d * after < tu * n * sol.
Proof.
  intros Hn Hd Haf HP Htu Hf _ Hv Hv' HR Hfee.
  assert (H1 : (tu + fee) * after <= tu * sol) by nia.
  assert (H2 : (v - v' - 1) * d < (tu + fee) * n) by nia.
  assert (H3 : (v - v' - 1) * d * after < (tu + fee) * n * after) by (apply Z.mul_lt_mono_pos_r; lia).
  assert (H4 : (tu + fee) * after * n <= tu * sol * n) by (apply Z.mul_le_mono_nonneg_r; lia).
  nia.
Qed.

(** With a floor calculator at rate n/d:
    - if it pays out no more tokens than [after] buys (to_user * n <= after * d) the pool gives up at most
      [sol], the credited share, and value per LP token does not fall;
    - if it rounds the payout up to the next whole token (the shipped calculators' lower estimate is the
      least amount worth at least [after]) value given up exceeds [sol] by less than 1 + n*sol/(d*after). *)
Theorem C07_price D (HD : derive_ok D) E C w accs a w' n d :
  reachable D w -> pdas_do_not_sign accs -> process D E C w accs (RemoveLiquidity a) = Ok w' ->
  let g := group accs 11 (rl_lst_value_calc_accs a) in
  let gp := skipn (11 + Z.to_nat (rl_lst_value_calc_accs a)) accs in
  at_rate E (group_prog g) (lq_mint accs) (group_accs g) n d 1 ->
  exists w1 sol after to_user hi,
    revalued E w (rl_lst_index a) (lq_reserves accs) (group_prog g) (lq_mint accs) (group_accs g) w1 /\
    sol = rl_lp_token_amount a * total w1 / supply w (lq_lp_mint accs) /\
    e_price_lp_to_redeem E w1 (group_prog gp) (lq_mint accs) (group_accs gp) (rl_lp_token_amount a) sol = Ok after /\
    e_sol_to_lst E w1 (group_prog g) (lq_mint accs) (group_accs g) after = Ok (to_user, hi) /\
    0 <= after <= sol /\
    let S := supply w (lq_lp_mint accs) in let S' := supply w' (lq_lp_mint accs) in
    (0 < after -> to_user * n <= after * d ->
       total w' >= total w1 - sol /\ total w' * S >= total w1 * S') /\
    (0 < after -> (to_user - 1) * n < after * d ->
       (total w1 - total w' - sol - 1) * (d * after) < n * sol /\
       (total w1 * S' - total w' * S - S) * (d * after) <= n * sol * S).
Proof.
  intros Hr Hn H g gp Hrate. pose proof (proj1 (reachable_inv D HD _ Hr)) as Hb.
  pose proof (proj1 (reachable_ata D HD _ Hr)) as Ha.
  destruct (remove_parties _ _ _ _ _ _ _ H) as (l & ls & us & _ & _ & HQ & US & USo & USs).
  pose proof (process_wf _ _ _ _ _ _ _ H) as Hwf. wf Hwf.
  apply remove_run in H; auto. cbv zeta in H. fold g in H. fold gp in H.
  destruct H as (w1 & sol & after & tu & hi & fee & HF & Hlp & I1 & I2 & Hc & U1 & U2 & Haf & Htu & _ & Hfee &
    Hlp0 & Hbps & Hbe & Ut & Us & Hse & Hls & _). unfold U64 in *.
  assert (Htu0 : 0 <= tu) by lia.
  pose proof (remove_reserves _ _ _ _ _ _ _ _ _ _ _ _ _ Ha Hn HQ US USo USs Htu0 HF) as HR.
  destruct HF as (w2 & R1 & Hctl & HS' & _ & R2). fold g in R1, R2.
  apply remove_fee_eq in Hc as (_ & Hfe); [|lia].
  destruct Hrate as (Hn0 & Hd0 & _ & Hrate).
  exists w1, sol, after, tu, hi. split; [exact R1|].
  pose proof (revalued_supply _ _ _ _ _ _ _ _ R1) as (S1 & B1). pose proof (revalued_supply _ _ _ _ _ _ _ _ R2) as (S2 & B2).
  apply same_ctl_figures in Hctl as (Hct & Hcr).
  apply revalued_figures in R1 as (v & V1 & E1 & T1 & O1 & _), R2 as (v' & V2 & E2 & T2 & O2 & _); try lia.
  rewrite <- B2 in V2. rewrite Hct, Hcr, E1 in T2.
  assert (HSs : supply w' (lq_lp_mint accs) = supply w (lq_lp_mint accs) - rl_lp_token_amount a)
    by (rewrite S2, HS', S1, on_same; reflexivity).
  pose proof (Hrate _ _ _ V1) as Q1. pose proof (Hrate _ _ _ V2) as Q2.
  pose proof (bps_share_bounds (lp_fee_bps w1) (sol - after) ltac:(lia) ltac:(lia)) as QP.
  rewrite Hse in Hlp, Us. rewrite HSs. set (S := supply w (lq_lp_mint accs)) in *.
  assert (Hsol : sol = rl_lp_token_amount a * total w1 / S).
  { revert Hlp. unfold calc_lp_tokens_sol_value. destruct (Z.eqb_spec (total w1) 0) as [->|]; cbn [orb].
    - intros [= <-]. rewrite Z.mul_0_r, Zdiv_0_l. reflexivity.
    - destruct (Z.eqb_spec S 0); [lia|]. apply floor_apply_eq. }
  apply lp_sol_value_le in Hlp as (_ & _ & Hlp); try lia.
  csplit; auto; try lia; intros Haf0 Hr1.
  1-2: assert (Hval : (v - v' - 1) * d * after < tu * n * sol)
    by (apply (withdraw_value n d (balance w (lq_reserves accs)) (balance w' (lq_reserves accs)) v v' tu fee
          (bps_share (lp_fee_bps w1) (sol - after)) sol after); auto; try lia;
        rewrite Hfe, Z.mul_comm; apply Z.mul_div_le; lia).
  - assert (Hle : v - v' <= sol).
    { assert (QH1 : tu * n * sol <= after * d * sol) by (apply Z.mul_le_mono_nonneg_r; lia).
      assert (QH2 : (d * after) * (v - v' - 1) < (d * after) * sol) by lia.
      apply Z.mul_lt_mono_pos_l in QH2; [lia|nia]. }
    split; [lia|]. nia.
  - assert (Hle : (total w1 - total w' - sol - 1) * (d * after) < n * sol).
    { assert (QH1 : (tu - 1) * n * sol <= after * d * sol) by (apply Z.mul_le_mono_nonneg_r; lia). nia. }
    split; [exact Hle|].
    replace (total w1 * (S - rl_lp_token_amount a) - total w' * S - S)
      with ((total w1 - total w' - sol - 1) * S + (sol * S - rl_lp_token_amount a * total w1)) by ring.
    assert (QH0 : 0 < d * after) by nia.
    assert (QH1 : (total w1 - total w' - sol - 1) * (d * after) * S <= n * sol * S)
      by (apply Z.mul_le_mono_nonneg_r; lia).
    assert (QH2 : (sol * S - rl_lp_token_amount a * total w1) * (d * after) <= 0) by nia. nia.
Qed.
Example C07_case :
  reachable D0 W7 /\ R8 = Ok W8 /\ pdas_do_not_sign (liq_accs MB UB FB SPL_TOKEN_2022_ID RB CB) /\
  at_rate E0 CB MB [] 2 1 1 /\ total W8 * supply W7 LP >= total W7 * supply W8 LP /\
  supply W8 LP = supply W7 LP - 100000.
Proof.
  split; [exact W7_reach|]. split; [apply okb_get; vm_compute; reflexivity|].
  split; [apply pdas_do_not_signb_ok; reflexivity|]. split; [apply E0_rate_b|].
  split; vm_compute; congruence.
Qed.

(** The exact claim "value per LP token never falls on redemption" is false of the program: with a floor
    calculator whose lower SOL-to-LST estimate is the least amount worth the given SOL (the
    bracket C23 states for the shipped ones), 1 LP token worth 1 lamport redeems a token worth 2. The loss is within the bound above. *)
Definition E1 : Env := {|
  e_lst_to_sol := e_lst_to_sol E0;
  e_sol_to_lst := fun _ c _ _ s =>
    if c =? CA then Ok (s, s) else if c =? CB then Ok ((s + 1) / 2, (s + 1) / 2) else Err ExternalErr;
  e_price_exact_in := e_price_exact_in E0;
  e_price_exact_out := e_price_exact_out E0;
  e_price_lp_to_mint := e_price_lp_to_mint E0;
  e_price_lp_to_redeem := fun _ p _ _ _ s => if p =? PP then Ok s else Err ExternalErr
|}.
Theorem C07_exact_price_refuted :
  exists D E C w accs a w' w1 n d,
    derive_ok D /\ reachable D w /\ pdas_do_not_sign accs /\ process D E C w accs (RemoveLiquidity a) = Ok w' /\
    let g := group accs 11 (rl_lst_value_calc_accs a) in
    at_rate E (group_prog g) (lq_mint accs) (group_accs g) n d 1 /\
    (forall w s lo hi, e_sol_to_lst E w (group_prog g) (lq_mint accs) (group_accs g) s = Ok (lo, hi) ->
       s * d <= lo * n < s * d + n) /\
    revalued E w (rl_lst_index a) (lq_reserves accs) (group_prog g) (lq_mint accs) (group_accs g) w1 /\
    total w' * supply w (lq_lp_mint accs) < total w1 * supply w' (lq_lp_mint accs).
Proof.
  exists D0, E1, C0, W7, (liq_accs MB UB FB SPL_TOKEN_2022_ID RB CB), (mkRemLiq 1 1 1 1),
    (get (process D0 E1 C0 W7 (liq_accs MB UB FB SPL_TOKEN_2022_ID RB CB) (RemoveLiquidity (mkRemLiq 1 1 1 1)))),
    (get (sync_sol_value_unchecked E1 W7 POOL_STATE_ID LST_STATE_LIST_ID RB (mkCpi (ro CB) []) MB 1)), 2, 1.
  split; [exact D0_ok|]. split; [exact W7_reach|]. split; [apply pdas_do_not_signb_ok; reflexivity|].
  split; [apply okb_get; vm_compute; reflexivity|]. cbv zeta.
  split; [apply (E0_rate_b MB [])|]. split.
  { intros w s lo hi H. assert (lo = (s + 1) / 2) by (change (Ok ((s + 1) / 2, (s + 1) / 2) = Ok (lo, hi)) in H; congruence).
    pose proof (Z.div_mod (s + 1) 2). pose proof (Z.mod_pos_bound (s + 1) 2). lia. }
  split.
  - change (revalued E1 W7 1 RB (mk (ro CB)) MB []
      (get (sync_sol_value_unchecked E1 W7 POOL_STATE_ID LST_STATE_LIST_ID RB (mkCpi (ro CB) []) MB 1))).
    assert (H : sync_sol_value_unchecked E1 W7 POOL_STATE_ID LST_STATE_LIST_ID RB (mkCpi (ro CB) []) MB 1 =
      Ok (get (sync_sol_value_unchecked E1 W7 POOL_STATE_ID LST_STATE_LIST_ID RB (mkCpi (ro CB) []) MB 1)))
      by (apply okb_get; vm_compute; reflexivity).
    apply sync_revalued in H. exact H.
  - vm_compute. reflexivity.
Qed.

(* ------------------------------------------------------------------ *)
(** C26. Deposit, then immediately redeem all the LP tokens received, with the same accounts, at a floor
    calculator of rate n/d, in a pool that already has LP holders and value: the value credited for the
    LP tokens is at most the value the deposit added to the pool; and the tokens paid back never exceed
    what went into the reserves (when a token is worth at least a lamport and the payout is not rounded
    up), or exceed it by at most one (when it is rounded up to a whole token). *)
Theorem C26_add_then_remove D (HD : derive_ok D) E C C' w accs a w' b w'' n d :
  reachable D w -> pdas_do_not_sign accs -> users_account w (lq_user_lp accs) ->
  process D E C w accs (AddLiquidity a) = Ok w' ->
  process D E C' w' accs (RemoveLiquidity b) = Ok w'' ->
  rl_lst_index b = al_lst_index a -> rl_lst_value_calc_accs b = al_lst_value_calc_accs a ->
  rl_lp_token_amount b = supply w' (lq_lp_mint accs) - supply w (lq_lp_mint accs) ->
  let g := group accs 11 (al_lst_value_calc_accs a) in
  let gp := skipn (11 + Z.to_nat (al_lst_value_calc_accs a)) accs in
  at_rate E (group_prog g) (lq_mint accs) (group_accs g) n d 1 ->
  exists w1 w1' sol after to_reserves fee lp to_user hi fee',
    add_flow E w accs (al_lst_value_calc_accs a) (al_lst_index a) w1 to_reserves fee lp w' /\
    to_reserves + fee = al_lst_amount a /\
    remove_flow E w' accs (al_lst_value_calc_accs a) (al_lst_index a) w1' lp to_user fee' w'' /\
    e_price_lp_to_redeem E w1' (group_prog gp) (lq_mint accs) (group_accs gp) lp sol = Ok after /\
    e_sol_to_lst E w1' (group_prog g) (lq_mint accs) (group_accs g) after = Ok (to_user, hi) /\
    0 <= after <= sol /\
    (0 < supply w (lq_lp_mint accs) -> 0 < total w1 ->
       sol <= total w' - total w1 /\
       (d <= n -> to_user * n <= after * d -> to_user <= to_reserves) /\
       (d <= n -> (to_user - 1) * n < after * d -> to_user <= to_reserves + 1)).
Proof.
  intros Hr Hn Hu HA HRm Hi Hg Hlpb g gp Hrate.
  pose proof (proj1 (reachable_inv D HD _ Hr)) as Hb. pose proof (process_base _ HD _ _ _ _ _ _ HA Hb) as Hb'.
  pose proof (proj1 (reachable_ata D HD _ Hr)) as Ha.
  destruct (add_parties _ _ _ _ _ _ _ HA) as (l & ls & us & _ & _ & _ & HQ & US & USo & USs).
  pose proof (process_wf _ _ _ _ _ _ _ HA) as Hwf. wf Hwf.
  apply add_run in HA; auto. cbv zeta in HA. fold g in HA. fold gp in HA.
  destruct HA as (w1 & sol0 & hi0 & after0 & tr & fee & lp & HF & I1 & I2 & Hc & Hlp & U1 & U2 & Haf & Hsum & Htr & Hfee &
    Hlp0 & _ & Ha0 & Hbps & Hbe & _ & Ut & Us & Hse & _).
  apply remove_run in HRm; auto. cbv zeta in HRm. rewrite Hg, Hi in HRm. fold g in HRm. fold gp in HRm.
  destruct HRm as (w1' & sol & after & tu & hi & fee' & HF' & Hlp' & J1 & J2 & Hc' & U1' & U2' & Haf' & Htu & _ & Hfee' &
    Hlp0' & Hbps' & Hbe' & Ut' & Us' & Hse' & Hls' & _). unfold U64 in *.
  assert (Elp : rl_lp_token_amount b = lp).
  { rewrite Hlpb. destruct HF as (w2 & R1 & _ & HS' & _ & R2).
    apply revalued_supply in R1 as (S1 & _), R2 as (S2 & _). rewrite S2, HS', S1, on_same. lia. }
  rewrite Elp in *.
  exists w1, w1', sol, after, tr, fee, lp, tu, hi, fee'. csplit; auto; try lia.
  intros HS0 HT0.
  pose proof (add_reserves _ _ _ _ _ _ _ _ _ _ _ _ _ Ha Hn HQ US USo USs (Z.lt_le_incl _ _ Hlp0) HF) as HR.
  assert (Hidx : 0 <= al_lst_index a) by lia.
  destruct (add_gain _ _ _ _ _ _ _ _ _ _ _ _ _ _ _ _ _ _ Hidx HF HR Hrate I1 Hc) as
    (w2' & v & v' & V1 & V2 & E2 & T2 & Hval); try lia. fold g in V1, V2.
  assert (HRe : balance w' (lq_reserves accs) <= balance w (lq_reserves accs) + tr).
  { destruct HF as (w2 & R1 & _ & _ & HB & R2).
    destruct HQ as (_ & _ & (ul & UL & ULm) & (rs & RS & RSm) & (fa & FA & FAm) & D1 & D2).
    destruct (Hu _ UL) as (N3 & N4).
    pose proof (signer_users _ _ _ _ Hn US USo USs _ US) as (N1 & N2).
    pose proof (derived_held _ _ _ _ _ _ _ _ Ha (or_introl eq_refl) D1 RS) as O1.
    pose proof (derived_held _ _ _ _ _ _ _ _ Ha (or_intror eq_refl) D2 FA) as O3.
    pose proof pool_ne_fee as PF.
    apply revalued_supply in R1 as (S1 & B1), R2 as (S2 & B2). rewrite B2, HB, B1.
    rewrite on_same. repeat rewrite on_other by (intros Heq; rewrite Heq in *; congruence). lia. }
  destruct Hrate as (Hn0 & Hd0 & _ & Hrate).
  destruct HF' as (w2 & R1' & _ & _ & _ & R2'). fold g in R1'.
  apply revalued_figures in R1' as (v'' & V3 & E3 & T3 & _ & _); [|lia].
  pose proof (Hrate _ _ _ V1) as Q1. pose proof (Hrate _ _ _ V2) as Q2. pose proof (Hrate _ _ _ V3) as Q3.
  assert (v'' = v') by nia. subst v''. rewrite E2 in T3.
  rewrite Hse in Hlp, Us. rewrite Hse' in Hlp'.
  assert (Hsol : sol <= total w' - total w1).
  { apply (mint_then_redeem (supply w (lq_lp_mint accs)) (total w1) after0 lp _ sol); auto; try lia.
    replace (supply w (lq_lp_mint accs) + lp) with (supply w' (lq_lp_mint accs)) by lia.
    replace (total w1 + (total w' - total w1)) with (total w1') by lia. exact Hlp'. }
  assert (Hvt : (v' - v) * d < tr * n + d) by nia.
  csplit; auto; intros Hdn Hro; nia.
Qed.
Example C26_case :
  reachable D0 W4 /\ R5 = Ok W5 /\ users_account W4 UL /\
  exists w'', process D0 E0 C0 W5 (liq_accs MB UB FB SPL_TOKEN_2022_ID RB CB)
    (RemoveLiquidity (mkRemLiq 1 1 (supply W5 LP - supply W4 LP) 1)) = Ok w'' /\
    balance w'' UB < balance W4 UB /\ 0 < supply W4 LP /\ 0 < total W4.
Proof.
  split; [exact W4_reach|]. split; [apply okb_get; vm_compute; reflexivity|].
  split; [intros t Ht; vm_compute in Ht; injection Ht as <-; split; vm_compute; congruence|].
  exists (get (process D0 E0 C0 W5 (liq_accs MB UB FB SPL_TOKEN_2022_ID RB CB)
    (RemoveLiquidity (mkRemLiq 1 1 (supply W5 LP - supply W4 LP) 1)))).
  split; [apply okb_get; vm_compute; reflexivity|]. split; [vm_compute; reflexivity|]. split; vm_compute; reflexivity.
Qed.
