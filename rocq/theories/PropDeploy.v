(** LP token value when the pool's calculators and pricing program are the shipped ones: C06, C07, C26. *)
From Coq Require Import ZArith List Bool Lia.
From Verif Require Import Base Ratio Calc State Controller Inversion ProcInv Spec CalcProofs InvProofs
  TokProofs AccessProofs ShapeProofs MoneyProofs PropTok PropMoney PropLp Periph PeriphSpec PeriphProofs
  PropCalc PropFlat Deploy DeploySpec DeployProofs Concrete ConcreteReach ClientSpec Jup JupSpec PropJup.
Import ListNotations.
Open Scope Z_scope.

Lemma balance_u64 w k : base_inv w -> U64 (balance w k).
Proof.
  intros Hb. unfold balance. destruct (w_tok w k) as [t|] eqn:H.
  - exact (proj1 (base_u64 _ Hb) _ _ H).
  - unfold U64, U64_MAX. lia.
Qed.

(** A shipped calculator of wSOL, of Lido, or of an SPL pool without withdrawal fee rounds x*n/d down. *)
Definition floor_rate (c : PoolCalc) : option (Z * Z) :=
  match c with
  | CWsol => Some (1, 1)
  | CLido p => Some (li_sol_balance p, li_st_sol_supply p)
  | CSpl p => if sp_fee_num p =? 0 then Some (sp_total_lamports p, sp_pool_token_supply p) else None
  | CMarinade _ => None
  end.
Lemma floor_worth c n d x : floor_rate c = Some (n, d) -> 0 < n -> 0 < d -> worth c x = x * n / d.
Proof.
  assert (Hsh : forall x n d, 0 < n -> 0 < d -> share x n d = x * n / d).
  { intros y n' d' Hn Hd. unfold share, down. destruct (Z.eqb_spec n' 0), (Z.eqb_spec d' 0); try lia. reflexivity. }
  destruct c as [|p|p|p]; cbn [floor_rate worth]; intros H Hn Hd; try discriminate.
  - injection H as <- <-. now rewrite Z.mul_1_r, Z.div_1_r.
  - destruct (Z.eqb_spec (sp_fee_num p) 0) as [E|]; [|discriminate]. injection H as <- <-.
    assert (spl_fee p x = 0) as ->.
    { unfold spl_fee. destruct (sp_fee_denom p =? 0); auto. rewrite E, Z.mul_0_r. unfold up. cbn. reflexivity. }
    rewrite Z.sub_0_r. apply Hsh; auto.
  - injection H as <- <-. apply Hsh; auto.
Qed.
Lemma floor_worth_bounds c n d x : floor_rate c = Some (n, d) -> 0 < n -> 0 < d ->
  worth c x * d <= x * n < (worth c x + 1) * d.
Proof.
  intros Hf Hn Hd. rewrite (floor_worth _ _ _ _ Hf Hn Hd).
  pose proof (Z.mul_div_le (x * n) d Hd). pose proof (Z.mul_succ_div_gt (x * n) d Hd). unfold Z.succ in *. lia.
Qed.

Lemma floor_live c n d : floor_rate c = Some (n, d) -> 0 < n -> 0 < d -> calc_live c.
Proof.
  destruct c as [|p|p|p]; cbn [floor_rate calc_live]; auto; try discriminate.
  - destruct (Z.eqb_spec (sp_fee_num p) 0); [|discriminate]. intros H; injection H as <- <-. auto.
  - intros H; injection H as <- <-. auto.
Qed.

(** The shipped calculators that charge nothing are of the form C06, C07 and C26 ask for. *)
Theorem C06_shipped_rate R dp pw other prog mint accs c n d :
  pools_typed pw -> shipped_calc dp prog -> shipped_pool dp pw prog mint accs = Some c ->
  floor_rate c = Some (n, d) -> 0 < n -> 0 < d ->
  at_rate (deployed_env R dp pw other) prog mint accs n d 1.
Proof.
  intros Ht Hs Hp Hf Hn Hd. unfold at_rate. csplit; auto; try lia.
  intros w x v (hi & H). apply deployed_value in H as (c' & Hp' & _ & _ & -> & _); auto.
  assert (c' = c) as -> by congruence. apply (floor_worth_bounds c n d); auto.
Qed.

(** C06 with the shipped programs, whatever the stake pool behind the LST (fees included). The whole
    deposit goes to the reserves; the depositor is credited its worth and minted
    floor(worth * supply / total); the pool's total rises by at least that worth, less one lamport of
    rounding if the LST is Marinade's; so value per LP token does not fall (but for that lamport). *)
Theorem C06_shipped D (HD : derive_ok D) R dp pw other C w accs a w' :
  reachable D w -> pdas_do_not_sign accs -> pools_typed pw ->
  let E := deployed_env R dp pw other in
  let g := group accs 11 (al_lst_value_calc_accs a) in
  let gp := skipn (11 + Z.to_nat (al_lst_value_calc_accs a)) accs in
  shipped_calc dp (group_prog g) -> shipped_pricing dp (group_prog gp) ->
  process D E C w accs (AddLiquidity a) = Ok w' ->
  exists w1 c,
    revalued E w (al_lst_index a) (lq_reserves accs) (group_prog g) (lq_mint accs) (group_accs g) w1 /\
    shipped_pool dp pw (group_prog g) (lq_mint accs) (group_accs g) = Some c /\
    let sol := worth c (al_lst_amount a) in
    let S := supply w (lq_lp_mint accs) in let S' := supply w' (lq_lp_mint accs) in
    0 <= sol /\
    balance w' (lq_reserves accs) >= balance w (lq_reserves accs) + al_lst_amount a /\
    total w' >= total w1 + sol - merge_loss c /\
    (0 < S -> 0 < total w1 -> S' - S = sol * S / total w1) /\
    (S = 0 -> S' = total w1 + sol) /\
    (0 < S -> total w1 = 0 -> S' - S = sol) /\
    (0 < S -> total w' * S >= total w1 * S' - merge_loss c * S).
Proof.
  intros Hr Hn Ht E g gp Hsc Hsp H. pose proof (proj1 (reachable_inv D HD _ Hr)) as Hb.
  pose proof (proj1 (reachable_ata D HD _ Hr)) as Ha.
  pose proof (process_base _ HD _ _ _ _ _ _ H Hb) as Hb'.
  destruct (add_parties _ _ _ _ _ _ _ H) as (l & ls & us & _ & _ & _ & HQ & US & USo & USs).
  pose proof (process_wf _ _ _ _ _ _ _ H) as Hwf. wf Hwf.
  apply add_run in H; auto. cbv zeta in H. fold g in H. fold gp in H.
  destruct H as (w1 & sol & hi & after & tr & fee & lp & HF & I1 & I2 & Hc & Hlp & U1 & U2 & Haf & Hsum & Htr & Hfee &
    Hlp0 & _ & Ha0 & Hbps & Hbe & _ & Ut & Us & Hse & _).
  pose proof (add_reserves _ _ _ _ _ _ _ _ _ _ _ _ _ Ha Hn HQ US USo USs (Z.lt_le_incl _ _ Hlp0) HF) as HR.
  unfold U64 in *.
  assert (Hidx : 0 <= al_lst_index a) by lia.
  apply deployed_mint_price in I2; [|exact Hsp]. subst after.
  apply deployed_value in I1 as (c & Hp & Hct & Hans & -> & _); auto.
  apply add_fee_eq in Hc as (_ & Hfe & _); [|lia].
  rewrite Z.sub_diag, bps_share_zero, Z.mul_0_l, Zdiv_0_l in Hfe by auto. subst fee.
  assert (tr = al_lst_amount a) as -> by lia.
  destruct HF as (w2 & R1 & Hctl & HS' & HB & R2). fold g in R1, R2.
  exists w1, c. split; [exact R1|]. split; [exact Hp|]. cbv zeta.
  pose proof (revalued_supply _ _ _ _ _ _ _ _ R1) as (S1 & B1). pose proof (revalued_supply _ _ _ _ _ _ _ _ R2) as (S2 & B2).
  apply same_ctl_figures in Hctl as (Hct' & Hcr).
  apply revalued_figures in R1 as (v & V1 & E1 & T1 & O1 & _), R2 as (v' & V2 & E2 & T2 & O2 & _); try lia.
  rewrite <- B2 in V2. rewrite Hct', Hcr, E1 in T2.
  destruct V1 as (h1 & V1). apply deployed_value in V1 as (c1 & Hp1 & _ & _ & -> & _); auto.
  destruct V2 as (h2 & V2). apply deployed_value in V2 as (c2 & Hp2 & _ & _ & -> & _); auto.
  assert (c1 = c) as -> by congruence. assert (c2 = c) as -> by congruence.
  pose proof (answers_fee _ _ Hans) as Hfo.
  pose proof (worth_super c (balance w (lq_reserves accs)) (al_lst_amount a) Hct Hfo) as Hsup.
  change (match c with CMarinade _ => 1 | _ => 0 end) with (merge_loss c) in Hsup.
  pose proof (worth_mono c _ _ Hct Hfo HR) as Hmono.
  assert (HSs : supply w' (lq_lp_mint accs) = supply w (lq_lp_mint accs) + lp) by (rewrite S2, HS', S1, on_same; reflexivity).
  rewrite Hse in Hlp, Us. set (S := supply w (lq_lp_mint accs)) in *.
  set (sol := worth c (al_lst_amount a)) in *.
  assert (Hto : total w' >= total w1 + sol - merge_loss c) by lia.
  csplit; auto; try lia.
  - intros HS0 HT0. rewrite HSs. revert Hlp. unfold calc_lp_tokens_to_mint.
    destruct (Z.eqb_spec S 0); [lia|]. destruct (Z.eqb_spec (total w1) 0); [lia|].
    intros Hq. apply floor_apply_eq in Hq. lia.
  - intros HS0. rewrite HSs. revert Hlp. unfold calc_lp_tokens_to_mint. rewrite HS0. cbn [Z.eqb].
    intros Hq. apply checked_add_ok in Hq as (Hq & _). lia.
  - intros HS0 HT0. rewrite HSs. revert Hlp. unfold calc_lp_tokens_to_mint. rewrite HT0.
    destruct (Z.eqb_spec S 0); [lia|]. cbn [Z.eqb]. intros Hq. injection Hq as Hq. lia.
  - intros HS0. rewrite HSs.
    destruct (Z.eq_dec (total w1) 0) as [Hz|Hz].
    + rewrite Hz in *. nia.
    + apply lp_to_mint_le in Hlp; [|lia..]. nia.
Qed.

(* ------------------------------------------------------------------ *)
(** C07 with the shipped programs. The redeemed LP tokens are credited [sol], their share of the total
    rounded down; [after] is left of it once the pricing program's withdrawal fee is charged. The user is
    paid no more tokens than needed: one fewer would be worth less than [after]; the protocol takes at
    most its percentage of the fee, in tokens; and the pool gives up no more than the worth of what
    left the reserves, plus [split_loss] lamports of rounding. *)
Theorem C07_shipped D (HD : derive_ok D) R dp pw other C w accs a w' :
  ratio_lib_ok R -> reachable D w -> pdas_do_not_sign accs -> pools_typed pw ->
  flat_derive_ok (dp_flat dp) -> flat_reachable R (dp_flat dp) pw ->
  let E := deployed_env R dp pw other in
  let g := group accs 11 (rl_lst_value_calc_accs a) in
  let gp := skipn (11 + Z.to_nat (rl_lst_value_calc_accs a)) accs in
  shipped_calc dp (group_prog g) -> shipped_pricing dp (group_prog gp) ->
  process D E C w accs (RemoveLiquidity a) = Ok w' ->
  exists w1 c sol after to_user fee,
    remove_flow E w accs (rl_lst_value_calc_accs a) (rl_lst_index a) w1 (rl_lp_token_amount a) to_user fee w' /\
    shipped_pool dp pw (group_prog g) (lq_mint accs) (group_accs g) = Some c /\
    sol = rl_lp_token_amount a * total w1 / supply w (lq_lp_mint accs) /\
    after = sol - redeem_fee dp pw (group_prog gp) sol /\ 0 <= after <= sol /\
    fee = bps_share (lp_fee_bps w) (sol - after) * to_user / after /\
    (0 < after -> worth c (to_user - 1) < after) /\
    total w' >= total w1 - worth c (to_user + fee) - split_loss c.
Proof.
  intros HR Hr Hn Ht HFd HFr E g gp Hsc Hsp H. pose proof (proj1 (reachable_inv D HD _ Hr)) as Hb.
  pose proof (proj1 (reachable_ata D HD _ Hr)) as Ha.
  pose proof (process_base _ HD _ _ _ _ _ _ H Hb) as Hb'.
  destruct (remove_parties _ _ _ _ _ _ _ H) as (l & ls & us & _ & _ & HQ & US & USo & USs).
  pose proof (process_wf _ _ _ _ _ _ _ H) as Hwf. wf Hwf.
  apply remove_run in H; auto. cbv zeta in H. fold g in H. fold gp in H.
  destruct H as (w1 & sol & after & tu & hi & fee & HF & Hlp & I1 & I2 & Hc & U1 & U2 & Haf & Htu & _ & Hfee &
    Hlp0 & Hbps & Hbe & Ut & Us & Hse & Hls & _).
  assert (Htu0 : 0 <= tu) by lia.
  pose proof (remove_reserves _ _ _ _ _ _ _ _ _ _ _ _ _ Ha Hn HQ US USo USs Htu0 HF) as HRs.
  apply deployed_redeem_price in I1; auto.
  apply remove_fee_eq in Hc as (_ & Hfe); [|unfold U64 in *; lia]. rewrite Hbe in Hfe.
  pose proof HF as (w2 & R1 & Hctl & HS' & _ & R2). fold g in R1, R2.
  pose proof (revalued_supply _ _ _ _ _ _ _ _ R1) as (S1 & B1). pose proof (revalued_supply _ _ _ _ _ _ _ _ R2) as (S2 & B2).
  apply same_ctl_figures in Hctl as (Hct' & Hcr).
  unfold U64 in Ut, Us.
  apply revalued_figures in R1 as (v & V1 & E1 & T1 & O1 & _), R2 as (v' & V2 & E2 & T2 & O2 & _); try lia.
  rewrite <- B2 in V2. rewrite Hct', Hcr, E1 in T2.
  destruct V1 as (h1 & V1). apply deployed_value in V1 as (c & Hp & Hct & Hans & -> & _); auto.
  destruct V2 as (h2 & V2). apply deployed_value in V2 as (c2 & Hp2 & _ & _ & -> & _); auto.
  assert (c2 = c) as -> by congruence.
  pose proof (answers_fee _ _ Hans) as Hfo.
  exists w1, c, sol, after, tu, fee. csplit; auto; try (unfold U64 in *; lia).
  - rewrite Hse in Hlp, Us. revert Hlp. unfold calc_lp_tokens_sol_value.
    destruct (Z.eqb_spec (total w1) 0) as [->|]; cbn [orb].
    + intros [= <-]. rewrite Z.mul_0_r, Zdiv_0_l. reflexivity.
    + destruct (Z.eqb_spec (supply w (lq_lp_mint accs)) 0); [lia|]. apply floor_apply_eq.
  - intros Haf0. destruct (Z.lt_ge_cases 0 (worth c (tu - 1))) as [Hw|Hw]; [|lia].
    pose proof (worth_pos_live c _ Hct Hfo Hw) as Hl.
    destruct (deployed_reverse R dp pw other Ht _ _ _ _ _ _ _ _ HR Hsc U2 Hp Hl I2) as (_ & Hlo).
    destruct (Z.lt_ge_cases (worth c (tu - 1)) after) as [?|Hge]; auto.
    specialize (Hlo (tu - 1) ltac:(lia) Hge). lia.
  - pose proof (worth_mono c _ _ Hct Hfo HRs) as Hm.
    pose proof (worth_sub c (balance w (lq_reserves accs) - tu - fee) (tu + fee) Hct Hfo) as Hsub.
    replace (balance w (lq_reserves accs) - tu - fee + (tu + fee)) with (balance w (lq_reserves accs)) in Hsub by ring.
    lia.
Qed.

Lemma payout_cost n d R0 R' v v' tu fee P after :
  0 < n -> 0 < d -> 0 < after -> 0 <= P -> 0 < tu ->
  v * d <= R0 * n -> R' * n < (v' + 1) * d -> R0 - tu - fee <= R' ->
  fee * after <= P * tu -> (tu - 1) * n < after * d ->
  (v - v' - (after + P) - 1) * (after * d) < (after + P) * n.
Proof.
  intros Hn Hd Ha HP Htu Hv Hv' HR Hf Hro.
  assert (Hf2 : (tu + fee) * after <= tu * (after + P)) by lia.
  assert (Hr : (R0 - tu - fee) * n <= R' * n) by (apply Z.mul_le_mono_nonneg_r; lia).
  assert (Hv1 : (v - v' - 1) * d < (tu + fee) * n) by lia.
  assert (H1 : (v - v' - 1) * d * after < (tu + fee) * n * after) by (apply Z.mul_lt_mono_pos_r; lia).
  assert (H2 : (tu + fee) * after * n <= tu * (after + P) * n) by (apply Z.mul_le_mono_nonneg_r; lia).
  assert (H3 : (tu - 1) * n * (after + P) <= after * d * (after + P)) by (apply Z.mul_le_mono_nonneg_r; lia).
  clear Hv Hv' HR Hf Hro Hf2 Hr Hv1. lia.
Qed.

(** How much the payout can cost the pool, at a calculator that rounds x*n/d down and pays out at most
    one token more than [after] buys: counting the part of the withdrawal fee the protocol takes, the pool
    gives up less than [taken] + 1 + taken*n/(after*d). When the rest of the fee, which stays in the pool,
    covers this, value per LP token does not fall. *)
Theorem C07_fee_covers D (HD : derive_ok D) E C w accs a w' n d :
  reachable D w -> pdas_do_not_sign accs -> process D E C w accs (RemoveLiquidity a) = Ok w' ->
  let g := group accs 11 (rl_lst_value_calc_accs a) in
  let gp := skipn (11 + Z.to_nat (rl_lst_value_calc_accs a)) accs in
  at_rate E (group_prog g) (lq_mint accs) (group_accs g) n d 1 ->
  exists w1 sol after to_user hi,
    revalued E w (rl_lst_index a) (lq_reserves accs) (group_prog g) (lq_mint accs) (group_accs g) w1 /\
    sol = rl_lp_token_amount a * total w1 / supply w (lq_lp_mint accs) /\
    e_price_lp_to_redeem E w1 (group_prog gp) (lq_mint accs) (group_accs gp) (rl_lp_token_amount a) sol = Ok after /\
    e_sol_to_lst E w1 (group_prog g) (lq_mint accs) (group_accs g) after = Ok (to_user, hi) /\
    0 <= after <= sol /\ sol <= U64_MAX /\ 0 < to_user /\
    let taken := after + bps_share (lp_fee_bps w) (sol - after) in
    let S := supply w (lq_lp_mint accs) in let S' := supply w' (lq_lp_mint accs) in
    taken <= sol /\
    (0 < after -> (to_user - 1) * n < after * d ->
       (total w1 - total w' - taken - 1) * (after * d) < taken * n /\
       (taken * n <= (sol - taken) * (after * d) ->
          total w' >= total w1 - sol /\ total w' * S >= total w1 * S')).
Proof.
  intros Hr Hn H g gp Hrate. pose proof (proj1 (reachable_inv D HD _ Hr)) as Hb.
  pose proof (proj1 (reachable_ata D HD _ Hr)) as Ha.
  destruct (remove_parties _ _ _ _ _ _ _ H) as (l & ls & us & _ & _ & HQ & US & USo & USs).
  pose proof (process_wf _ _ _ _ _ _ _ H) as Hwf. wf Hwf.
  apply remove_run in H; auto. cbv zeta in H. fold g in H. fold gp in H.
  destruct H as (w1 & sol & after & tu & hi & fee & HF & Hlp & I1 & I2 & Hc & U1 & U2 & Haf & Htu & _ & Hfee &
    Hlp0 & Hbps & Hbe & Ut & Us & Hse & Hls & _). unfold U64 in *.
  assert (Htu0 : 0 <= tu) by lia.
  pose proof (remove_reserves _ _ _ _ _ _ _ _ _ _ _ _ _ Ha Hn HQ US USo USs Htu0 HF) as HR.
  destruct HF as (w2 & R1 & Hctl & HS' & _ & R2). fold g in R1, R2.
  apply remove_fee_eq in Hc as (_ & Hfe); [|lia]. rewrite Hbe in *.
  destruct Hrate as (Hn0 & Hd0 & _ & Hrate).
  exists w1, sol, after, tu, hi. split; [exact R1|].
  pose proof (revalued_supply _ _ _ _ _ _ _ _ R1) as (S1 & B1). pose proof (revalued_supply _ _ _ _ _ _ _ _ R2) as (S2 & B2).
  apply same_ctl_figures in Hctl as (Hct & Hcr).
  apply revalued_figures in R1 as (v & V1 & E1 & T1 & O1 & _), R2 as (v' & V2 & E2 & T2 & O2 & _); try lia.
  rewrite <- B2 in V2. rewrite Hct, Hcr, E1 in T2.
  assert (HSs : supply w' (lq_lp_mint accs) = supply w (lq_lp_mint accs) - rl_lp_token_amount a)
    by (rewrite S2, HS', S1, on_same; reflexivity).
  pose proof (Hrate _ _ _ V1) as Q1. pose proof (Hrate _ _ _ V2) as Q2.
  pose proof (bps_share_bounds (lp_fee_bps w) (sol - after) ltac:(lia) ltac:(lia)) as QP.
  rewrite Hse in Hlp, Us. rewrite HSs. set (S := supply w (lq_lp_mint accs)) in *.
  assert (Hsol : sol = rl_lp_token_amount a * total w1 / S).
  { revert Hlp. unfold calc_lp_tokens_sol_value. destruct (Z.eqb_spec (total w1) 0) as [->|]; cbn [orb].
    - intros [= <-]. rewrite Z.mul_0_r, Zdiv_0_l. reflexivity.
    - destruct (Z.eqb_spec S 0); [lia|]. apply floor_apply_eq. }
  apply lp_sol_value_le in Hlp as (_ & _ & Hlp); try lia.
  cbv zeta. set (P := bps_share (lp_fee_bps w) (sol - after)) in *. set (taken := after + P).
  csplit; auto; try (unfold taken; lia). intros Haf0 Hro.
  assert (Hf1 : fee * after <= P * tu) by (rewrite Hfe, Z.mul_comm; apply Z.mul_div_le; lia).
  assert (Hd1 : total w1 - total w' = v - v') by (clear -T2; lia).
  set (R0 := balance w (lq_reserves accs)) in *. set (R' := balance w' (lq_reserves accs)) in *.
  clear -Hf1 Hd1 Q1 Q2 HR Hro Haf0 Hn0 Hd0 Htu QP Haf Hlp Us Hls Hlp0.
  assert (Hle : (total w1 - total w' - taken - 1) * (after * d) < taken * n)
    by (rewrite Hd1; apply (payout_cost n d R0 R' v v' tu fee P after); auto; lia).
  split; [exact Hle|]. intros Hk.
  assert (Hpd : 0 < after * d) by (apply Z.mul_pos_pos; auto).
  assert (Hk2 : (after * d) * (total w1 - total w' - taken - 1) < (after * d) * (sol - taken)).
  { clear -Hle Hk. rewrite (Z.mul_comm (after * d)), (Z.mul_comm (after * d)). eapply Z.lt_le_trans; eauto. }
  apply Z.mul_lt_mono_pos_l in Hk2; [|exact Hpd].
  assert (Hd2 : total w' >= total w1 - sol) by (clear -Hk2; lia). split; [exact Hd2|].
  assert (Hm : (total w1 - sol) * S <= total w' * S) by (apply Z.mul_le_mono_nonneg_r; clear -Us Hd2; lia).
  clear -Hm Hlp. lia.
Qed.

(** C07 with the shipped calculators that charge nothing (wSOL, Lido, SPL without withdrawal fee, at n/d
    lamports per token): a withdrawal whose fee leaves enough in the pool costs the other LP holders
    nothing; and with no withdrawal fee the pool gives up at most the credited share, one lamport and
    the worth of one token. *)
Theorem C07_shipped_price D (HD : derive_ok D) R dp pw other C w accs a w' c n d :
  ratio_lib_ok R -> reachable D w -> pdas_do_not_sign accs -> pools_typed pw ->
  flat_derive_ok (dp_flat dp) -> flat_reachable R (dp_flat dp) pw ->
  let E := deployed_env R dp pw other in
  let g := group accs 11 (rl_lst_value_calc_accs a) in
  let gp := skipn (11 + Z.to_nat (rl_lst_value_calc_accs a)) accs in
  shipped_calc dp (group_prog g) -> shipped_pricing dp (group_prog gp) ->
  shipped_pool dp pw (group_prog g) (lq_mint accs) (group_accs g) = Some c ->
  floor_rate c = Some (n, d) -> 0 < n -> 0 < d ->
  process D E C w accs (RemoveLiquidity a) = Ok w' ->
  exists w1,
    revalued E w (rl_lst_index a) (lq_reserves accs) (group_prog g) (lq_mint accs) (group_accs g) w1 /\
    let S := supply w (lq_lp_mint accs) in let S' := supply w' (lq_lp_mint accs) in
    let sol := rl_lp_token_amount a * total w1 / S in
    let after := sol - redeem_fee dp pw (group_prog gp) sol in
    let taken := after + bps_share (lp_fee_bps w) (sol - after) in
    (0 < after -> taken * n <= (sol - taken) * (after * d) -> total w' * S >= total w1 * S') /\
    (0 < after -> after = sol -> (total w1 - total w' - sol - 1) * d < n).
Proof.
  intros HR Hr Hn Ht HFd HFr E g gp Hsc Hsp Hp Hfl Hn0 Hd0 H.
  pose proof (C06_shipped_rate R dp pw other _ _ _ _ _ _ Ht Hsc Hp Hfl Hn0 Hd0) as Hrate. fold E in Hrate.
  destruct (C07_fee_covers D HD E C w accs a w' n d Hr Hn H Hrate) as
    (w1 & sol & after & tu & hi & R1 & Hsol & I1 & I2 & Haf & Hsm & Htu0 & Htk & Hcov). fold g in R1, I2. fold gp in I1.
  exists w1. split; [exact R1|]. cbv zeta. rewrite <- Hsol.
  apply deployed_redeem_price in I1; auto; [|unfold U64; lia]. rewrite <- I1.
  assert (Hro : (tu - 1) * n < after * d).
  { pose proof (floor_live c n d Hfl Hn0 Hd0) as Hl.
    assert (Ua : U64 after) by (unfold U64; lia).
    destruct (deployed_reverse R dp pw other Ht _ _ _ _ _ _ _ _ HR Hsc Ua Hp Hl I2) as (_ & Hlo).
    destruct (Z.lt_ge_cases (worth c (tu - 1)) after) as [Hlt|Hge]; [|specialize (Hlo (tu - 1) ltac:(lia) Hge); lia].
    pose proof (floor_worth_bounds c n d (tu - 1) Hfl Hn0 Hd0). nia. }
  split; intros Haf0.
  - intros Hk. now apply (proj2 (Hcov Haf0 Hro)).
  - intros Heq. destruct (Hcov Haf0 Hro) as (Hb & _). rewrite <- Heq in *.
    rewrite Z.sub_diag, bps_share_zero, Z.add_0_r in Hb by auto.
    assert (Hk2 : after * ((total w1 - total w' - after - 1) * d) < after * n) by lia.
    apply Z.mul_lt_mono_pos_l in Hk2; lia.
Qed.

(* ------------------------------------------------------------------ *)
(** C26 with the shipped programs: deposit, then redeem all the LP tokens received, in a pool that already
    has LP holders and value. What the redeemed tokens are credited exceeds the worth of the deposit by at
    most [split_loss] lamports of rounding; as soon as the withdrawal fee covers that (one lamport, for
    all but SPL pools with a fee of their own), the user gets back no more tokens than were deposited,
    and the user's LST account holds no more than before. *)
Theorem C26_shipped D (HD : derive_ok D) R dp pw other C C' w accs a w' b w'' :
  ratio_lib_ok R -> reachable D w -> pdas_do_not_sign accs -> users_account w (lq_user_lp accs) ->
  lq_user_lst accs <> lq_user_lp accs -> pools_typed pw ->
  flat_derive_ok (dp_flat dp) -> flat_reachable R (dp_flat dp) pw ->
  let E := deployed_env R dp pw other in
  let g := group accs 11 (al_lst_value_calc_accs a) in
  let gp := skipn (11 + Z.to_nat (al_lst_value_calc_accs a)) accs in
  shipped_calc dp (group_prog g) -> shipped_pricing dp (group_prog gp) ->
  process D E C w accs (AddLiquidity a) = Ok w' ->
  process D E C' w' accs (RemoveLiquidity b) = Ok w'' ->
  rl_lst_index b = al_lst_index a -> rl_lst_value_calc_accs b = al_lst_value_calc_accs a ->
  rl_lp_token_amount b = supply w' (lq_lp_mint accs) - supply w (lq_lp_mint accs) ->
  exists w1 c to_user credited,
    revalued E w (al_lst_index a) (lq_reserves accs) (group_prog g) (lq_mint accs) (group_accs g) w1 /\
    shipped_pool dp pw (group_prog g) (lq_mint accs) (group_accs g) = Some c /\
    credited = rl_lp_token_amount b * total w' / supply w' (lq_lp_mint accs) /\
    balance w'' (lq_user_lst accs) = balance w (lq_user_lst accs) - al_lst_amount a + to_user /\
    (0 < supply w (lq_lp_mint accs) -> 0 < total w1 ->
       0 < credited <= worth c (al_lst_amount a) + split_loss c /\
       (split_loss c <= redeem_fee dp pw (group_prog gp) credited ->
          to_user <= al_lst_amount a /\
          balance w'' (lq_user_lst accs) <= balance w (lq_user_lst accs))).
Proof.
  intros HRL Hr Hn Hu Hne Ht HFd HFr E g gp Hsc Hsp HA HRm Hi Hg Hlpb.
  pose proof (proj1 (reachable_inv D HD _ Hr)) as Hb. pose proof (process_base _ HD _ _ _ _ _ _ HA Hb) as Hb'.
  pose proof (proj1 (reachable_ata D HD _ Hr)) as Ha.
  destruct (add_parties _ _ _ _ _ _ _ HA) as (l & ls & us & _ & _ & _ & HQ & US & USo & USs).
  pose proof (process_wf _ _ _ _ _ _ _ HA) as Hwf. wf Hwf.
  apply add_run in HA; auto. cbv zeta in HA. fold g in HA. fold gp in HA.
  destruct HA as (w1 & sol0 & hi0 & after0 & tr & fee & lp & HF & I1 & I2 & Hc & Hlp & U1 & U2 & Haf & Hsum & Htr & Hfee &
    Hlp0 & _ & Ha0 & Hbps & Hbe & _ & Ut & Us & Hse & _).
  apply remove_run in HRm; auto. cbv zeta in HRm. rewrite Hg, Hi in HRm. fold g in HRm. fold gp in HRm.
  destruct HRm as (w1' & sol & after & tu & hi & fee' & HF' & Hlp' & J1 & J2 & Hc' & U1' & U2' & Haf' & Htu & _ & Hfee' &
    Hlp0' & Hbps' & Hbe' & Ut' & Us' & Hse' & Hls' & _).
  assert (Elp : rl_lp_token_amount b = lp).
  { rewrite Hlpb. destruct HF as (w2 & R1 & _ & HS' & _ & R2).
    apply revalued_supply in R1 as (S1 & _), R2 as (S2 & _). rewrite S2, HS', S1, on_same. lia. }
  rewrite Elp in *.
  apply deployed_mint_price in I2; [|exact Hsp]. subst after0.
  apply deployed_redeem_price in J1; auto.
  apply deployed_value in I1 as (c & Hp & Hct & Hans & -> & _); auto.
  pose proof (answers_fee _ _ Hans) as Hfo.
  unfold U64 in U1. apply add_fee_eq in Hc as (_ & Hfe & _); [|lia].
  rewrite Z.sub_diag, bps_share_zero, Z.mul_0_l, Zdiv_0_l in Hfe by auto. subst fee.
  assert (tr = al_lst_amount a) as -> by lia.
  (* where the tokens went *)
  assert (Hkeys : lq_user_lst accs <> lq_reserves accs /\ lq_user_lst accs <> lq_fee_acc accs /\
                  lq_reserves accs <> lq_fee_acc accs /\ lq_reserves accs <> lq_user_lp accs).
  { destruct HQ as (_ & _ & (ul & UL & ULm) & (rs & RS & RSm) & (fa & FA & FAm) & D1 & D2).
    destruct (Hu _ UL) as (N3 & N4).
    pose proof (signer_users _ _ _ _ Hn US USo USs _ US) as (N1 & N2).
    pose proof (derived_held _ _ _ _ _ _ _ _ Ha (or_introl eq_refl) D1 RS) as O1.
    pose proof (derived_held _ _ _ _ _ _ _ _ Ha (or_intror eq_refl) D2 FA) as O3.
    pose proof pool_ne_fee as PF. csplit; intros Heq; rewrite Heq in *; congruence. }
  destruct Hkeys as (K1 & K2 & K3 & K4).
  pose proof HF as (w2 & R1 & Hctl & HS' & HB & R2). fold g in R1, R2.
  pose proof HF' as (w2' & R1' & Hctl' & HSr & HBr & R2'). fold g in R1', R2'.
  pose proof (revalued_supply _ _ _ _ _ _ _ _ R1) as (S1 & B1). pose proof (revalued_supply _ _ _ _ _ _ _ _ R2) as (S2 & B2).
  pose proof (revalued_supply _ _ _ _ _ _ _ _ R1') as (S1' & B1').
  pose proof (revalued_supply _ _ _ _ _ _ _ _ R2') as (S2' & B2').
  assert (HRe : balance w' (lq_reserves accs) = balance w (lq_reserves accs) + al_lst_amount a).
  { rewrite B2, HB, B1, on_same. repeat rewrite on_other by congruence. lia. }
  assert (HUs : balance w'' (lq_user_lst accs) = balance w (lq_user_lst accs) - al_lst_amount a + tu).
  { rewrite B2', HBr, B1', B2, HB, B1, !on_same. repeat rewrite on_other by congruence. lia. }
  apply same_ctl_figures in Hctl as (Hct1 & Hcr).
  assert (Hidx : 0 <= al_lst_index a) by lia.
  pose proof R1 as Rw1.
  apply revalued_figures in R1 as (v & V1 & E1 & T1 & O1 & _), R2 as (v' & V2 & E2 & T2 & O2 & _); try lia.
  rewrite <- B2 in V2. rewrite Hct1, Hcr, E1 in T2.
  destruct V1 as (h1 & V1). apply deployed_value in V1 as (c1 & Hp1 & _ & _ & -> & _); auto.
  destruct V2 as (h2 & V2). apply deployed_value in V2 as (c2 & Hp2 & _ & _ & -> & _); auto.
  apply revalued_figures in R1' as (v'' & V3 & E3 & T3 & _ & _); [|lia].
  destruct V3 as (h3 & V3). apply deployed_value in V3 as (c3 & Hp3 & _ & _ & -> & _); auto.
  assert (c1 = c) as -> by congruence. assert (c2 = c) as -> by congruence. assert (c3 = c) as -> by congruence.
  rewrite E2 in T3. assert (Htot : total w1' = total w') by (clear -T3; lia).
  rewrite Hse in Hlp, Us. rewrite Hse', Htot in Hlp'.
  assert (HSs : supply w' (lq_lp_mint accs) = supply w (lq_lp_mint accs) + lp) by (clear -Hlpb; lia).
  set (amt := al_lst_amount a) in *.
  assert (HUt : U64 (total w')) by (rewrite <- Htot; exact Ut').
  pose proof Us' as Us''. rewrite Hse' in Us''. unfold U64 in Us'', HUt, Ut.
  assert (Hsol : sol = lp * total w' / supply w' (lq_lp_mint accs)).
  { revert Hlp'. unfold calc_lp_tokens_sol_value. destruct (Z.eqb_spec (total w') 0) as [->|]; cbn [orb].
    - intros [= <-]. rewrite Z.mul_0_r, Zdiv_0_l. reflexivity.
    - destruct (Z.eqb_spec (supply w' (lq_lp_mint accs)) 0); [lia|]. apply floor_apply_eq. }
  exists w1, c, tu, sol. split; [exact Rw1|]. split; [exact Hp|]. split; [exact Hsol|]. split; [exact HUs|].
  intros HS0 HT0.
  pose proof (lp_to_mint_le _ _ _ _ HS0 HT0 (proj1 U1) Hlp) as Hmint.
  assert (Hw0 : 0 < worth c amt).
  { clear -Hmint Hlp0 HT0 HS0. destruct (Z.lt_ge_cases 0 (worth c amt)); auto.
    assert (0 < lp * total w1) by (apply Z.mul_pos_pos; auto).
    assert (worth c amt * supply w (lq_lp_mint accs) <= 0) by (apply Z.mul_nonpos_nonneg; lia). lia. }
  pose proof (worth_pos_live _ _ Hct Hfo Hw0) as Hl.
  destruct (deployed_reverse R dp pw other Ht _ _ _ _ _ _ _ _ HRL Hsc U2' Hp Hl J2) as (_ & Hlo).
  unfold U64 in U1', U2'.
  pose proof (worth_sub c (balance w (lq_reserves accs)) amt Hct Hfo) as Hsub. rewrite <- HRe in Hsub.
  pose proof (worth_super c (balance w (lq_reserves accs)) amt Hct Hfo) as Hsup. rewrite <- HRe in Hsup.
  set (gain := worth c (balance w' (lq_reserves accs)) - worth c (balance w (lq_reserves accs))) in *.
  pose proof (split_loss_nonneg c Hct) as Hsl.
  assert (Hpos : 0 < sol).
  { destruct (Z.eq_dec sol 0) as [E0|]; [exfalso|clear -n U1'; lia].
    assert (Hz : after = 0) by (clear -E0 Haf' U2'; lia).
    pose proof (worth_nonneg c 0 Hct Hfo (Z.le_refl 0)) as Hw.
    specialize (Hlo 0 (Z.le_refl 0)). clear -Hlo Hz Hw Htu. lia. }
  assert (Hcr2 : sol <= worth c amt + split_loss c).
  { apply lp_sol_value_le in Hlp' as (_ & _ & Hle); [|clear -Us'' HUt Hlp0; lia..]. rewrite HSs in Hle.
    set (S := supply w (lq_lp_mint accs)) in *. set (T := total w1) in *.
    assert (Htt : total w' = T + gain) by (unfold T, gain; clear -T2; lia).
    set (m := worth c amt + split_loss c) in *. assert (Hgm : gain <= m) by (unfold gain, m; clear -Hsub; lia).
    rewrite Htt in Hle.
    assert (Hwm : worth c amt <= m) by (unfold m; clear -Hsl; lia).
    clear -Hle Hgm Hwm Hmint Hlp0 HS0 HT0.
    assert (H1 : lp * (T + gain) <= lp * (T + m)) by (apply Z.mul_le_mono_nonneg_l; lia).
    assert (H2 : worth c amt * S <= m * S) by (apply Z.mul_le_mono_nonneg_r; lia).
    assert (H3 : sol * (S + lp) <= m * (S + lp)) by lia.
    apply Z.mul_le_mono_pos_r in H3; lia. }
  split; [split; auto|]. intros Hcov.
  assert (Hle : tu <= amt).
  { apply Hlo; [clear -Ha0; lia|]. clear -J1 Hcr2 Hcov. lia. }
  split; [exact Hle|]. rewrite HUs. clear -Hle. lia.
Qed.

(* ------------------------------------------------------------------ *)
(** A concrete round trip (PropJup's chain; the LST's stake pool is 1:1 and free, LP withdrawal fee 5 bps,
    protocol share of it as set in W8): 10007 tokens in, 10000 back; LP value per token rises. *)
Definition accs1 : list Meta :=
  match swap_ix dp1 D0 client2 (params LP MA UL UA 10000 1) ExactIn with Ok t => ti_accs t | Err _ => [] end.
Definition env1 : Env := deployed_env ref_ratio_lib dp1 pw1 E0.
Definition dep1 : AddLiquidityArgs := mkAddLiq 5 0 10007 1.
Definition wd1 : World := get (process D0 env1 C0 W8 accs1 (AddLiquidity dep1)).
Definition red1 : RemoveLiquidityArgs := mkRemLiq 5 0 9866 1.
Definition wr1 : World := get (process D0 env1 C0 wd1 accs1 (RemoveLiquidity red1)).
Example shipped_case :
  reachable D0 W8 /\ pdas_do_not_sign accs1 /\ users_account W8 (lq_user_lp accs1) /\
  lq_user_lst accs1 <> lq_user_lp accs1 /\
  shipped_calc dp1 (group_prog (group accs1 11 5)) /\ shipped_pricing dp1 (group_prog (skipn (11 + Z.to_nat 5) accs1)) /\
  shipped_pool dp1 pw1 (group_prog (group accs1 11 5)) (lq_mint accs1) (group_accs (group accs1 11 5)) = Some (CSpl pool_a) /\
  floor_rate (CSpl pool_a) = Some (1000000, 1000000) /\
  process D0 env1 C0 W8 accs1 (AddLiquidity dep1) = Ok wd1 /\
  process D0 env1 C0 wd1 accs1 (RemoveLiquidity red1) = Ok wr1 /\
  rl_lp_token_amount red1 = supply wd1 (lq_lp_mint accs1) - supply W8 (lq_lp_mint accs1) /\
  0 < supply W8 (lq_lp_mint accs1) /\ 0 < total W8 /\
  split_loss (CSpl pool_a) <= redeem_fee dp1 pw1 (group_prog (skipn (11 + Z.to_nat 5) accs1)) 10006 /\
  balance wr1 (lq_user_lst accs1) = balance W8 (lq_user_lst accs1) - 7.
Proof.
  split; [exact W8_reach|]. split; [apply pdas_do_not_signb_ok; vm_compute; reflexivity|].
  split; [intros t Ht; assert (Ho : option_map ta_owner (w_tok W8 (lq_user_lp accs1)) = Some USER)
            by (vm_compute; reflexivity); rewrite Ht in Ho; cbn in Ho; assert (ta_owner t = USER) as -> by congruence;
          split; vm_compute; congruence|].
  split; [vm_compute; congruence|]. split; [right; vm_compute; congruence|].
  split; [left; vm_compute; reflexivity|]. split; [vm_compute; reflexivity|]. split; [reflexivity|].
  split; [apply okb_get; vm_compute; reflexivity|]. split; [apply okb_get; vm_compute; reflexivity|].
  split; [vm_compute; reflexivity|]. split; [vm_compute; reflexivity|]. split; [vm_compute; reflexivity|].
  split; [vm_compute; congruence|]. vm_compute. reflexivity.
Qed.
(** The theorems apply to it. *)
Example C26_shipped_case : exists c to_user,
  shipped_pool dp1 pw1 (group_prog (group accs1 11 5)) (lq_mint accs1) (group_accs (group accs1 11 5)) = Some c /\
  balance wr1 (lq_user_lst accs1) = balance W8 (lq_user_lst accs1) - 10007 + to_user.
Proof.
  destruct shipped_case as (H1 & H2 & H3 & H4 & H5 & H6 & H7 & H8 & H9 & H10 & H11 & _).
  destruct (C26_shipped D0 D0_ok ref_ratio_lib dp1 pw1 E0 C0 C0 W8 accs1 dep1 wd1 red1 wr1 ref_ratio_lib_ok H1 H2 H3 H4
    pw1_typed flat1_derive pw1_reachable H5 H6 H9 H10 eq_refl eq_refl H11) as (w1 & c & tu & cr & _ & Hp & _ & Hb & _).
  exists c, tu. split; [exact Hp|exact Hb].
Qed.
