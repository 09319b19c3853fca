(** C50: what an LP holder keeps. A deposit is credited with what it pays for, less than one LP token short;
    from then on the holder's claim shrinks only by the roundings counted in C44; and the claim can be redeemed
    while the pool runs. *)
From Coq Require Import ZArith List Bool Lia.
From Verif Require Import Base Ratio Calc State Controller Inversion ProcInv Spec CalcProofs InvProofs
  TokProofs AccessProofs ShapeProofs MoneyProofs Concrete ConcreteReach PropAccess PropTok PropMoney PropLp JupRefresh
  Periph PeriphSpec PeriphProofs Deploy DeploySpec DeployProofs PropCalc PropFlat ClientSpec Jup JupSpec PropJup PropDeploy
  HistSpec HistProofs PropHistory.
Import ListNotations.
Open Scope Z_scope.

(** What [x] LP tokens are a claim to in [w]: their share of the pool's total, in whole lamports. *)
Definition claim (w : World) (x : Z) : Z := x * total w / lp_supply w.

(** LP mint and record around a deposit or a redemption. *)
Lemma liq_frame D (HD : derive_ok D) E C w accs ix w' :
  (exists a, ix = AddLiquidity a) \/ (exists a, ix = RemoveLiquidity a) ->
  reachable D w -> process D E C w accs ix = Ok w' ->
  lp_supply w = supply w (lq_lp_mint accs) /\ lp_supply w' = supply w' (lq_lp_mint accs) /\
  backing w = total w /\ backing w' = total w'.
Proof.
  intros Hix Hre H. pose proof (reachable_inv D HD _ Hre) as Hi.
  assert (Hp : exists ps, the_pool w = Some ps /\ lq_lp_mint accs = lp_token_mint ps).
  { destruct Hix as [(a & ->)|(a & ->)].
    - apply add_run in H; [|exact (proj1 Hi)]. cbv zeta in H. destruct H as (? & ? & ? & ? & ? & ? & ? & H). tauto.
    - apply remove_run in H; [|exact (proj1 Hi)]. cbv zeta in H. destruct H as (? & ? & ? & ? & ? & ? & H). tauto. }
  destruct Hp as (ps & Hp & Hlm).
  destruct (process_pool_effect D _ _ _ _ _ _ _ H Hp) as (ps' & Hp' & Hpe).
  pose proof (pool_effect_lp _ _ _ _ _ Hpe) as Hlpm.
  assert (Hact : active ps).
  { destruct Hix as [(a & ->)|(a & ->)]; inversion Hpe; subst; try contradiction; assumption. }
  pose proof (process_rec_effect D _ _ _ _ _ _ H) as Hrec.
  pose proof (active_no_record _ _ Hi Hp Hact) as Hno.
  assert (Hre' : the_record w' = the_record w) by (destruct Hix as [(a & ->)|(a & ->)]; exact Hrec).
  unfold lp_supply, backing. rewrite Hre', Hno, Hp, Hp', Hlpm, Hlm. auto.
Qed.

(** ** Depositing *)

Lemma shares_worth S T1 S' T' net sh e : 0 < S -> 0 < T1 -> 0 <= net -> 1 <= e ->
  sh = net * S / T1 -> S' = S + sh -> T' * S >= T1 * S' - (e - 1) * S ->
  net * S' < (sh + 1) * (T' + (e - 1)).
Proof.
  intros HS HT Hn He Hsh HS' Hv.
  pose proof (Z.mul_succ_div_gt (net * S) T1 HT) as Q. rewrite <- Hsh in Q.
  assert (Hsh0 : 0 <= sh) by (rewrite Hsh; apply Z.div_pos; [apply Z.mul_nonneg_nonneg; lia|lia]).
  assert (Q1 : (sh + 1) * (T1 * S') <= (sh + 1) * ((T' + (e - 1)) * S)) by (apply Z.mul_le_mono_nonneg_l; lia).
  assert (Q2 : net * S * S' < T1 * Z.succ sh * S') by (apply Z.mul_lt_mono_pos_r; lia).
  assert (Q3 : S * (net * S') < S * ((sh + 1) * (T' + (e - 1)))) by lia.
  apply Z.mul_lt_mono_pos_l in Q3; lia.
Qed.

(** A deposit is credited [net] (the worth of the tokens less the pricing program's fee) and minted
    [shares] LP tokens. With a calculator at a rate n/d, rounding down by less than [e]:
    - one LP token more would have been worth more than [net]: net < (shares + 1) * (T' + e - 1) / S', where T', S'
      are the pool's total and LP supply afterwards. So the depositor loses less than the price of one LP token;
    - the first depositor holds the whole pool, worth at least [net] - (e - 1);
    - if LP tokens are outstanding but the pool is worth nothing, the depositor gets one LP token per lamport. *)
Theorem C50_deposit D (HD : derive_ok D) E C w accs a w' n d e :
  reachable D w -> pdas_do_not_sign accs -> process D E C w accs (AddLiquidity a) = Ok w' ->
  let g := group accs 11 (al_lst_value_calc_accs a) in
  let gp := skipn (11 + Z.to_nat (al_lst_value_calc_accs a)) accs in
  at_rate E (group_prog g) (lq_mint accs) (group_accs g) n d e ->
  exists w1 value hi net,
    revalued E w (al_lst_index a) (lq_reserves accs) (group_prog g) (lq_mint accs) (group_accs g) w1 /\
    e_lst_to_sol E w1 (group_prog g) (lq_mint accs) (group_accs g) (al_lst_amount a) = Ok (value, hi) /\
    e_price_lp_to_mint E w1 (group_prog gp) (lq_mint accs) (group_accs gp) (al_lst_amount a) value = Ok net /\
    let shares := lp_supply w' - lp_supply w in
    0 < shares /\ 0 <= net <= value /\
    (0 < lp_supply w -> 0 < total w1 -> net * lp_supply w' < (shares + 1) * (total w' + (e - 1))) /\
    (lp_supply w = 0 -> shares = lp_supply w' /\ net <= total w' + (e - 1)) /\
    (0 < lp_supply w -> total w1 = 0 -> shares = net).
Proof.
  intros Hr Hn H g gp Hrate.
  destruct (liq_frame D HD _ _ _ _ _ _ (or_introl (ex_intro _ a eq_refl)) Hr H) as (S0 & S1 & _ & _).
  pose proof (reachable_inv D HD _ Hr) as Hi.
  assert (Hlp : 0 < supply w' (lq_lp_mint accs) - supply w (lq_lp_mint accs)).
  { destruct (add_supply D HD _ _ _ _ _ _ Hr H) as (ps & lp & _ & Hlm & Hlp & _ & Hs & _).
    rewrite Hlm, Hs, on_same. lia. }
  destruct (C06_add_liquidity D HD _ _ _ _ _ _ _ _ _ Hr Hn H Hrate) as
    (w1 & value & hi & net & R1 & I1 & I2 & Hrest). cbv zeta in Hrest.
  destruct Hrest as (Hnet & Htot & A & B & Cc & Dd). destruct Hrate as (_ & _ & He & _).
  exists w1, value, hi, net. fold g gp in R1, I1, I2. split; [exact R1|]. split; [exact I1|]. split; [exact I2|]. cbv zeta.
  rewrite S0, S1. set (S := supply w (lq_lp_mint accs)) in *. set (S' := supply w' (lq_lp_mint accs)) in *.
  split; [lia|]. split; [lia|]. split; [|split].
  - intros HS HT. eapply (shares_worth S (total w1) S' (total w') net); eauto; try lia.
  - intros HS. specialize (B HS).
    assert (0 <= total w1).
    { pose proof H as H'. apply add_run in H'; [|exact (proj1 Hi)]. cbv zeta in H'.
      destruct H' as (w1x & ? & ? & ? & ? & ? & ? & HF & H').
      assert (U64 (total w1x)) as Hu by tauto. destruct HF as (w2 & R1x & _). fold g in R1x.
      rewrite (revalued_total _ _ _ _ _ _ _ _ _ R1 R1x). unfold U64 in Hu. lia. }
    split; lia.
  - intros HS HT. auto.
Qed.

(** ** Holding *)

(** The arithmetic of holding [sh] LP tokens from (T', S') to (T2, S2), measured as T1 >= T2 at the redemption. *)
Lemma held_value T' S' T2 S2 T1 M z sh net x sol :
  0 < M -> 0 < S' -> 0 < S2 -> 0 <= sh -> T2 <= T1 ->
  (T2 * M + z * S2) * S' >= T' * M * S2 ->
  net * S' < (sh + 1) * (T' + x) \/ net <= T' + x /\ sh = S' -> 0 <= T' + x ->
  sol = sh * T1 / S2 -> 0 <= x ->
  net * S' * M < (sol + 1) * S' * M + (T' + x) * M + sh * x * M + sh * z * S'.
Proof.
  intros HM HS' HS2 Hsh HT Hv Hd HTx Hsol Hx.
  pose proof (Z.mul_succ_div_gt (sh * T1) S2 HS2) as Q. rewrite <- Hsol in Q.
  assert (Q1 : sh * T2 <= sh * T1) by (apply Z.mul_le_mono_nonneg_l; lia).
  assert (Q2 : M * S' * (sh * T2) < M * S' * (S2 * Z.succ sol)).
  { apply Z.mul_lt_mono_pos_l; [apply Z.mul_pos_pos; lia|lia]. }
  assert (Q3 : sh * (T' * M * S2) <= sh * ((T2 * M + z * S2) * S')) by (apply Z.mul_le_mono_nonneg_l; lia).
  assert (Q4 : S2 * (sh * T' * M) < S2 * ((sol + 1) * S' * M + sh * z * S')) by lia.
  apply Z.mul_lt_mono_pos_l in Q4; [|lia].
  assert (Q5 : net * S' <= (sh + 1) * (T' + x)).
  { destruct Hd as [Hd|(Hd & ->)]; [lia|]. assert (S' * net <= S' * (T' + x)) by (apply Z.mul_le_mono_nonneg_l; lia). lia. }
  assert (Q6 : M * (net * S') <= M * ((sh + 1) * (T' + x))) by (apply Z.mul_le_mono_nonneg_l; lia).
  lia.
Qed.

(** The history of a holder: it starts at genesis; up to [w] anything fair may have happened. [accs], [a]: the
    holder's deposit, at the rates [r]; [shares] LP tokens are minted. Then a fair history, with at least M > 0 LP
    tokens outstanding and [z] the roundings counted in C44, up to [w2], where [shares] LP tokens are redeemed.
    The deposit was credited [net], the redemption is credited [sol] (before its own fee):
      sol > net - T'/S' - shares * z/M - 1
    with T'/S' the price of one LP token right after the deposit (cleared of denominators below). Neither the other
    holders, nor traders, nor rebalances or admin changes, nor anything outside the controller can take more. *)
Theorem C50_held D (HD : derive_ok D) r00 g0 z0 r w E C accs a w' M z r2 w2 E2 C2 accs2 a2 w3 :
  genesis D g0 -> fair_history D 0 r00 g0 z0 r w ->
  pdas_do_not_sign accs -> process D E C w accs (AddLiquidity a) = Ok w' -> honest E r w' ->
  (0 < lp_supply w -> 0 < total w) ->
  0 < M -> fair_history D M r w' z r2 w2 ->
  pdas_do_not_sign accs2 -> process D E2 C2 w2 accs2 (RemoveLiquidity a2) = Ok w3 -> honest E2 r2 w3 ->
  let shares := lp_supply w' - lp_supply w in
  rl_lp_token_amount a2 = shares ->
  let gp := skipn (11 + Z.to_nat (al_lst_value_calc_accs a)) accs in
  let gp2 := skipn (11 + Z.to_nat (rl_lst_value_calc_accs a2)) accs2 in
  exists w1 value net w21 sol after,
    e_price_lp_to_mint E w1 (group_prog gp) (lq_mint accs) (group_accs gp) (al_lst_amount a) value = Ok net /\
    0 <= net <= value /\ value = worth_at r (lq_mint accs) (al_lst_amount a) /\
    e_price_lp_to_redeem E2 w21 (group_prog gp2) (lq_mint accs2) (group_accs gp2) shares sol = Ok after /\
    0 <= after <= sol /\
    net * lp_supply w' * M < (sol + 1) * lp_supply w' * M + total w' * M + shares * z * lp_supply w'.
Proof.
  intros Hg H0 Hn H Hh Hne HM Hf Hn2 H2 Hh2 shares Hsh gp gp2.
  pose proof (genesis_covered D (worth_at r00) g0 Hg) as Hc.
  destruct (fair_gen D 0 r00 g0 z0 r w HD (reach_genesis _ _ Hg) Hc H0) as (Hr & HG).
  destruct (gen_end D HD 0 _ _ _ _ _ (reach_genesis _ _ Hg) Hc HG) as (_ & Hre & Hcov & _).
  pose proof (reach_ctl _ _ _ _ _ _ _ Hre Hn H) as Hre'.
  assert (H0' : fair_history D 0 r00 g0 (z0 + 0) r w').
  { eapply fair_go; [exact H0| |apply (lp_supply_ge0 D HD), Hre'].
    eapply fair_call; [exact Hn|exact H|exact Hh|lia|exact I]. }
  destruct (fair_gen D 0 r00 g0 (z0 + 0) r w' HD (reach_genesis _ _ Hg) Hc H0') as (_ & HG').
  destruct (gen_end D HD 0 _ _ _ _ _ (reach_genesis _ _ Hg) Hc HG') as (_ & _ & Hcov' & _).
  destruct (fair_gen D M r w' z r2 w2 HD Hre' Hcov' Hf) as (Hr2 & HG2).
  destruct (gen_end D HD M _ _ _ _ _ Hre' Hcov' HG2) as (_ & Hre2 & Hcov2 & Hz & HM2 & HM').
  pose proof (C44_value_per_token D M r00 g0 (z0 + 0) r w' z r2 w2 HD Hg H0' HM Hf) as Hv.
  destruct (liq_frame D HD _ _ _ _ _ _ (or_introl (ex_intro _ a eq_refl)) Hre H) as (S0 & S1 & _ & B1).
  destruct (liq_frame D HD _ _ _ _ _ _ (or_intror (ex_intro _ a2 eq_refl)) Hre2 H2) as (S2 & _ & B2 & _).
  rewrite B1, B2 in Hv.
  (* the deposit *)
  destruct (add_listed _ _ _ _ _ _ _ H) as (l' & ls & Hl' & Hin & Em & Ec).
  pose proof (fun wx ac => Hh l' ls wx ac Hl' Hin) as Hsp. rewrite Em, Ec in Hsp.
  set (g := group accs 11 (al_lst_value_calc_accs a)) in *.
  assert (Hrate : at_rate E (group_prog g) (lq_mint accs) (group_accs g) (fst (r (lq_mint accs))) (snd (r (lq_mint accs))) 1).
  { destruct (Hr (lq_mint accs)) as (A & B). unfold at_rate. csplit; auto; try lia. intros wx x v Hv'.
    rewrite (proj1 (Hsp wx _) _ _ Hv'). apply worth_floor; auto. }
  destruct (C50_deposit D HD _ _ _ _ _ _ _ _ _ Hre Hn H Hrate) as
    (w1 & value & hi & net & R1 & I1 & I2 & Hrest). cbv zeta in Hrest.
  destruct Hrest as (Hs0 & Hnet & A & B & _). fold shares in Hs0, A, B.
  assert (HT1 : total w <= total w1).
  { apply covered_cov in Hcov.
    destruct (add_call D HD (worth_at r) E C w accs a w' (worth_val_ok _ Hr) Hre Hn H (honest_truthful _ _ _ Hh) Hcov) as
      (_ & q & w1x & _ & _ & R1x & T). fold g in R1x. rewrite (revalued_total _ _ _ _ _ _ _ _ _ R1 R1x). exact T. }
  (* the redemption *)
  pose proof (reachable_inv D HD _ Hre2) as Hi2.
  assert (HT2 : forall w21, revalued E2 w2 (rl_lst_index a2) (lq_reserves accs2) (group_prog (group accs2 11 (rl_lst_value_calc_accs a2)))
      (lq_mint accs2) (group_accs (group accs2 11 (rl_lst_value_calc_accs a2))) w21 -> total w2 <= total w21).
  { intros w21 R2. apply covered_cov in Hcov2.
    destruct (remove_call D HD (worth_at r2) E2 C2 w2 accs2 a2 w3 (worth_val_ok _ Hr2) Hre2 Hn2 H2 (honest_truthful _ _ _ Hh2) Hcov2) as
      (_ & q & w1x & _ & _ & R2x & T). rewrite (revalued_total _ _ _ _ _ _ _ _ _ R2 R2x). exact T. }
  pose proof H2 as Hrun2. apply remove_run in H2; [|exact (proj1 Hi2)]. cbv zeta in H2. fold gp2 in H2.
  destruct H2 as (w21 & sol & after & tu & hi2 & fee & HF & Hlp & J1 & J2 & _ & U1 & U2 & Haf & _ & _ & _ &
    Hlp0 & _ & _ & Ut & Us & Hse & Hls & _).
  destruct HF as (w22 & R21 & _). specialize (HT2 w21 R21).
  exists w1, value, net, w21, sol, after. unfold U64 in U1, U2, Ut.
  split; [exact I2|]. split; [exact Hnet|]. split; [exact (proj1 (Hsp w1 _) _ _ (ex_intro _ hi I1))|].
  rewrite <- Hsh. split; [exact J1|]. split; [lia|]. rewrite Hsh.
  assert (Hsol : sol = shares * total w21 / lp_supply w2).
  { rewrite S2, <- Hsh. rewrite Hse in Hlp. revert Hlp. unfold calc_lp_tokens_sol_value.
    destruct (Z.eqb_spec (total w21) 0) as [->|]; cbn [orb].
    + intros [= <-]. rewrite Z.mul_0_r, Zdiv_0_l. reflexivity.
    + destruct (Z.eqb_spec (supply w2 (lq_lp_mint accs2)) 0); [lia|]. apply floor_apply_eq. }
  pose proof (lp_supply_ge0 D HD w Hre) as HS0.
  pose proof (total_nonneg w' (reachable_inv D HD _ Hre')) as HT0.
  assert (Hd : net * lp_supply w' < (shares + 1) * (total w' + 0) \/ net <= total w' + 0 /\ shares = lp_supply w').
  { clear -HS0 HT1 Hne A B Hs0. destruct (Z.eq_dec (lp_supply w) 0) as [Hz0|Hz0].
    - right. specialize (B Hz0). clear -B. lia.
    - left. assert (0 < lp_supply w) as Hp by (clear -HS0 Hz0; lia). specialize (Hne Hp).
      assert (0 < total w1) as Hp1 by (clear -Hne HT1; lia). specialize (A Hp Hp1).
      replace (total w' + (1 - 1)) with (total w' + 0) in A by ring. exact A. }
  assert (Hlp1 : 0 < lp_supply w') by (clear -HM HM'; lia).
  assert (Hlp2 : 0 < lp_supply w2) by (clear -HM HM2; lia).
  assert (Hsh0 : 0 <= shares) by (clear -Hs0; lia).
  assert (HTl : 0 <= total w' + 0) by (clear -HT0; lia).
  pose proof (held_value (total w') (lp_supply w') (total w2) (lp_supply w2) (total w21) M z shares net 0 sol
    HM Hlp1 Hlp2 Hsh0 HT2 Hv Hd HTl Hsol (Z.le_refl 0)) as Q.
  rewrite Z.add_0_r, Z.mul_0_r, Z.mul_0_l, Z.add_0_r in Q. exact Q.
Qed.
(** In particular if withdrawal fees make up for all rounding in between, the holder is credited at redemption
    what was credited at the deposit, up to the price of one LP token and one lamport: sol > net - T'/S' - 1. *)
Corollary C50_held_whole D (HD : derive_ok D) r00 g0 z0 r w E C accs a w' M r2 w2 E2 C2 accs2 a2 w3 :
  genesis D g0 -> fair_history D 0 r00 g0 z0 r w ->
  pdas_do_not_sign accs -> process D E C w accs (AddLiquidity a) = Ok w' -> honest E r w' ->
  (0 < lp_supply w -> 0 < total w) ->
  0 < M -> fair_history D M r w' 0 r2 w2 ->
  pdas_do_not_sign accs2 -> process D E2 C2 w2 accs2 (RemoveLiquidity a2) = Ok w3 -> honest E2 r2 w3 ->
  let shares := lp_supply w' - lp_supply w in
  rl_lp_token_amount a2 = shares ->
  let gp := skipn (11 + Z.to_nat (al_lst_value_calc_accs a)) accs in
  let gp2 := skipn (11 + Z.to_nat (rl_lst_value_calc_accs a2)) accs2 in
  exists w1 value net w21 sol after,
    e_price_lp_to_mint E w1 (group_prog gp) (lq_mint accs) (group_accs gp) (al_lst_amount a) value = Ok net /\
    0 <= net <= value /\ value = worth_at r (lq_mint accs) (al_lst_amount a) /\
    e_price_lp_to_redeem E2 w21 (group_prog gp2) (lq_mint accs2) (group_accs gp2) shares sol = Ok after /\
    0 <= after <= sol /\
    net * lp_supply w' < (sol + 1) * lp_supply w' + total w'.
Proof.
  intros Hg H0 Hn H Hh Hne HM Hf Hn2 H2 Hh2 shares Hsh gp gp2.
  destruct (C50_held D HD r00 g0 z0 r w E C accs a w' M 0 r2 w2 E2 C2 accs2 a2 w3 Hg H0 Hn H Hh Hne HM Hf Hn2 H2 Hh2 Hsh)
    as (w1 & value & net & w21 & sol & after & A & B & Cc & Dd & F & G).
  exists w1, value, net, w21, sol, after.
  split; [exact A|]. split; [exact B|]. split; [exact Cc|]. split; [exact Dd|]. split; [exact F|].
  rewrite Z.mul_0_r, Z.mul_0_l, Z.add_0_r in G.
  assert (Q : M * (net * lp_supply w') < M * ((sol + 1) * lp_supply w' + total w')) by lia.
  apply Z.mul_lt_mono_pos_l in Q; lia.
Qed.

(** The same with the shipped programs, whatever their stake pools charge. The deposit is credited in full
    ([worth]); Marinade's LST loses one lamport per deposit ([merge_loss]). *)
Theorem C50_held_shipped D (HD : derive_ok D) R dp cs00 g0 z0 cs w pw other C accs a w' M z cs2 w2 pw2 other2 C2 accs2 a2 w3 :
  genesis D g0 -> shipped_history D R dp 0 cs00 g0 z0 cs w ->
  pdas_do_not_sign accs -> pools_typed pw ->
  process D (deployed_env R dp pw other) C w accs (AddLiquidity a) = Ok w' ->
  shipped_listing dp pw cs w' -> shipped_deposit dp accs (AddLiquidity a) ->
  (0 < lp_supply w -> 0 < total w) ->
  0 < M -> shipped_history D R dp M cs w' z cs2 w2 ->
  pdas_do_not_sign accs2 -> pools_typed pw2 ->
  process D (deployed_env R dp pw2 other2) C2 w2 accs2 (RemoveLiquidity a2) = Ok w3 -> shipped_listing dp pw2 cs2 w3 ->
  let shares := lp_supply w' - lp_supply w in
  rl_lp_token_amount a2 = shares ->
  let value := worth (cs (lq_mint accs)) (al_lst_amount a) in
  let loss := merge_loss (cs (lq_mint accs)) in
  let gp2 := skipn (11 + Z.to_nat (rl_lst_value_calc_accs a2)) accs2 in
  exists w21 sol after,
    e_price_lp_to_redeem (deployed_env R dp pw2 other2) w21 (group_prog gp2) (lq_mint accs2) (group_accs gp2) shares sol = Ok after /\
    0 <= after <= sol /\
    value * lp_supply w' * M <
      (sol + 1) * lp_supply w' * M + (total w' + loss) * M + shares * loss * M + shares * z * lp_supply w'.
Proof.
  intros Hg H0 Hn Ht H Hl Hd Hne HM Hf Hn2 Ht2 H2 Hl2 shares Hsh value loss gp2.
  pose proof (genesis_covered D (pool_val cs00) g0 Hg) as Hc.
  destruct (shipped_gen D R dp 0 cs00 g0 z0 cs w HD (reach_genesis _ _ Hg) Hc H0) as (Hps & HG).
  destruct (gen_end D HD 0 _ _ _ _ _ (reach_genesis _ _ Hg) Hc HG) as (_ & Hre & Hcov & _).
  pose proof (reach_ctl _ _ _ _ _ _ _ Hre Hn H) as Hre'.
  assert (Hl0 : 0 <= loss) by (unfold loss, merge_loss; destruct (cs (lq_mint accs)); lia).
  assert (H0' : shipped_history D R dp 0 cs00 g0 (z0 + loss) cs w').
  { eapply ship_go; [exact H0| |apply (lp_supply_ge0 D HD), Hre'].
    eapply shipped_call; [exact Hn|exact Ht|exact H|exact Hl|exact Hd|exact Hl0|]. cbn [shipped_rounding]. unfold loss. lia. }
  destruct (shipped_gen D R dp 0 cs00 g0 (z0 + loss) cs w' HD (reach_genesis _ _ Hg) Hc H0') as (_ & HG').
  destruct (gen_end D HD 0 _ _ _ _ _ (reach_genesis _ _ Hg) Hc HG') as (_ & _ & Hcov' & _).
  destruct (shipped_gen D R dp M cs w' z cs2 w2 HD Hre' Hcov' Hf) as (Hps2 & HG2).
  destruct (gen_end D HD M _ _ _ _ _ Hre' Hcov' HG2) as (_ & Hre2 & Hcov2 & Hz & HM2 & HM').
  pose proof (C44_shipped_value D R dp M cs00 g0 (z0 + loss) cs w' z cs2 w2 HD Hg H0' HM Hf) as Hv.
  destruct (liq_frame D HD _ _ _ _ _ _ (or_introl (ex_intro _ a eq_refl)) Hre H) as (S0 & S1 & _ & B1).
  destruct (liq_frame D HD _ _ _ _ _ _ (or_intror (ex_intro _ a2 eq_refl)) Hre2 H2) as (S2 & _ & B2 & _).
  rewrite B1, B2 in Hv.
  pose proof (shipped_truthful R dp pw other cs w' Ht Hl) as Htr.
  pose proof (shipped_truthful R dp pw2 other2 cs2 w3 Ht2 Hl2) as Htr2.
  (* the deposit *)
  destruct (add_listed _ _ _ _ _ _ _ H) as (l' & ls & Hl' & Hin & Em & Ec). destruct (Hl l' ls Hl' Hin) as (Hsc & Hp).
  rewrite Em, Ec in *. set (g := group accs 11 (al_lst_value_calc_accs a)) in *.
  destruct (C06_shipped D HD R dp pw other C w accs a w' Hre Hn Ht Hsc Hd H) as (w1 & c & R1 & Hpc & Hrest).
  cbv zeta in Hrest. fold g in R1, Hpc.
  pose proof R1 as (vv & hh & psx & lx & lsx & _ & Hvv & _).
  apply (valued_accepts R _ _ other _ _ _ _ _ _ _ Hsc (ex_intro _ hh Hvv)), Hp in Hpc. subst c. fold value loss in Hrest.
  destruct Hrest as (Hval & _ & Htot & A & B & _ & Fx).
  assert (HT1 : total w <= total w1).
  { apply covered_cov in Hcov.
    destruct (add_call D HD (pool_val cs) _ C w accs a w' (pool_val_ok _ Hps) Hre Hn H Htr Hcov) as
      (_ & q & w1x & _ & _ & R1x & T). fold g in R1x. rewrite (revalued_total _ _ _ _ _ _ _ _ _ R1 R1x). exact T. }
  (* the redemption *)
  pose proof (reachable_inv D HD _ Hre2) as Hi2.
  assert (HT2 : forall w21, revalued (deployed_env R dp pw2 other2) w2 (rl_lst_index a2) (lq_reserves accs2) (group_prog (group accs2 11 (rl_lst_value_calc_accs a2)))
      (lq_mint accs2) (group_accs (group accs2 11 (rl_lst_value_calc_accs a2))) w21 -> total w2 <= total w21).
  { intros w21 R2. apply covered_cov in Hcov2.
    destruct (remove_call D HD (pool_val cs2) _ C2 w2 accs2 a2 w3 (pool_val_ok _ Hps2) Hre2 Hn2 H2 Htr2 Hcov2) as
      (_ & q & w1x & _ & _ & R2x & T). rewrite (revalued_total _ _ _ _ _ _ _ _ _ R2 R2x). exact T. }
  apply remove_run in H2; [|exact (proj1 Hi2)]. cbv zeta in H2. fold gp2 in H2.
  destruct H2 as (w21 & sol & after & tu & hi2 & fee & HF & Hlp & J1 & J2 & _ & U1 & U2 & Haf & _ & _ & _ &
    Hlp0 & _ & _ & Ut & Us & Hse & Hls & _).
  destruct HF as (w22 & R21 & _). specialize (HT2 w21 R21).
  exists w21, sol, after. unfold U64 in U1, U2, Ut.
  rewrite <- Hsh. split; [exact J1|]. split; [lia|]. rewrite Hsh.
  assert (Hsol : sol = shares * total w21 / lp_supply w2).
  { rewrite S2, <- Hsh. rewrite Hse in Hlp. revert Hlp. unfold calc_lp_tokens_sol_value.
    destruct (Z.eqb_spec (total w21) 0) as [->|]; cbn [orb].
    + intros [= <-]. rewrite Z.mul_0_r, Zdiv_0_l. reflexivity.
    + destruct (Z.eqb_spec (supply w2 (lq_lp_mint accs2)) 0); [lia|]. apply floor_apply_eq. }
  pose proof (lp_supply_ge0 D HD w Hre) as HS0.
  pose proof (total_nonneg w' (reachable_inv D HD _ Hre')) as HT0. pose proof (total_nonneg w (reachable_inv D HD _ Hre)) as HT00.
  assert (Hlp1 : 0 < lp_supply w') by (clear -HM HM'; lia).
  assert (Hlp2 : 0 < lp_supply w2) by (clear -HM HM2; lia).
  assert (Hsh0 : 0 <= shares) by (clear -Hlp0 Hsh; lia).
  assert (HTl : 0 <= total w' + loss) by (clear -HT0 Hl0; lia).
  assert (Hd' : value * lp_supply w' < (shares + 1) * (total w' + loss) \/ value <= total w' + loss /\ shares = lp_supply w').
  { unfold shares. rewrite S1, S0 in *. clear -HS0 HT1 HT00 Hl0 Hne A B Fx Hval Htot.
    set (S := supply w (lq_lp_mint accs)) in *. set (S' := supply w' (lq_lp_mint accs)) in *. clearbody S S' value loss.
    destruct (Z.eq_dec S 0) as [Hz0|Hz0].
    - right. specialize (B Hz0). clear -B Htot Hz0 HT1 HT00. lia.
    - left. assert (0 < S) as Hpp by (clear -HS0 Hz0; lia). specialize (Hne Hpp).
      assert (0 < total w1) as Hp1 by (clear -Hne HT1; lia). specialize (A Hpp Hp1). specialize (Fx Hpp).
      assert (Hq : loss = (loss + 1) - 1) by (clear; ring). rewrite Hq. rewrite Hq in Fx.
      apply (shares_worth S (total w1) S' (total w') value (S' - S) (loss + 1) Hpp Hp1 Hval); [clear -Hl0; lia|exact A|clear; ring|exact Fx]. }
  exact (held_value (total w') (lp_supply w') (total w2) (lp_supply w2) (total w21) M z shares value loss sol
    HM Hlp1 Hlp2 Hsh0 HT2 Hv Hd' HTl Hsol Hl0).
Qed.

(** ** All claims together *)

Lemma sum_floor_le (f : key -> Z) ks T S : 0 < S -> 0 <= T -> (forall k, 0 <= f k) ->
  sumZ (map (fun k => f k * T / S) ks) * S <= sumZ (map f ks) * T.
Proof.
  intros HS HT Hf. induction ks as [|k ks IH]; cbn [map sumZ]; [lia|].
  pose proof (Z.mul_div_le (f k * T) S HS). lia.
Qed.
(** The claims of any set of LP accounts together never exceed what the pool is worth: LP holders cannot be
    promised more than there is. (C10_backed keeps [supply_sound].) *)
Theorem C50_solvent D (HD : derive_ok D) w ps ks :
  reachable D w -> the_pool w = Some ps -> supply_sound w (lp_token_mint ps) -> NoDup ks -> 0 < lp_supply w ->
  sumZ (map (fun k => claim w (balance_of_mint w (lp_token_mint ps) k)) ks) <= total w.
Proof.
  intros Hr Hp Hs Hn HS. pose proof (reachable_inv D HD _ Hr) as Hi. pose proof (total_nonneg w Hi) as HT.
  assert (Hlp : lp_supply w = supply w (lp_token_mint ps)) by (unfold lp_supply; now rewrite Hp).
  pose proof (Hs ks Hn) as Hsum. rewrite <- Hlp in Hsum. unfold holdings in Hsum. unfold claim.
  pose proof (sum_floor_le (balance_of_mint w (lp_token_mint ps)) ks (total w) (lp_supply w) HS HT) as Q.
  assert (Hnn : forall k, 0 <= balance_of_mint w (lp_token_mint ps) k).
  { intros k. unfold balance_of_mint. destruct (w_tok w k) as [t|] eqn:Et; [|lia]. destruct (ta_mint t =? _); [|lia].
    apply (proj1 (base_u64 _ (proj1 Hi)) _ _ Et). }
  specialize (Q Hnn).
  assert (Q2 : sumZ (map (balance_of_mint w (lp_token_mint ps)) ks) * total w <= lp_supply w * total w)
    by (apply Z.mul_le_mono_nonneg_r; assumption).
  set (A := sumZ (map (fun k => balance_of_mint w (lp_token_mint ps) k * total w / lp_supply w) ks)) in *.
  assert (Q3 : lp_supply w * A <= lp_supply w * total w) by lia.
  apply Z.mul_le_mono_pos_l in Q3; assumption.
Qed.

(** ** Cases *)

(** The example history: deposit R5 at [W4]; then two swaps, a redemption by somebody else, a rebalance, a rise of
    the rate, and finally the redemption of exactly the LP tokens the deposit was minted. *)
Definition hold_args := mkRemLiq 1 1 981081 1.
Definition R_hold := process D0 E_up C0 W_up (liq_accs MB UB FB SPL_TOKEN_2022_ID RB CB) (RemoveLiquidity hold_args).
Example C50_held_case :
  genesis D0 W0 /\ fair_history D0 0 r_ex W0 0 r_ex W4 /\
  R5 = Ok W5 /\
  honest E0 r_ex W5 /\ (0 < lp_supply W4 -> 0 < total W4) /\
  fair_history D0 1871081 r_ex W5 0 r_up W_up /\
  pdas_do_not_sign (liq_accs MB UB FB SPL_TOKEN_2022_ID RB CB) /\
  R_hold = Ok (get R_hold) /\ honest E_up r_up (get R_hold) /\
  rl_lp_token_amount hold_args = lp_supply W5 - lp_supply W4 /\
  (total W5, lp_supply W5, balance (get R_hold) UB - balance W_up UB) = (1998000, 1971081, 405586).
Proof.
  destruct rates_ex as (K1 & K2 & K3). destruct C44_case as (H4 & _).
  split; [exact W0_genesis|]. split; [exact H4|]. split; [apply okb_get; vm_compute; reflexivity|].
  split; [apply honest_ex; vm_compute; reflexivity|]. split; [intros _; vm_compute; reflexivity|].
  assert (H11 : fair_history D0 1871081 r_ex W5 0 r_ex W11).
  { unfold W11, R11. apply go_ex; [|vm_compute; reflexivity|vm_compute; reflexivity|vm_compute; reflexivity|apply honest_ex|vm_compute; reflexivity|exact I].
    replace 0 with (0 + 0) by reflexivity.
    eapply fair_go; [|apply fair_external; [|reflexivity]|vm_compute; discriminate].
    2:{ eapply (transfer_external D0 W9 SPL_TOKEN_2022_ID UB RB MB USER true 5000); [| |lia| |].
        - apply base_u64. exact (proj1 (reachable_inv D0 D0_ok _ W9_reach)).
        - exact (proj1 (reachable_ata D0 D0_ok _ W9_reach)).
        - unfold USER. cbn. unfold POOL_STATE_ID, LST_STATE_LIST_ID, DISABLE_POOL_AUTHORITY_LIST_ID,
            REBALANCE_RECORD_ID, PROTOCOL_FEE_ID. intuition lia.
        - unfold W10, R10. apply okb_get. vm_compute. reflexivity. }
    unfold W9, R9. apply go_ex; [|vm_compute; reflexivity|vm_compute; reflexivity|vm_compute; reflexivity|apply honest_ex|vm_compute; reflexivity|exact I].
    unfold W8, R8. apply go_ex; [|vm_compute; reflexivity|vm_compute; reflexivity|vm_compute; reflexivity|apply honest_ex|vm_compute; reflexivity|exact redeem_ex].
    unfold W7, R7. apply go_ex; [|vm_compute; reflexivity|vm_compute; reflexivity|vm_compute; reflexivity|apply honest_ex|vm_compute; reflexivity|exact I].
    unfold W6, R6. apply go_ex; [|vm_compute; reflexivity|vm_compute; reflexivity|vm_compute; reflexivity|apply honest_ex|vm_compute; reflexivity|exact I].
    apply fair_start; auto. vm_compute. discriminate. }
  split.
  { unfold W_up, R_up. apply go_ex; [|vm_compute; reflexivity|vm_compute; reflexivity|vm_compute; reflexivity|apply honest_ex|vm_compute; reflexivity|exact I].
    eapply fair_accrue; eauto. }
  split; [apply pdas_do_not_signb_ok; reflexivity|].
  split; [unfold R_hold; apply okb_get; vm_compute; reflexivity|]. split; [apply honest_ex; vm_compute; reflexivity|].
  split; vm_compute; reflexivity.
Qed.
(** (The deposit was credited 990000; the theorem promises at least 989998 at the redemption. It is 1229045: the
    second LST's rate has risen.) *)

(** The same with the shipped programs: deposit X5 at [get X4], a redemption, rewards, then the redemption. *)
Definition X8 := process D0 env2 C0 (get X7) accs_b (RemoveLiquidity (mkRemLiq 5 1 799200 1)).
Example C50_shipped_case :
  shipped_history D0 ref_ratio_lib dp1 0 cs1 W0 0 cs1 (get X4) /\
  X5 = Ok (get X5) /\ shipped_listing dp1 pw1 cs1 (get X5) /\ shipped_deposit dp1 accs_b (AddLiquidity (mkAddLiq 5 1 400000 1)) /\
  0 < total (get X4) /\ pdas_do_not_sign accs_b /\ pools_typed pw1 /\ pools_typed pw2 /\
  shipped_history D0 ref_ratio_lib dp1 1600000 cs1 (get X5) 0 cs2 (get X7) /\
  X8 = Ok (get X8) /\ shipped_listing dp1 pw2 cs2 (get X8) /\ 799200 = lp_supply (get X5) - lp_supply (get X4) /\
  balance (get X8) UB - balance (get X7) UB = 389657.
Proof.
  destruct pools_ex as (K1 & K2 & K3). destruct C44_shipped_case as (H4 & _).
  split; [exact H4|]. split; [unfold X5; apply okb_get; vm_compute; reflexivity|].
  split; [apply listing_ex; vm_compute; reflexivity|]. split; [left; vm_compute; reflexivity|].
  split; [vm_compute; reflexivity|]. split; [apply pdas_do_not_signb_ok; vm_compute; reflexivity|].
  split; [exact pw1_typed|]. split; [exact pw2_typed|]. split.
  { unfold X7. ship_go_ex; [|exact I|exact I]. apply (ship_accrue D0 ref_ratio_lib dp1 1600000 cs1 (get X5) 0 cs1 (get X6) cs2); auto.
    unfold X6. ship_go_ex; [|exact I|vm_compute; discriminate].
    apply ship_start; auto. vm_compute. discriminate. }
  split; [unfold X8; apply okb_get; vm_compute; reflexivity|]. split; [apply listing_ex; vm_compute; reflexivity|].
  split; vm_compute; reflexivity.
Qed.
Example C50_solvent_case : reachable D0 W8 /\ supply_sound W8 LP /\ 0 < lp_supply W8 /\
  option_map lp_token_mint (the_pool W8) = Some LP /\ balance_of_mint W8 LP UL = 1871081.
Proof.
  split; [exact W8_reach|]. split; [apply W8_sound; auto|]. split; [vm_compute; reflexivity|]. split; vm_compute; reflexivity.
Qed.

(** "Less than one LP token short" is no comfort if one LP token is expensive. Somebody deposits 2 units into an
    empty pool, holds its only LP token and then sends 999999 units to the reserves. The next depositor's 2020201
    units are credited 1999998 lamports, and minted one LP token (the minimum asked for was 1): a claim to
    1509090, a quarter less; the first holder's claim is as large for 1000001 units paid. The minimum the depositor
    asks for (min_lp_out) is the only protection, and is honoured (C10). *)
Definition A1 := process D0 E0 C0 W3 (liq_accs MA UA FA SPL_TOKEN_ID RA CA) (AddLiquidity (mkAddLiq 1 0 2 1)).
Definition A2 := transfer_checked (get A1) SPL_TOKEN_ID UA RA MA USER true 999999.
Definition A3 := process D0 E0 C0 (get A2) (liq_accs MA UA FA SPL_TOKEN_ID RA CA) (AddLiquidity (mkAddLiq 1 0 2020201 1)).
Theorem C50_donation : exists net,
  reachable D0 (get A2) /\ A3 = Ok (get A3) /\
  e_price_lp_to_mint E0 (get A2) PP MA [] 2020201 2020201 = Ok net /\ net = 1999998 /\
  lp_supply (get A3) - lp_supply (get A2) = 1 /\ claim (get A3) 1 = 1509090.
Proof.
  exists 1999998.
  split.
  { unfold A2. apply reach_transfer; [|lia| |vm_compute; reflexivity].
    - eapply reach_ctl; [exact W3_reach| |unfold A1; apply okb_get; vm_compute; reflexivity].
      apply pdas_do_not_signb_ok. reflexivity.
    - unfold USER. cbn. unfold POOL_STATE_ID, LST_STATE_LIST_ID, DISABLE_POOL_AUTHORITY_LIST_ID,
        REBALANCE_RECORD_ID, PROTOCOL_FEE_ID. intuition lia. }
  split; [unfold A3; apply okb_get; vm_compute; reflexivity|].
  split; [reflexivity|]. split; [reflexivity|]. split; vm_compute; reflexivity.
Qed.
