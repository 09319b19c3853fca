(** C56: when LSTs lose value (slashing, a hacked stake pool), LP holders lose no more than the pool's reserves did. *)
From Coq Require Import ZArith List Bool Lia.
From Verif Require Import Base Ratio Calc State Controller Inversion ProcInv Spec CalcProofs InvProofs
  TokProofs AccessProofs ShapeProofs MoneyProofs Concrete ConcreteReach PropAccess PropTok PropMoney PropLp JupRefresh
  Periph PeriphSpec PeriphProofs Deploy DeploySpec DeployProofs PropCalc PropFlat ClientSpec Jup JupSpec PropJup PropDeploy
  HistSpec HistProofs PropHistory PropHolder LossSpec LossProofs.
Import ListNotations.
Open Scope Z_scope.

Lemma loss_gen D M r0 w0 z x r w : derive_ok D -> reachable D w0 ->
  loss_history D M r0 w0 z x r w -> rates_ok r /\ lgen_history D M (worth_at r0) w0 z x (worth_at r) w.
Proof.
  intros HD H0 H. induction H as [Hok HM|z x r w z' w' H (I1 & IH) Hs HM|z x r w r' H (I1 & IH) Hok].
  - split; auto. apply lgen_start; auto. now apply worth_val_ok.
  - split; auto. destruct (lgen_end D HD M _ _ _ _ _ _ H0 IH) as (_ & I2 & _).
    eapply lgen_go; [exact IH| |exact HM]. destruct Hs as [Hx ->|E C accs ix Hn Hp Hh Hz Hrw]; [now apply gen_external|].
    eapply gen_call; eauto; [now apply honest_truthful|].
    destruct ix; try exact I.
    + apply priced_zero_le; auto. eapply deposit_priced; eauto.
    + eapply redeem_priced; eauto.
  - split; auto. eapply lgen_change; [exact IH|now apply worth_val_ok].
Qed.
Lemma loss_shipped_gen D R dp M cs0 w0 z x cs w : derive_ok D -> reachable D w0 ->
  loss_shipped D R dp M cs0 w0 z x cs w -> pools_sound cs /\ lgen_history D M (pools_value cs0) w0 z x (pools_value cs) w.
Proof.
  intros HD H0 H. induction H as [Hok HM|z x cs w z' w' H (I1 & IH) Hs HM|z x cs w cs' H (I1 & IH) Hok].
  - split; auto. apply lgen_start; auto. now apply pool_val_ok.
  - split; auto. destruct (lgen_end D HD M _ _ _ _ _ _ H0 IH) as (_ & I2 & _).
    eapply lgen_go; [exact IH| |exact HM].
    destruct Hs as [Hx ->|pw other C accs ix Hn Ht Hp Hl Hd Hz Hrw]; [now apply gen_external|].
    eapply gen_call; eauto; [now apply shipped_truthful|]. eapply shipped_priced; eauto.
  - split; auto. eapply lgen_change; [exact IH|now apply pool_val_ok].
Qed.
Lemma genesis_overstated D V g : genesis D g -> overstated D V g = 0.
Proof. intros Hg. unfold overstated, listed. assert (the_list g = Some []) as -> by (apply Hg). reflexivity. Qed.

(** ** What the pool records is off by no more than what was lost *)

(** From any reachable state on, whatever the rates do: the records overstate the reserves by at most what they
    overstated at the start and what the reserves lost since. No sequence of instructions adds to it. *)
Theorem C56_overstated D (HD : derive_ok D) M r0 w0 z x r w :
  reachable D w0 -> loss_history D M r0 w0 z x r w ->
  overstated D (worth_at r) w <= overstated D (worth_at r0) w0 + x.
Proof.
  intros H0 H. destruct (loss_gen D M r0 w0 z x r w HD H0 H) as (_ & HG).
  destruct (lgen_end D HD M _ _ _ _ _ _ H0 HG) as (_ & _ & Ho & _). exact Ho.
Qed.
Corollary C56_overstated_genesis D (HD : derive_ok D) M r0 g z x r w :
  genesis D g -> loss_history D M r0 g z x r w -> overstated D (worth_at r) w <= x.
Proof.
  intros Hg H. pose proof (C56_overstated D HD M r0 g z x r w (reach_genesis _ _ Hg) H) as Q.
  rewrite (genesis_overstated D _ g Hg) in Q. lia.
Qed.

(** ** The value behind each LP token *)

(** Between any two points [w0] and [w] of a history in which rates move in any way, the value behind each LP token
    falls by at most (z + x + o)/M: z the roundings counted in C44, x what the reserves lost in between, o what the
    records overstated at [w0], M > 0 a lower bound on the LP tokens in between. At [w] each LST counts for no more
    than its reserves are worth, even if that is not recorded yet. [w0] is any reachable state. *)
Theorem C56_value_per_token D (HD : derive_ok D) M r0 w0 z x r w :
  reachable D w0 -> 0 < M -> loss_history D M r0 w0 z x r w ->
  ((backing w - overstated D (worth_at r) w) * M + (z + x + overstated D (worth_at r0) w0) * lp_supply w) * lp_supply w0
    >= backing w0 * M * lp_supply w.
Proof.
  intros H0 HM H. destruct (loss_gen D M r0 w0 z x r w HD H0 H) as (_ & HG). exact (lgen_value D HD M _ _ _ _ _ _ H0 HM HG).
Qed.
(** With the shipped calculators and pricing programs, whatever their stake pools charge and lose. *)
Theorem C56_shipped_value D (HD : derive_ok D) R dp M cs0 w0 z x cs w :
  reachable D w0 -> 0 < M -> loss_shipped D R dp M cs0 w0 z x cs w ->
  ((backing w - overstated D (pools_value cs) w) * M + (z + x + overstated D (pools_value cs0) w0) * lp_supply w) * lp_supply w0
    >= backing w0 * M * lp_supply w /\
  overstated D (pools_value cs) w <= overstated D (pools_value cs0) w0 + x.
Proof.
  intros H0 HM H. destruct (loss_shipped_gen D R dp M cs0 w0 z x cs w HD H0 H) as (_ & HG).
  split; [exact (lgen_value D HD M _ _ _ _ _ _ H0 HM HG)|].
  destruct (lgen_end D HD M _ _ _ _ _ _ H0 HG) as (_ & _ & Ho & _). exact Ho.
Qed.

(** ** What one holder can lose *)

(** A deposit credited [net] and redeemed after any such history is credited
      sol > net - T'/S' - shares * (z + x + o)/M - 1:
    as in C50_held, and the holder's share (at most shares/M) of what the LSTs lost in between and of the loss [o] the
    pool had not recorded yet when the deposit was made. *)
Theorem C56_held D (HD : derive_ok D) r w E C accs a w' M z x r2 w2 E2 C2 accs2 a2 w3 :
  reachable D w -> rates_ok r ->
  pdas_do_not_sign accs -> process D E C w accs (AddLiquidity a) = Ok w' -> honest E r w' ->
  (0 < lp_supply w -> overstated D (worth_at r) w < total w) ->
  0 < M -> loss_history D M r w' z x r2 w2 ->
  pdas_do_not_sign accs2 -> process D E2 C2 w2 accs2 (RemoveLiquidity a2) = Ok w3 -> honest E2 r2 w3 ->
  let shares := lp_supply w' - lp_supply w in
  rl_lp_token_amount a2 = shares ->
  let gp := skipn (11 + Z.to_nat (al_lst_value_calc_accs a)) accs in
  let gp2 := skipn (11 + Z.to_nat (rl_lst_value_calc_accs a2)) accs2 in
  exists w1 value net w21 sol after,
    e_price_lp_to_mint E w1 (group_prog gp) (lq_mint accs) (group_accs gp) (al_lst_amount a) value = Ok net /\
    0 <= net <= value /\ value = worth_at r (lq_mint accs) (al_lst_amount a) /\
    e_price_lp_to_redeem E2 w21 (group_prog gp2) (lq_mint accs2) (group_accs gp2) shares sol = Ok after /\
    0 <= after <= sol /\
    net * lp_supply w' * M < (sol + 1) * lp_supply w' * M + total w' * M +
      shares * (z + x + overstated D (worth_at r) w') * lp_supply w'.
Proof.
  intros Hre Hr Hn H Hh Hne HM Hf Hn2 H2 Hh2 shares Hsh gp gp2.
  pose proof (reach_ctl _ _ _ _ _ _ _ Hre Hn H) as Hre'.
  destruct (loss_gen D M r w' z x r2 w2 HD Hre' Hf) as (Hr2 & HG2).
  destruct (lgen_end D HD M _ _ _ _ _ _ Hre' HG2) as (_ & Hre2 & _ & Hz & Hx & HM2 & HM').
  pose proof (C56_value_per_token D HD M r w' z x r2 w2 Hre' HM Hf) as Hv.
  destruct (liq_frame D HD _ _ _ _ _ _ (or_introl (ex_intro _ a eq_refl)) Hre H) as (S0 & S1 & _ & B1).
  destruct (liq_frame D HD _ _ _ _ _ _ (or_intror (ex_intro _ a2 eq_refl)) Hre2 H2) as (S2 & _ & B2 & _).
  rewrite B1, B2 in Hv.
  (* the deposit *)
  destruct (add_listed _ _ _ _ _ _ _ H) as (l' & ls & Hl' & Hin & Em & Ec).
  pose proof (fun wx ac => Hh l' ls wx ac Hl' Hin) as Hsp. rewrite Em, Ec in Hsp.
  set (g := group accs 11 (al_lst_value_calc_accs a)) in *.
  assert (Hrate : at_rate E (group_prog g) (lq_mint accs) (group_accs g) (fst (r (lq_mint accs))) (snd (r (lq_mint accs))) 1).
  { destruct (Hr (lq_mint accs)) as (A & B). unfold at_rate. csplit; auto; try lia. intros wx y v Hv'.
    rewrite (proj1 (Hsp wx _) _ _ Hv'). apply worth_floor; auto. }
  destruct (C50_deposit D HD _ _ _ _ _ _ _ _ _ Hre Hn H Hrate) as
    (w1 & value & hi & net & R1 & I1 & I2 & Hrest). cbv zeta in Hrest.
  destruct Hrest as (Hs0 & Hnet & A & B & _). fold shares in Hs0, A, B.
  assert (HT1 : total w - overstated D (worth_at r) w <= total w1).
  { destruct (add_call_ov D HD (worth_at r) E C w accs a w' (worth_val_ok _ Hr) Hre Hn H (honest_truthful _ _ _ Hh)) as
      (_ & q & w1x & _ & _ & R1x & T). fold g in R1x. rewrite (revalued_total _ _ _ _ _ _ _ _ _ R1 R1x).
    pose proof (overstated_ge0 D (worth_at r) w'). lia. }
  (* the redemption *)
  pose proof (reachable_inv D HD _ Hre2) as Hi2.
  assert (HT2 : forall w21, revalued E2 w2 (rl_lst_index a2) (lq_reserves accs2) (group_prog (group accs2 11 (rl_lst_value_calc_accs a2)))
      (lq_mint accs2) (group_accs (group accs2 11 (rl_lst_value_calc_accs a2))) w21 -> total w2 - overstated D (worth_at r2) w2 <= total w21).
  { intros w21 R2.
    destruct (remove_call_ov D HD (worth_at r2) E2 C2 w2 accs2 a2 w3 (worth_val_ok _ Hr2) Hre2 Hn2 H2 (honest_truthful _ _ _ Hh2)) as
      (_ & q & w1x & _ & _ & R2x & T). rewrite (revalued_total _ _ _ _ _ _ _ _ _ R2 R2x).
    pose proof (overstated_ge0 D (worth_at r2) w3). lia. }
  apply remove_run in H2; [|exact (proj1 Hi2)]. cbv zeta in H2. fold gp2 in H2.
  destruct H2 as (w21 & sol & after & tu & hi2 & fee & HF & Hlp & J1 & J2 & _ & U1 & U2 & Haf & _ & _ & _ &
    Hlp0 & _ & _ & Ut & Us & Hse & Hls & _).
  destruct HF as (w22 & R21 & _). specialize (HT2 w21 R21).
  exists w1, value, net, w21, sol, after. unfold U64 in U1, U2, Ut.
  split; [exact I2|]. split; [exact Hnet|]. split; [exact (proj1 (Hsp w1 _) _ _ (ex_intro _ hi I1))|].
  rewrite <- Hsh. split; [exact J1|]. split; [lia|]. rewrite Hsh.
  assert (Hsol : sol = shares * total w21 / lp_supply w2).
  { rewrite S2, <- Hsh. rewrite Hse in Hlp. revert Hlp. unfold calc_lp_tokens_sol_value.
    destruct (Z.eqb_spec (total w21) 0) as [->|]; cbn [orb].
    + intros [= <-]. rewrite Z.mul_0_r, Zdiv_0_l. reflexivity.
    + destruct (Z.eqb_spec (supply w2 (lq_lp_mint accs2)) 0); [lia|]. apply floor_apply_eq. }
  pose proof (lp_supply_ge0 D HD w Hre) as HS0.
  pose proof (total_nonneg w' (reachable_inv D HD _ Hre')) as HT0.
  assert (Hd : net * lp_supply w' < (shares + 1) * (total w' + 0) \/ net <= total w' + 0 /\ shares = lp_supply w').
  { clear -HS0 HT1 Hne A B Hs0. destruct (Z.eq_dec (lp_supply w) 0) as [Hz0|Hz0].
    - right. specialize (B Hz0). clear -B. lia.
    - left. assert (0 < lp_supply w) as Hp by (clear -HS0 Hz0; lia). specialize (Hne Hp).
      assert (0 < total w1) as Hp1 by (clear -Hne HT1; lia). specialize (A Hp Hp1).
      replace (total w' + (1 - 1)) with (total w' + 0) in A by ring. exact A. }
  assert (Hlp1 : 0 < lp_supply w') by (clear -HM HM'; lia).
  assert (Hlp2 : 0 < lp_supply w2) by (clear -HM HM2; lia).
  assert (Hsh0 : 0 <= shares) by (clear -Hs0; lia).
  assert (HTl : 0 <= total w' + 0) by (clear -HT0; lia).
  pose proof (held_value (total w') (lp_supply w') (total w2 - overstated D (worth_at r2) w2) (lp_supply w2) (total w21) M
    (z + x + overstated D (worth_at r) w') shares net 0 sol
    HM Hlp1 Hlp2 Hsh0 HT2 Hv Hd HTl Hsol (Z.le_refl 0)) as Q.
  rewrite Z.add_0_r, Z.mul_0_r, Z.mul_0_l, Z.add_0_r in Q. exact Q.
Qed.

(** ** A history these theorems apply to, which also shows that the bound is met: who redeems before the loss is
    recorded escapes it *)
(** The example pool after its deposits and swaps (W7): the second LST then loses half its value; before anybody records
    that, a holder of half the LP tokens redeems through the first LST, at the old figures; then the loss is recorded. *)
Definition r_low : rates := fun m => if m =? MB then (1, 1) else (1, 1).
Definition E_low : Env := {|
  e_lst_to_sol := fun _ c _ _ x => if c =? CA then Ok (x, x) else if c =? CB then Ok (x, x) else Err ExternalErr;
  e_sol_to_lst := fun _ c _ _ s => if c =? CA then Ok (s, s) else if c =? CB then Ok (s, s) else Err ExternalErr;
  e_price_exact_in := e_price_exact_in E0; e_price_exact_out := e_price_exact_out E0;
  e_price_lp_to_mint := e_price_lp_to_mint E0; e_price_lp_to_redeem := e_price_lp_to_redeem E0 |}.
Definition esc_args := mkRemLiq 1 0 971081 1.
Definition Resc := process D0 E_low C0 W7 (liq_accs MA UA FA SPL_TOKEN_ID RA CA) (RemoveLiquidity esc_args).
Definition Wesc := get Resc.
Definition Rlow := process D0 E_low C0 Wesc sync_accs (SyncSolValue 1).
Definition Wlow := get Rlow.

Lemma honest_low w : listsb w = true -> honest E_low r_low w.
Proof.
  unfold listsb. intros H l ls w0 accs Hl Hin. rewrite Hl in H. rewrite forallb_forall in H. specialize (H _ Hin).
  apply orb_prop in H as [H|H]; apply andb_prop in H as (H1 & H2); apply Z.eqb_eq in H1, H2; rewrite H1, H2;
    unfold valued, worth_at, E_low, r_low, CA, CB, MA, MB; cbn -[Z.mul Z.div Z.add Z.sub]; (split;
    [intros x v (hi & He); assert (v = x) by congruence; subst v; rewrite Z.mul_1_r, Z.div_1_r; reflexivity
    |intros s lo hi _ He; assert (lo = s) by congruence; subst lo; lia]).
Qed.
Lemma rates_low : rates_ok r_low.
Proof. intros m. unfold r_low. destruct (m =? MB); cbn; lia. Qed.
(** A redemption at W7 through the first LST: its figures. *)
Lemma redeem_low lp sol aft : 
  lp * 1998146 / 1971081 = sol -> sol * 99 / 100 = aft ->
  (aft + bps_share 1000 (sol - aft)) * 1 <= (sol - (aft + bps_share 1000 (sol - aft)) + 0) * (aft * 1) ->
  redeemed_within E_low r_low W7 (liq_accs MA UA FA SPL_TOKEN_ID RA CA) (RemoveLiquidity (mkRemLiq 1 0 lp 1)) 0.
Proof.
  intros Hsol Haft Hle w1 after. cbv zeta. cbn [rl_lst_value_calc_accs rl_lst_index rl_lp_token_amount].
  intros (v & hi & ps & l & ls & _ & Hv & Hp & Hl & Hn & Hp' & _) Hpr.
  assert (Ht : total w1 = 1998146).
  { unfold total. rewrite Hp'. cbn [total_sol_value set_total].
    assert (Q : option_map total_sol_value (the_pool W7) = Some 1998146) by (vm_compute; reflexivity).
    assert (Q2 : option_map (fun l => option_map sol_value (nth_error l 0)) (the_list W7) = Some (Some 1015064)) by (vm_compute; reflexivity).
    rewrite Hp in Q. rewrite Hl in Q2. cbn [option_map] in Q, Q2.
    change (Z.to_nat 0) with 0%nat in Hn. rewrite Hn in Q2. cbn [option_map] in Q2.
    assert (total_sol_value ps = 1998146) by congruence. assert (sol_value ls = 1015064) by congruence.
    assert (v = 1015064).
    { assert (Qb : balance W7 (lq_reserves (liq_accs MA UA FA SPL_TOKEN_ID RA CA)) = 1015064) by (vm_compute; reflexivity).
      rewrite Qb in Hv.
      assert (Qc : group_prog (group (liq_accs MA UA FA SPL_TOKEN_ID RA CA) 11 1) = CA) by (vm_compute; reflexivity).
      rewrite Qc in Hv. assert (Qv : forall m a, e_lst_to_sol E_low W7 CA m a 1015064 = Ok (1015064, 1015064)) by reflexivity.
      rewrite Qv in Hv. congruence. }
    lia. }
  rewrite Ht in *.
  assert (Qs : supply W7 (lq_lp_mint (liq_accs MA UA FA SPL_TOKEN_ID RA CA)) = 1971081) by (vm_compute; reflexivity).
  assert (Qf : lp_fee_bps W7 = 1000) by (vm_compute; reflexivity).
  rewrite Qs in *. rewrite Qf. rewrite Hsol in *.
  assert (Qp : group_prog (skipn (11 + Z.to_nat 1) (liq_accs MA UA FA SPL_TOKEN_ID RA CA)) = PP) by (vm_compute; reflexivity).
  rewrite Qp in Hpr. assert (Qv : forall m a, e_price_lp_to_redeem E_low w1 PP m a lp sol = Ok (sol * 99 / 100)) by reflexivity.
  rewrite Qv in Hpr. assert (after = aft) as -> by congruence. exact Hle.
Qed.
Lemma lgo_ex D M r0 w0 r z x w E C accs ix : loss_history D M r0 w0 z x r w ->
  okb (process D E C w accs ix) = true -> pdas_do_not_signb accs = true ->
  honest E r (get (process D E C w accs ix)) ->
  (M <=? lp_supply (get (process D E C w accs ix))) = true ->
  redeemed_within E r w accs ix 0 ->
  loss_history D M r0 w0 z x r (get (process D E C w accs ix)).
Proof.
  intros H Ho Hs Hh HM Hrw. rewrite <- (Z.add_0_r z). eapply loss_go; [exact H| |now apply Z.leb_le].
  eapply fair_call; [apply pdas_do_not_signb_ok, Hs|apply okb_get, Ho|exact Hh|lia|exact Hrw].
Qed.
(** The remaining holders are left with 0.53 lamports a token, where an equal share of the loss would have left 0.76. *)
Example C56_case :
  loss_history D0 1000000 r_ex W7 0 491541 r_low Wlow /\
  (total W7, lp_supply W7) = (1998146, 1971081) /\ (total Wesc, lp_supply Wesc) = (1022592, 1000000) /\
  (total Wlow, lp_supply Wlow) = (531051, 1000000) /\
  overstated D0 (worth_at r_ex) W7 = 0 /\ overstated D0 (worth_at r_low) Wesc = 491541 /\ overstated D0 (worth_at r_low) Wlow = 0 /\
  total Wlow * lp_supply W7 < (total W7 - 491541) * lp_supply Wlow /\
  (total Wlow * 1000000 + 491541 * lp_supply Wlow) * lp_supply W7 >= total W7 * 1000000 * lp_supply Wlow.
Proof.
  assert (Hx : lost D0 (worth_at r_ex) (worth_at r_low) W7 = 491541) by (vm_compute; reflexivity).
  assert (H : loss_history D0 1000000 r_ex W7 0 (0 + lost D0 (worth_at r_ex) (worth_at r_low) W7) r_low Wlow).
  { unfold Wlow, Rlow. apply lgo_ex; [|vm_compute; reflexivity|vm_compute; reflexivity|apply honest_low; vm_compute; reflexivity|vm_compute; reflexivity|exact I].
    unfold Wesc, Resc. apply lgo_ex; [|vm_compute; reflexivity|vm_compute; reflexivity|apply honest_low; vm_compute; reflexivity|vm_compute; reflexivity|].
    - apply loss_change; [apply loss_start; [apply rates_ex|vm_compute; discriminate]|apply rates_low].
    - unfold esc_args. apply (redeem_low 971081 984414 974569); [vm_compute; reflexivity|vm_compute; reflexivity|vm_compute; discriminate]. }
  rewrite Hx in H. change (0 + 491541) with 491541 in H.
  split; [exact H|]. 
  assert (N1 : total W7 = 1998146) by (vm_compute; reflexivity). assert (N2 : lp_supply W7 = 1971081) by (vm_compute; reflexivity).
  assert (N3 : total Wesc = 1022592) by (vm_compute; reflexivity). assert (N4 : lp_supply Wesc = 1000000) by (vm_compute; reflexivity).
  assert (N5 : total Wlow = 531051) by (vm_compute; reflexivity). assert (N6 : lp_supply Wlow = 1000000) by (vm_compute; reflexivity).
  rewrite N1, N2, N3, N4, N5, N6. split; [reflexivity|]. split; [reflexivity|]. split; [reflexivity|].
  split; [vm_compute; reflexivity|]. split; [vm_compute; reflexivity|]. split; [vm_compute; reflexivity|]. split; [lia|lia].
Qed.
(** A holder through the same loss: the first deposit (W3 to W4), the pool's history up to W7, the loss, the redemption. *)
Definition held_args := mkRemLiq 1 0 990000 1.
Example C56_held_case :
  reachable D0 W3 /\ rates_ok r_ex /\ R4 = process D0 E0 C0 W3 (liq_accs MA UA FA SPL_TOKEN_ID RA CA) (AddLiquidity add_args_a) /\
  lp_supply W3 = 0 /\ lp_supply W4 - lp_supply W3 = 990000 /\
  loss_history D0 990000 r_ex W4 0 491541 r_low W7 /\
  okb (process D0 E_low C0 W7 (liq_accs MA UA FA SPL_TOKEN_ID RA CA) (RemoveLiquidity held_args)) = true.
Proof.
  split; [exact W3_reach|]. split; [apply rates_ex|]. split; [reflexivity|]. split; [vm_compute; reflexivity|]. split; [vm_compute; reflexivity|].
  split; [|vm_compute; reflexivity].
  assert (Hx : lost D0 (worth_at r_ex) (worth_at r_low) W7 = 491541) by (vm_compute; reflexivity).
  replace 491541 with (0 + lost D0 (worth_at r_ex) (worth_at r_low) W7) by (now rewrite Hx).
  apply loss_change; [|apply rates_low].
  unfold W7, R7. apply lgo_ex; [|vm_compute; reflexivity|vm_compute; reflexivity|apply honest_ex; vm_compute; reflexivity|vm_compute; reflexivity|exact I].
  unfold W6, R6. apply lgo_ex; [|vm_compute; reflexivity|vm_compute; reflexivity|apply honest_ex; vm_compute; reflexivity|vm_compute; reflexivity|exact I].
  unfold W5, R5. apply lgo_ex; [|vm_compute; reflexivity|vm_compute; reflexivity|apply honest_ex; vm_compute; reflexivity|vm_compute; reflexivity|exact I].
  apply loss_start; [apply rates_ex|vm_compute; discriminate].
Qed.
(** With the shipped programs (the history of C44_shipped_case): the second stake pool's gains are recorded, lost again,
    and that is recorded too. *)
Definition X8 := process D0 env1 C0 (get X7) sync_accs_b (SyncSolValue 1).
Lemma lship_ex M cs0 w0 cs z x w pw C accs ix : loss_shipped D0 ref_ratio_lib dp1 M cs0 w0 z x cs w ->
  let r := process D0 (deployed_env ref_ratio_lib dp1 pw E0) C w accs ix in
  pools_typed pw -> okb r = true -> pdas_do_not_signb accs = true -> listsb (get r) = true ->
  (listsb (get r) = true -> shipped_listing dp1 pw cs (get r)) ->
  (M <=? lp_supply (get r)) = true -> shipped_deposit dp1 accs ix -> shipped_rounding cs w accs ix (get r) 0 ->
  loss_shipped D0 ref_ratio_lib dp1 M cs0 w0 z x cs (get r).
Proof.
  intros H r Ht Ho Hs Hl Hh HM Hd Hrw. rewrite <- (Z.add_0_r z). eapply lship_go; [exact H| |now apply Z.leb_le].
  eapply shipped_call; [apply pdas_do_not_signb_ok, Hs|exact Ht|apply okb_get, Ho|apply Hh, Hl|exact Hd|lia|exact Hrw].
Qed.
Ltac lship_go_ex := apply lship_ex; [|(exact pw1_typed || exact pw2_typed)|vm_compute; reflexivity|vm_compute; reflexivity|vm_compute; reflexivity|
  apply listing_ex|vm_compute; reflexivity| | ].
Example C56_shipped_case :
  exists x, loss_shipped D0 ref_ratio_lib dp1 900000 cs1 (get X4) 0 x cs1 (get X8) /\ x = 39460 /\
  overstated D0 (pools_value cs1) (get X7) = x /\
  (total (get X4), lp_supply (get X4)) = (900000, 900000) /\
  (total (get X7), lp_supply (get X7)) = (1728666, 1689199) /\ (total (get X8), lp_supply (get X8)) = (1689206, 1689199).
Proof.
  destruct pools_ex as (K1 & K2 & _).
  exists (0 + lost D0 (pools_value cs1) (pools_value cs2) (get X6) + lost D0 (pools_value cs2) (pools_value cs1) (get X7)).
  split.
  { unfold X8. lship_go_ex; [|exact I|exact I]. apply lship_change; [|exact K1].
    unfold X7. lship_go_ex; [|exact I|exact I]. apply lship_change; [|exact K2].
    unfold X6. lship_go_ex; [|exact I|vm_compute; discriminate].
    unfold X5. lship_go_ex; [|left; vm_compute; reflexivity|vm_compute; discriminate].
    apply lship_start; auto. vm_compute. discriminate. }
  split; [vm_compute; reflexivity|]. split; [vm_compute; reflexivity|]. split; [vm_compute; reflexivity|].
  split; vm_compute; reflexivity.
Qed.
