(** C44: over a whole history the SOL value behind each LP token never falls, except by the rounding of
    redemptions whose withdrawal fee does not make up for it. *)
From Coq Require Import ZArith List Bool Lia.
From Verif Require Import Base Ratio Calc State Controller Inversion ProcInv Spec CalcProofs InvProofs
  TokProofs AccessProofs ShapeProofs MoneyProofs Concrete ConcreteReach PropAccess PropTok PropMoney PropLp JupRefresh
  Periph PeriphSpec PeriphProofs Deploy DeploySpec DeployProofs PropCalc PropFlat ClientSpec Jup JupSpec PropJup PropDeploy
  HistSpec HistProofs.
Import ListNotations.
Open Scope Z_scope.

(** ** Histories at fixed rates are an instance of those of HistProofs.v *)
Lemma honest_truthful E r w : honest E r w -> truthful E (worth_at r) w.
Proof. intros H l ls w0 accs Hl Hi. apply (proj1 (H l ls w0 accs Hl Hi)). Qed.

(** The calculator called by a deposit or a redemption is the one listed. *)
Lemma add_listed D E C w accs a w' : process D E C w accs (AddLiquidity a) = Ok w' ->
  exists l' ls, the_list w' = Some l' /\ In ls l' /\ ls_mint ls = lq_mint accs /\
    sol_value_calculator ls = group_prog (group accs 11 (al_lst_value_calc_accs a)).
Proof.
  intros H. pose proof (C28_suffix_split D _ _ _ _ _ _ H) as HG.
  destruct (add_parties D _ _ _ _ _ _ H) as (l & ls & t & Hl & N1 & _ & HQ & US & USo & USs).
  destruct (process_list_effect D _ _ _ _ _ _ _ H Hl) as (l' & Hl' & [(Hx & _)|(q & _ & He)]); [discriminate|].
  inversion He; subst; try contradiction.
  destruct a as [n i amt mn]. cbv beta iota in HG. cbn [al_lst_value_calc_accs al_lst_index] in *.
  destruct HG as (g1 & g3 & p1 & p3 & psx & lx & ls1 & Hsk & Hn1 & _ & Hlx & X1 & Y1 & _).
  assert (lx = l) by congruence. subst lx. assert (ls1 = ls) by congruence. subst ls1.
  destruct (group_first _ _ _ _ _ _ Hsk Hn1) as (G1 & _). rewrite G1. cbn [group_prog]. rewrite Y1.
  assert (Hmm : map strip l' = map strip l) by assumption.
  destruct (strip_nth _ _ _ _ Hmm N1) as (ls' & N' & E1 & _ & E2). exists l', ls'.
  rewrite <- (proj1 HQ), E1, E2. csplit; auto. eapply nth_error_In; eauto.
Qed.
Lemma remove_listed D E C w accs a w' : process D E C w accs (RemoveLiquidity a) = Ok w' ->
  exists l' ls, the_list w' = Some l' /\ In ls l' /\ ls_mint ls = lq_mint accs /\
    sol_value_calculator ls = group_prog (group accs 11 (rl_lst_value_calc_accs a)).
Proof.
  intros H. pose proof (C28_suffix_split D _ _ _ _ _ _ H) as HG.
  destruct (remove_parties D _ _ _ _ _ _ H) as (l & ls & t & Hl & N1 & HQ & US & USo & USs).
  destruct (process_list_effect D _ _ _ _ _ _ _ H Hl) as (l' & Hl' & [(Hx & _)|(q & _ & He)]); [discriminate|].
  inversion He; subst; try contradiction.
  destruct a as [n i amt mn]. cbv beta iota in HG. cbn [rl_lst_value_calc_accs rl_lst_index] in *.
  destruct HG as (g1 & g3 & p1 & p3 & psx & lx & ls1 & Hsk & Hn1 & _ & Hlx & X1 & Y1 & _).
  assert (lx = l) by congruence. subst lx. assert (ls1 = ls) by congruence. subst ls1.
  destruct (group_first _ _ _ _ _ _ Hsk Hn1) as (G1 & _). rewrite G1. cbn [group_prog]. rewrite Y1.
  assert (Hmm : map strip l' = map strip l) by assumption.
  destruct (strip_nth _ _ _ _ Hmm N1) as (ls' & N' & E1 & _ & E2). exists l', ls'.
  rewrite <- (proj1 HQ), E1, E2. csplit; auto. eapply nth_error_In; eauto.
Qed.
(** At a rate n/d rounded down, a deposit never lowers the price. *)
Lemma deposit_priced D r w E C accs a w' : derive_ok D -> rates_ok r -> reachable D w -> pdas_do_not_sign accs ->
  process D E C w accs (AddLiquidity a) = Ok w' -> honest E r w' -> priced_within E w accs (AddLiquidity a) w' 0.
Proof.
  intros HD Hr Hre Hn H Hh w1 R1 HS. destruct (add_listed _ _ _ _ _ _ _ H) as (l' & ls & Hl' & Hin & Em & Ec).
  pose proof (fun wx ac => Hh l' ls wx ac Hl' Hin) as Hsp. rewrite Em, Ec in Hsp.
  assert (Hrate : at_rate E (group_prog (group accs 11 (al_lst_value_calc_accs a))) (lq_mint accs)
    (group_accs (group accs 11 (al_lst_value_calc_accs a))) (fst (r (lq_mint accs))) (snd (r (lq_mint accs))) 1).
  { destruct (Hr (lq_mint accs)) as (A & B). unfold at_rate. csplit; auto; try lia. intros wx x v Hv.
    rewrite (proj1 (Hsp wx _) _ _ Hv). apply worth_floor; auto. }
  destruct (C06_no_dilution D HD _ _ _ _ _ _ _ _ Hre Hn H Hrate HS) as (w1' & R1' & Hge).
  rewrite (revalued_total _ _ _ _ _ _ _ _ _ R1 R1'). lia.
Qed.
(** A redemption lowers it by at most what the fee does not cover. *)
Lemma redeem_priced D r w E C accs a w' z : derive_ok D -> rates_ok r -> reachable D w -> pdas_do_not_sign accs ->
  process D E C w accs (RemoveLiquidity a) = Ok w' -> honest E r w' -> redeemed_within E r w accs (RemoveLiquidity a) z ->
  priced_within E w accs (RemoveLiquidity a) w' z.
Proof.
  intros HD Hr Hre Hn H Hh Hz w1x R1x HS. destruct (remove_listed _ _ _ _ _ _ _ H) as (l' & ls & Hl' & Hin & Em & Ec).
  pose proof (fun wx ac => Hh l' ls wx ac Hl' Hin) as Hsp. rewrite Em, Ec in Hsp.
  pose proof (reachable_inv D HD _ Hre) as Hi.
  set (g := group accs 11 (rl_lst_value_calc_accs a)) in *.
  assert (Hrate : at_rate E (group_prog g) (lq_mint accs) (group_accs g) (fst (r (lq_mint accs))) (snd (r (lq_mint accs))) 1).
  { destruct (Hr (lq_mint accs)) as (A & B). unfold at_rate. csplit; auto; try lia. intros wx x v Hv.
    rewrite (proj1 (Hsp wx _) _ _ Hv). apply worth_floor; auto. }
  destruct (C07_fee_covers D HD E C w accs a w' _ _ Hre Hn H Hrate) as
    (w1 & sol & after & tu & hi & R1 & Hsol & I1 & I2 & Haf & Hsm & Htu0 & Htk & Hcov). fold g in R1, I2.
  rewrite (revalued_total _ _ _ _ _ _ _ _ _ R1x R1). clear w1x R1x.
  apply remove_run in H; [|exact (proj1 Hi)]. cbv zeta in H. fold g in H.
  destruct H as (w1' & sol' & after' & tu' & hi' & fee & HF & Hrest).
  assert (Hsup : supply w' (lq_lp_mint accs) = supply w (lq_lp_mint accs) - rl_lp_token_amount a).
  { destruct HF as (w2 & R1' & _ & HSx & _ & R2'). apply revalued_supply in R1' as (S1 & _), R2' as (S2 & _).
    rewrite S2, HSx, S1, on_same. reflexivity. }
  specialize (Hz w1 after). cbv zeta in Hz. fold g in Hz. rewrite <- Hsol in Hz. specialize (Hz R1 I1).
  assert (Hau : 0 <= after <= U64_MAX) by (clear -Haf Hsm; lia).
  pose proof (proj2 (Hsp w1 (group_accs g)) _ _ _ Hau I2) as Hro.
  destruct (Hr (lq_mint accs)) as (Hn0 & Hd0).
  assert (Haf0 : 0 < after) by nia.
  destruct (Hcov Haf0 Hro) as (Hb & _). clear Hcov. set (n := fst (r (lq_mint accs))) in *. set (d := snd (r (lq_mint accs))) in *.
  set (taken := after + bps_share (lp_fee_bps w) (sol - after)) in *.
  assert (Hpd : 0 < after * d) by (apply Z.mul_pos_pos; auto).
  assert (Hk2 : (after * d) * (total w1 - total w' - taken - 1) < (after * d) * (sol - taken + z)).
  { rewrite (Z.mul_comm (after * d)), (Z.mul_comm (after * d)). eapply Z.lt_le_trans; eauto. }
  apply Z.mul_lt_mono_pos_l in Hk2; [|exact Hpd].
  assert (Hd2 : total w' >= total w1 - sol - z) by (clear -Hk2; lia).
  rewrite Hsup. set (S := supply w (lq_lp_mint accs)) in *.
  assert (Hsh' : sol * S <= rl_lp_token_amount a * total w1) by (rewrite Hsol, Z.mul_comm; apply Z.mul_div_le; exact HS).
  assert (Hm : (total w1 - sol - z) * S <= total w' * S) by (apply Z.mul_le_mono_nonneg_r; clear -HS Hd2; lia).
  clear -Hm Hsh'. lia.
Qed.

Lemma priced_zero_le E w accs ix w' z : 0 <= z -> priced_within E w accs ix w' 0 -> priced_within E w accs ix w' z.
Proof. intros Hz. destruct ix; cbn [priced_within]; auto; intros H w1 R1 HS; specialize (H w1 R1 HS); nia. Qed.

Lemma fair_gen D M r0 w0 z r w : derive_ok D -> reachable D w0 -> covered D (worth_at r0) w0 ->
  fair_history D M r0 w0 z r w -> rates_ok r /\ gen_history D M (worth_at r0) w0 z (worth_at r) w.
Proof.
  intros HD H0 Hc0 H. induction H as [Hok HM|z r w z' w' H (I1 & IH) Hs HM|z r w r' H (I1 & IH) Hr Hok].
  - split; auto. apply gen_start; auto. now apply worth_val_ok.
  - split; auto. destruct (gen_end D HD M _ _ _ _ _ H0 Hc0 IH) as (_ & I2 & _).
    eapply gen_go; [exact IH| |exact HM]. destruct Hs as [Hx ->|E C accs ix Hn Hp Hh Hz Hrw]; [now apply gen_external|].
    eapply gen_call; eauto; [now apply honest_truthful|].
    destruct ix; try exact I.
    + apply priced_zero_le; auto. eapply deposit_priced; eauto.
    + eapply redeem_priced; eauto.
  - split; auto. eapply gen_accrue; [exact IH| |now apply worth_val_ok]. intros m x Hx. now apply worth_rise.
Qed.
Lemma genesis_covered D V g : genesis D g -> covered D V g.
Proof.
  intros Hg l0 ls0 k0 Hl0 Hi0 _. assert (the_list g = Some []) by (apply Hg). assert (l0 = []) by congruence.
  subst l0. destruct Hi0.
Qed.

(** ** What the pool records is always backed by the reserves *)

(** From genesis on, as long as the calculators that are asked are honest and no LST loses value, every LST's
    recorded SOL value is at most what its reserves are worth: deposits, withdrawals, swaps, rebalances, changes
    of calculator, LST additions and removals, and anything done outside the controller included. *)
Theorem C44_recorded_is_backed D M r0 g z r w l ls k :
  derive_ok D -> genesis D g -> fair_history D M r0 g z r w ->
  the_list w = Some l -> In ls l -> reserves_at D w ls k ->
  sol_value ls <= worth_at r (ls_mint ls) (balance w k).
Proof.
  intros HD Hg H Hl Hin Hk.
  pose proof (genesis_covered D (worth_at r0) g Hg) as Hc.
  destruct (fair_gen D M r0 g z r w HD (reach_genesis _ _ Hg) Hc H) as (_ & HG).
  destruct (gen_end D HD M _ _ _ _ _ (reach_genesis _ _ Hg) Hc HG) as (_ & _ & Hcov & _). exact (Hcov l ls k Hl Hin Hk).
Qed.

(** ** The value behind each LP token *)

(** Between any two points [w0] and [w] of a history, the SOL value behind each LP token falls by at most
    z/M in total: B/S + z/M >= B0/S0, where B0, S0 and B, S are the value behind the LP tokens and their number
    at [w0] and at [w], M > 0 bounds from below the number of LP tokens in between, and [z] is the total of the
    roundings that withdrawal fees did not make up for. The history starts at genesis: what happened before
    [w0] may be any fair history. *)
Theorem C44_value_per_token D M r00 g z0 r0 w0 z r w :
  derive_ok D -> genesis D g -> fair_history D 0 r00 g z0 r0 w0 ->
  0 < M -> fair_history D M r0 w0 z r w ->
  (backing w * M + z * lp_supply w) * lp_supply w0 >= backing w0 * M * lp_supply w.
Proof.
  intros HD Hg H0 HM H.
  pose proof (genesis_covered D (worth_at r00) g Hg) as Hc.
  destruct (fair_gen D 0 r00 g z0 r0 w0 HD (reach_genesis _ _ Hg) Hc H0) as (_ & HG).
  destruct (gen_end D HD 0 _ _ _ _ _ (reach_genesis _ _ Hg) Hc HG) as (_ & Hr & Hc0 & _).
  destruct (fair_gen D M r0 w0 z r w HD Hr Hc0 H) as (_ & HG2). eapply gen_value; eauto.
Qed.

(** If withdrawal fees make up for all rounding, it never falls: B/S >= B0/S0. *)
Theorem C44_never_falls D M r00 g z0 r0 w0 r w :
  derive_ok D -> genesis D g -> fair_history D 0 r00 g z0 r0 w0 ->
  0 < M -> fair_history D M r0 w0 0 r w ->
  backing w * lp_supply w0 >= backing w0 * lp_supply w.
Proof.
  intros HD Hg H0 HM H. pose proof (C44_value_per_token D M r00 g z0 r0 w0 0 r w HD Hg H0 HM H) as Q.
  assert (Q2 : M * (backing w0 * lp_supply w) <= M * (backing w * lp_supply w0)) by lia.
  apply Z.mul_le_mono_pos_l in Q2; lia.
Qed.
(** In particular between two points at which no rebalance is under way, whatever rebalances happened in
    between, total/supply does not fall. *)
Corollary C44_total_never_falls D M r00 g z0 r0 w0 r w :
  derive_ok D -> genesis D g -> fair_history D 0 r00 g z0 r0 w0 ->
  0 < M -> fair_history D M r0 w0 0 r w -> the_record w0 = None -> the_record w = None ->
  total w * lp_supply w0 >= total w0 * lp_supply w.
Proof.
  intros HD Hg H0 HM H N0 N. pose proof (C44_never_falls D M r00 g z0 r0 w0 r w HD Hg H0 HM H) as Q.
  unfold backing in Q. now rewrite N0, N in Q.
Qed.

(** How much one redemption can count for: if the pricing program leaves the user at least 1/k of the credited
    share, k times the price of one token of the LST, rounded up, is enough. *)
Theorem C44_rounding E r w accs a k :
  rates_ok r -> 0 < k ->
  (forall w1 after, let gp := skipn (11 + Z.to_nat (rl_lst_value_calc_accs a)) accs in
     let sol := rl_lp_token_amount a * total w1 / supply w (lq_lp_mint accs) in
     e_price_lp_to_redeem E w1 (group_prog gp) (lq_mint accs) (group_accs gp) (rl_lp_token_amount a) sol = Ok after ->
     0 <= after <= sol /\ sol <= k * after) ->
  0 <= lp_fee_bps w <= 10000 ->
  redeemed_within E r w accs (RemoveLiquidity a) (up (k * fst (r (lq_mint accs))) (snd (r (lq_mint accs)))).
Proof.
  intros Hr Hk Hp Hb w1 after g gp sol taken _ Hpr. destruct (Hp w1 after Hpr) as (Ha & Hs). fold gp sol in Ha, Hs. clear Hp Hpr.
  destruct (Hr (lq_mint accs)) as (Hn & Hd). clear Hr. unfold gp in *. clear gp. set (n := fst (r (lq_mint accs))) in *. set (d := snd (r (lq_mint accs))) in *.
  assert (Htk : taken <= sol).
  { unfold taken. assert (bps_share (lp_fee_bps w) (sol - after) <= sol - after); [|lia].
    unfold bps_share. apply Z.lt_succ_r, Z.div_lt_upper_bound; [lia|]. nia. }
  assert (Hup : k * n <= up (k * n) d * d).
  { unfold up. pose proof (Z.mul_div_le (- (k * n)) d Hd). lia. }
  set (z := up (k * n) d) in *. clearbody z taken sol n d. clear -Htk Hup Ha Hs Hn Hd Hk.
  assert (Q1 : taken * n <= (k * after) * n) by (apply Z.mul_le_mono_nonneg_r; lia).
  assert (Q2 : after * (k * n) <= after * (z * d)) by (apply Z.mul_le_mono_nonneg_l; lia).
  assert (Q3 : 0 <= (sol - taken) * (after * d)) by (apply Z.mul_nonneg_nonneg; [lia|apply Z.mul_nonneg_nonneg; lia]).
  lia.
Qed.

(** ** With the shipped programs *)
Definition pool_val (cs : pools) : valuation := fun m => worth (cs m).
Lemma pool_val_ok cs : pools_sound cs -> val_ok (pool_val cs).
Proof.
  intros H m. destruct (H m) as (Ht & Hf). split; [intros x Hx; now apply worth_nonneg|intros x y Hx; now apply worth_mono].
Qed.
Lemma accepts_pool dp pw prog mint accs c : accepts dp pw prog mint accs c -> shipped_pool dp pw prog mint accs = Some c.
Proof.
  unfold shipped_pool. intros [(-> & ->)|(Hne & cfg & Hc & Hq)]; [now rewrite Z.eqb_refl|].
  destruct (Z.eqb_spec prog (dp_wsol dp)); [contradiction|]. rewrite Hc. exact (q_pool _ _ _ _ Hq).
Qed.
Lemma accepts_answer R dp pw prog mint accs ix other v : shipped_calc dp prog ->
  (exists x, ix = LstToSol x \/ ix = SolToLst x) -> calc_answer R dp pw other prog mint accs ix = Ok v ->
  exists c, accepts dp pw prog mint accs c.
Proof.
  intros Hs (x & Hx) H. unfold calc_answer in H. unfold accepts.
  destruct (Z.eqb_spec prog (dp_wsol dp)) as [->|Hne]; [eauto|].
  destruct (calc_cfg dp prog) as [cfg|] eqn:Hc; [|destruct Hs; congruence].
  apply bind_ok in H as ((pw' & q) & H & Hr).
  assert (exists c, verify_lst_sol_common cfg pw (cpi_ro mint :: accs) = Ok c) as (c & Hq).
  { destruct Hx as [-> | ->]; cbn [calc_process] in H; apply bind_ok in H as (c & Hq & _); eauto. }
  apply verify_common_iff in Hq. exists c. right. split; [exact Hne|]. eauto.
Qed.
(** The pool the calculator answers from is the one accepted. *)
Lemma valued_accepts R dp pw other w prog mint accs x v c : shipped_calc dp prog ->
  valued (deployed_env R dp pw other) w prog mint accs x v ->
  shipped_pool dp pw prog mint accs = Some c -> accepts dp pw prog mint accs c.
Proof.
  intros Hs (hi & Hv) Hp. cbn [e_lst_to_sol deployed_env] in Hv.
  destruct (accepts_answer R dp pw prog mint accs _ _ _ Hs (ex_intro _ x (or_introl eq_refl)) Hv) as (c' & Ha).
  pose proof (accepts_pool _ _ _ _ _ _ Ha). congruence.
Qed.
Lemma shipped_truthful R dp pw other cs w : pools_typed pw -> shipped_listing dp pw cs w ->
  truthful (deployed_env R dp pw other) (pool_val cs) w.
Proof.
  intros Ht Hs l ls w0 accs Hl Hin x v Hv. destruct (Hs l ls Hl Hin) as (Hc & Hp). pose proof Hv as (hi & Hv').
  destruct (deployed_value R dp pw other Ht _ _ _ _ _ _ _ Hc Hv') as (c & Hpc & _ & _ & -> & _).
  apply (valued_accepts R _ _ _ _ _ _ _ _ _ _ Hc Hv), Hp in Hpc. now subst c.
Qed.

(** A redemption changes the total by the change in worth of the reserves. *)
Lemma remove_total D E V w C accs a w' w1 : derive_ok D -> reachable D w ->
  process D E C w accs (RemoveLiquidity a) = Ok w' -> truthful E V w' ->
  revalued E w (rl_lst_index a) (lq_reserves accs) (group_prog (group accs 11 (rl_lst_value_calc_accs a))) (lq_mint accs)
      (group_accs (group accs 11 (rl_lst_value_calc_accs a))) w1 ->
  total w1 = total w - recorded w (rl_lst_index a) + V (lq_mint accs) (balance w (lq_reserves accs)) /\
  total w' = total w1 - V (lq_mint accs) (balance w (lq_reserves accs)) + V (lq_mint accs) (balance w' (lq_reserves accs)) /\
  supply w' (lq_lp_mint accs) = supply w (lq_lp_mint accs) - rl_lp_token_amount a /\
  rl_lp_token_amount a <= supply w (lq_lp_mint accs).
Proof.
  intros HD Hre H Hh R0. pose proof (reachable_inv D HD _ Hre) as Hi.
  destruct (remove_listed _ _ _ _ _ _ _ H) as (l' & ls & Hl' & Hin & Em & Ec).
  pose proof (fun wx ac => Hh l' ls wx ac Hl' Hin) as Hsp. rewrite Em, Ec in Hsp.
  pose proof (process_wf _ _ _ _ _ _ _ H) as Hwf. wf Hwf.
  apply remove_run in H; [|exact (proj1 Hi)]. cbv zeta in H.
  set (g := group accs 11 (rl_lst_value_calc_accs a)) in *.
  destruct H as (w1x & sol & after & tu & hi & fee & HF & Hrest).
  assert (Hle : rl_lp_token_amount a <= supply w (lq_lp_mint accs)) by tauto. clear Hrest.
  destruct HF as (w2 & R1 & Hctl & HS' & _ & R2). fold g in R1, R2.
  rewrite (revalued_total _ _ _ _ _ _ _ _ _ R0 R1).
  pose proof (revalued_supply _ _ _ _ _ _ _ _ R1) as (S1 & B1). pose proof (revalued_supply _ _ _ _ _ _ _ _ R2) as (S2 & B2).
  apply same_ctl_figures in Hctl as (Hct' & Hcr).
  apply revalued_figures in R1 as (v & V1 & E1 & T1 & O1 & _), R2 as (v' & V2 & E2 & T2 & O2 & _); try lia.
  rewrite <- B2 in V2. rewrite Hct', Hcr, E1 in T2.
  apply Hsp in V1, V2. subst v v'. csplit; auto; try lia.
  rewrite S2, HS', S1, on_same. reflexivity.
Qed.

Lemma shipped_priced D R dp pw other cs C w accs ix w' z :
  derive_ok D -> reachable D w -> pdas_do_not_sign accs -> pools_typed pw -> pools_sound cs ->
  process D (deployed_env R dp pw other) C w accs ix = Ok w' ->
  shipped_listing dp pw cs w' -> shipped_deposit dp accs ix -> 0 <= z -> shipped_rounding cs w accs ix w' z ->
  priced_within (deployed_env R dp pw other) w accs ix w' z.
Proof.
  intros HD Hre Hn Ht Hcs H Hl Hd Hz Hr. destruct ix; try exact I.
  - destruct (add_listed _ _ _ _ _ _ _ H) as (l' & ls & Hl' & Hin & Em & Ec). destruct (Hl l' ls Hl' Hin) as (Hc & Hp).
    rewrite Em, Ec in *.
    destruct (C06_shipped D HD R dp pw other C w accs a w' Hre Hn Ht Hc Hd H) as (w1 & c & R1 & Hpc & Hrest). cbv zeta in Hrest.
    assert (Hf : 0 < supply w (lq_lp_mint accs) -> total w' * supply w (lq_lp_mint accs) >=
      total w1 * supply w' (lq_lp_mint accs) - merge_loss c * supply w (lq_lp_mint accs)) by tauto. clear Hrest.
    pose proof R1 as (vv & hh & psx & lx & lsx & _ & Hvv & _).
    apply (valued_accepts R _ _ other _ _ _ _ _ _ _ Hc (ex_intro _ hh Hvv)), Hp in Hpc. subst c. intros w1x R1x HS. rewrite (revalued_total _ _ _ _ _ _ _ _ _ R1x R1).
    specialize (Hf HS). cbn [shipped_rounding] in Hr.
    assert (merge_loss (cs (lq_mint accs)) * supply w (lq_lp_mint accs) <= z * supply w (lq_lp_mint accs)) by (apply Z.mul_le_mono_nonneg_r; lia).
    lia.
  - intros w1 R1 HS.
    destruct (remove_total D _ (pool_val cs) w C accs a w' w1 HD Hre H (shipped_truthful _ _ _ _ _ _ Ht Hl) R1) as (T1 & T2 & HS' & Hle).
    cbn [shipped_rounding] in Hr. unfold credited_share, pool_val in *. rewrite <- T1 in Hr.
    destruct (Hcs (lq_mint accs)) as (Hty & Hfe).
    pose proof (worth_sub (cs (lq_mint accs)) (balance w' (lq_reserves accs)) (balance w (lq_reserves accs) - balance w' (lq_reserves accs)) Hty Hfe) as Hsub.
    replace (balance w' (lq_reserves accs) + (balance w (lq_reserves accs) - balance w' (lq_reserves accs))) with (balance w (lq_reserves accs)) in Hsub by ring.
    rewrite HS'. set (S := supply w (lq_lp_mint accs)) in *. set (sol := rl_lp_token_amount a * total w1 / S) in *.
    assert (Hsh' : sol * S <= rl_lp_token_amount a * total w1) by (unfold sol; rewrite Z.mul_comm; apply Z.mul_div_le; exact HS).
    assert (Hd2 : total w1 - sol - z <= total w') by lia.
    assert (Hm : (total w1 - sol - z) * S <= total w' * S) by (apply Z.mul_le_mono_nonneg_r; clear -HS Hd2; lia).
    clear -Hm Hsh'. lia.
Qed.

Lemma shipped_gen D R dp M cs0 w0 z cs w : derive_ok D -> reachable D w0 -> covered D (pool_val cs0) w0 ->
  shipped_history D R dp M cs0 w0 z cs w -> pools_sound cs /\ gen_history D M (pool_val cs0) w0 z (pool_val cs) w.
Proof.
  intros HD H0 Hc0 H. induction H as [Hok HM|z cs w z' w' H (I1 & IH) Hs HM|z cs w cs' H (I1 & IH) Hr Hok].
  - split; auto. apply gen_start; auto. now apply pool_val_ok.
  - split; auto. destruct (gen_end D HD M _ _ _ _ _ H0 Hc0 IH) as (_ & I2 & _).
    eapply gen_go; [exact IH| |exact HM].
    destruct Hs as [Hx ->|pw other C accs ix Hn Ht Hp Hl Hd Hz Hrw]; [now apply gen_external|].
    eapply gen_call; eauto; [now apply shipped_truthful|]. eapply shipped_priced; eauto.
  - split; auto. eapply gen_accrue; [exact IH| |now apply pool_val_ok]. intros m x Hx. now apply Hr.
Qed.

(** With the shipped calculators, whatever their stake pools charge (fees included): recorded values stay backed. *)
Theorem C44_shipped_backed D R dp M cs0 g z cs w l ls k :
  derive_ok D -> genesis D g -> shipped_history D R dp M cs0 g z cs w ->
  the_list w = Some l -> In ls l -> reserves_at D w ls k ->
  sol_value ls <= worth (cs (ls_mint ls)) (balance w k).
Proof.
  intros HD Hg H Hl Hin Hk. pose proof (genesis_covered D (pool_val cs0) g Hg) as Hc.
  destruct (shipped_gen D R dp M cs0 g z cs w HD (reach_genesis _ _ Hg) Hc H) as (_ & HG).
  destruct (gen_end D HD M _ _ _ _ _ (reach_genesis _ _ Hg) Hc HG) as (_ & _ & Hcov & _). exact (Hcov l ls k Hl Hin Hk).
Qed.
(** And the value behind each LP token falls by at most z/M in total, [z] counting one lamport for each deposit
    of Marinade's LST, and for each redemption what was paid out beyond the credited share and [split_loss]. *)
Theorem C44_shipped_value D R dp M cs00 g z0 cs0 w0 z cs w :
  derive_ok D -> genesis D g -> shipped_history D R dp 0 cs00 g z0 cs0 w0 ->
  0 < M -> shipped_history D R dp M cs0 w0 z cs w ->
  (backing w * M + z * lp_supply w) * lp_supply w0 >= backing w0 * M * lp_supply w.
Proof.
  intros HD Hg H0 HM H. pose proof (genesis_covered D (pool_val cs00) g Hg) as Hc.
  destruct (shipped_gen D R dp 0 cs00 g z0 cs0 w0 HD (reach_genesis _ _ Hg) Hc H0) as (_ & HG).
  destruct (gen_end D HD 0 _ _ _ _ _ (reach_genesis _ _ Hg) Hc HG) as (_ & Hr & Hc0 & _).
  destruct (shipped_gen D R dp M cs0 w0 z cs w HD Hr Hc0 H) as (_ & HG2). eapply gen_value; eauto.
Qed.

(** ** How much one redemption can count for with the shipped programs *)
Lemma up_above a b : 0 < b -> a <= up a b * b.
Proof. intros Hb. unfold up. pose proof (Z.mul_div_le (- a) b Hb). lia. Qed.
(** Each live calculator works at a rate n/d, to within [e] lamports one way and [u] the other. *)
Lemma near_rate c : calc_typed c -> fee_ok c -> calc_live c -> exists n d e u,
  0 < n /\ 0 < d /\ 1 <= e /\ 0 <= u /\ 0 < token_price c /\ e - 1 <= token_price c /\
  u + split_loss c <= token_price c + 2 /\ n <= token_price c * d /\
  (forall x, x * n < (worth c x + e) * d) /\ (forall x, worth c x * d <= x * n + u * d).
Proof.
  destruct c as [|p|p|p]; unfold calc_typed, fee_ok, calc_live, U64; cbn [worth split_loss token_price]; intros Ht Hf Hl.
  - exists 1, 1, 1, 0. repeat split; intros; lia.
  - set (L := sp_total_lamports p) in *. set (T := sp_pool_token_supply p) in *.
    destruct Hl as (HL & HT & Hfe). pose proof (up_above L T HT) as Hu. pose proof (up_pos L T HL HT) as Hup. set (P := up L T) in *.
    assert (Hsh : forall y, share y L T * T <= y * L < (share y L T + 1) * T).
    { intros y. unfold share, down. destruct (Z.eqb_spec L 0), (Z.eqb_spec T 0); cbn [orb];
        pose proof (Z.mul_div_le (y * L) T HT); pose proof (Z.mul_succ_div_gt (y * L) T HT); lia. }
    destruct (Z.eqb_spec (sp_fee_num p) 0) as [E0|N0].
    + exists L, T, 1, 0. repeat split; try lia; intros x; rewrite !spl_fee_rest by lia;
        (assert (spl_rest p x = x) as -> ;
          [unfold spl_rest; destruct (Z.eqb_spec (sp_fee_denom p) 0); auto; rewrite E0, Z.sub_0_r; apply Z.div_mul; auto|]);
        specialize (Hsh x); lia.
    + set (f := sp_fee_num p) in *. set (gd := sp_fee_denom p) in *. assert (Hfg : 0 < f < gd) by lia. clear Hfe.
      assert (Hr : forall x, spl_rest p x * gd <= x * (gd - f) < (spl_rest p x + 1) * gd).
      { intros x. unfold spl_rest. fold f gd. destruct (Z.eqb_spec gd 0); [lia|].
        pose proof (Z.mul_div_le (x * (gd - f)) gd). pose proof (Z.mul_succ_div_gt (x * (gd - f)) gd). lia. }
      assert (Hw : forall x, x - spl_fee p x = spl_rest p x) by (intros x; apply spl_fee_rest; fold gd; lia).
      exists ((gd - f) * L), (gd * T), (1 + P), 0. clearbody P L T f gd. clear Ht Hf.
      split; [apply Z.mul_pos_pos; lia|]. split; [apply Z.mul_pos_pos; lia|].
      split; [lia|]. split; [lia|]. split; [lia|]. split; [lia|]. split; [lia|].
      split. { assert ((gd - f) * L <= gd * L) by (apply Z.mul_le_mono_nonneg_r; lia).
               assert (gd * L <= gd * (P * T)) by (apply Z.mul_le_mono_nonneg_l; lia). lia. }
      split; intros x; rewrite (Hw x); specialize (Hr x); specialize (Hsh (spl_rest p x)); set (s := share (spl_rest p x) L T) in *;
        set (r := spl_rest p x) in *; clearbody s r; clear Hw.
      * assert (Q1 : x * (gd - f) * L < (r + 1) * gd * L) by (apply Z.mul_lt_mono_pos_r; lia).
        assert (Q2 : gd * (r * L) <= gd * ((s + 1) * T)) by (apply Z.mul_le_mono_nonneg_l; lia).
        assert (Q3 : gd * L <= gd * (P * T)) by (apply Z.mul_le_mono_nonneg_l; lia). lia.
      * assert (Q1 : r * gd * L <= x * (gd - f) * L) by (apply Z.mul_le_mono_nonneg_r; lia).
        assert (Q2 : gd * (s * T) <= gd * (r * L)) by (apply Z.mul_le_mono_nonneg_l; lia). lia.
  - set (L := li_sol_balance p) in *. set (T := li_st_sol_supply p) in *. destruct Hl as (HL & HT).
    pose proof (up_above L T HT) as Hu. pose proof (up_pos L T HL HT) as Hup. exists L, T, 1, 0.
    repeat split; try lia; intros x; unfold share, down; destruct (Z.eqb_spec L 0), (Z.eqb_spec T 0); cbn [orb]; try lia;
      pose proof (Z.mul_div_le (x * L) T HT); pose proof (Z.mul_succ_div_gt (x * L) T HT); lia.
  - set (L := marinade_total p) in *. set (T := ma_msol_supply p) in *. destruct Hl as (HL & HT & Hc).
    set (f := ma_fee_cents p) in *. assert (Hf0 : 0 <= f < 1000000) by lia.
    pose proof (up_above L T HT) as Hu. pose proof (up_pos L T HL HT) as Hup. set (P := up L T) in *.
    assert (Hsh : forall y, share y L T * T <= y * L < (share y L T + 1) * T).
    { intros y. unfold share, down. destruct (Z.eqb_spec L 0), (Z.eqb_spec T 0); cbn [orb];
        pose proof (Z.mul_div_le (y * L) T HT); pose proof (Z.mul_succ_div_gt (y * L) T HT); lia. }
    assert (Hdn : forall s, let v := s - down (s * f) 1000000 in s * (1000000 - f) <= v * 1000000 < s * (1000000 - f) + 1000000).
    { intros s v. unfold v, down. pose proof (Z.mul_div_le (s * f) 1000000). pose proof (Z.mul_succ_div_gt (s * f) 1000000). lia. }
    exists (L * (1000000 - f)), (T * 1000000), 1, 1. clearbody L T P f. clear Ht Hf Hc.
    split; [apply Z.mul_pos_pos; lia|]. split; [lia|]. split; [lia|]. split; [lia|]. split; [lia|]. split; [lia|]. split; [lia|].
    split. { assert (L * (1000000 - f) <= L * 1000000) by (apply Z.mul_le_mono_nonneg_l; lia).
             assert (L * 1000000 <= P * T * 1000000) by (apply Z.mul_le_mono_nonneg_r; lia). lia. }
    split; intros x; specialize (Hsh x); cbv zeta; set (s := share x L T) in *; specialize (Hdn s); cbv zeta in Hdn;
      set (v := s - down (s * f) 1000000) in *; clearbody s v.
    + assert (Q1 : x * L * (1000000 - f) < (s + 1) * T * (1000000 - f)) by (apply Z.mul_lt_mono_pos_r; lia).
      assert (Q2 : T * (s * (1000000 - f)) <= T * (v * 1000000)) by (apply Z.mul_le_mono_nonneg_l; lia).
      assert (Q3 : 0 <= T * f) by (apply Z.mul_nonneg_nonneg; lia). lia.
    + assert (Q1 : s * T * (1000000 - f) <= x * L * (1000000 - f)) by (apply Z.mul_le_mono_nonneg_r; lia).
      assert (Q2 : T * (v * 1000000) <= T * (s * (1000000 - f) + 1000000)) by (apply Z.mul_le_mono_nonneg_l; lia). lia.
Qed.

(** With the shipped programs, if the withdrawal fee leaves the user at least 1/k of the credited share, then
    2k+1 times the price of one token, and two lamports, cover the rounding of a redemption. *)
Theorem C44_shipped_rounding D R dp pw other cs C w accs a w' k :
  derive_ok D -> ratio_lib_ok R -> reachable D w -> pdas_do_not_sign accs -> pools_typed pw ->
  flat_derive_ok (dp_flat dp) -> flat_reachable R (dp_flat dp) pw ->
  shipped_listing dp pw cs w' ->
  let gp := skipn (11 + Z.to_nat (rl_lst_value_calc_accs a)) accs in
  let sol := credited_share cs w (rl_lst_index a) (lq_mint accs) (lq_reserves accs) (lq_lp_mint accs) (rl_lp_token_amount a) in
  shipped_pricing dp (group_prog gp) -> 0 < k -> sol <= k * (sol - redeem_fee dp pw (group_prog gp) sol) ->
  process D (deployed_env R dp pw other) C w accs (RemoveLiquidity a) = Ok w' ->
  shipped_rounding cs w accs (RemoveLiquidity a) w' ((2 * k + 1) * token_price (cs (lq_mint accs)) + 2).
Proof.
  intros HD HR Hre Hn Ht HFd HFr Hl gp sol Hsp Hk Hks H. pose proof (reachable_inv D HD _ Hre) as Hi.
  pose proof (proj1 (reachable_ata D HD _ Hre)) as Ha.
  destruct (remove_listed _ _ _ _ _ _ _ H) as (l' & ls & Hl' & Hin & Em & Ec).
  destruct (Hl l' ls Hl' Hin) as (Hsc & Hpool). rewrite Em, Ec in *.
  destruct (remove_parties D _ _ _ _ _ _ H) as (l & lsx & t & _ & _ & HQ & US & USo & USs).
  pose proof H as Hrun. pose proof (fun w1 => remove_total D (deployed_env R dp pw other) (pool_val cs) w C accs a w' w1 HD Hre H
    (shipped_truthful _ _ _ _ _ _ Ht Hl)) as Htot.
  apply remove_run in H; [|exact (proj1 Hi)]. cbv zeta in H. fold gp in H.
  set (g := group accs 11 (rl_lst_value_calc_accs a)) in *.
  destruct H as (w1 & sol' & after & tu & hi & fee & HF & Hlp & I1 & I2 & Hc & U1 & U2 & Haf & Htu & _ & Hfee &
    Hlp0 & Hbps & Hbe & Ut & Us & Hse & Hls & _).
  assert (Htu0 : 0 <= tu) by (clear -Htu; lia).
  pose proof (remove_reserves _ _ _ _ _ _ _ _ _ _ _ _ _ Ha Hn HQ US USo USs Htu0 HF) as HRs.
  pose proof HF as (w2 & R1 & _). fold g in R1. destruct (Htot w1 R1) as (T1 & _ & _ & _).
  assert (sol' = sol).
  { unfold sol, credited_share. unfold pool_val in T1. rewrite <- T1. rewrite Hse in Hlp, Us. revert Hlp. unfold calc_lp_tokens_sol_value.
    destruct (Z.eqb_spec (total w1) 0) as [->|]; cbn [orb].
    + intros [= <-]. rewrite Z.mul_0_r, Zdiv_0_l. reflexivity.
    + destruct (Z.eqb_spec (supply w (lq_lp_mint accs)) 0); [clear -Hlp0 Hls e; lia|]. apply floor_apply_eq. }
  subst sol'. apply deployed_redeem_price in I1; auto. rewrite <- I1 in Hks.
  apply remove_fee_eq in Hc as (_ & Hfe); [|clear -Hbps Haf U1 U2; unfold U64 in *; lia].
  assert (exists c, shipped_pool dp pw (group_prog g) (lq_mint accs) (group_accs g) = Some c /\ accepts dp pw (group_prog g) (lq_mint accs) (group_accs g) c /\ calc_typed c /\ fee_ok c)
    as (c & Hp & Hacc & Hct & Hfo).
  { pose proof (process_wf _ _ _ _ _ _ _ Hrun) as Hwf. wf Hwf.
    apply revalued_figures in R1 as (v & V1 & _); [|lia]. pose proof V1 as (hx & V1').
    apply deployed_value in V1' as (c & Hp & Hct & Hans & _); auto. exists c. split; [exact Hp|].
    split; [exact (valued_accepts R _ _ _ _ _ _ _ _ _ _ Hsc V1 Hp)|]. split; [exact Hct|]. exact (answers_fee _ _ Hans). }
  pose proof (Hpool _ _ Hacc) as Hcs. cbn [shipped_rounding]. rewrite <- Hcs. fold sol.
  assert (Hmono : worth c (balance w (lq_reserves accs) - balance w' (lq_reserves accs)) <= worth c (tu + fee))
    by (apply worth_mono; auto; clear -HRs; lia).
  set (paid := worth c (balance w (lq_reserves accs) - balance w' (lq_reserves accs))) in *. clearbody paid.
  assert (HPl : 0 <= token_price c /\ split_loss c <= token_price c + 1).
  { clear -Hct. assert (Hu : forall x y, 0 <= x -> 0 <= y -> 0 <= up x y).
    { intros x y Hx Hy. destruct (Z.eq_dec y 0) as [->|]; [|apply up_nonneg; lia]. unfold up. now rewrite Zdiv_0_r. }
    destruct c as [|p|p|p]; unfold calc_typed, U64 in Hct; cbn [token_price split_loss].
    - lia.
    - pose proof (Hu (sp_total_lamports p) (sp_pool_token_supply p)). destruct (_ =? 0); lia.
    - pose proof (Hu (li_sol_balance p) (li_st_sol_supply p)). lia.
    - pose proof (marinade_total_nonneg p). pose proof (Hu (marinade_total p) (ma_msol_supply p)). lia. }
  assert (HkP : 0 <= k * token_price c) by (apply Z.mul_nonneg_nonneg; clear -Hk HPl; lia).
  unfold U64 in U1, U2. destruct (Z.lt_ge_cases 0 (worth c (tu + fee))) as [Hpos|Hneg]; [|clear -Hneg Hmono HPl HkP U1; lia].
  pose proof (worth_pos_live c _ Hct Hfo Hpos) as Hlive.
  destruct (deployed_reverse R dp pw other Ht _ _ _ _ _ _ _ _ HR Hsc U2 Hp Hlive I2) as (_ & Hlo).
  assert (Hwt : worth c (tu - 1) < after).
  { destruct (Z.lt_ge_cases (worth c (tu - 1)) after) as [?|Hge]; auto.
    specialize (Hlo (tu - 1) ltac:(clear -Htu; lia) Hge). clear -Hlo. lia. }
  assert (Haf0 : 0 < after).
  { pose proof (worth_nonneg c (tu - 1) Hct Hfo ltac:(clear -Htu; lia)) as Q. clear -Q Hwt. lia. }
  assert (Hsh : bps_share (lp_fee_bps w1) (sol - after) <= sol - after).
  { unfold bps_share. apply Z.lt_succ_r, Z.div_lt_upper_bound; [lia|]. clear -Hbps Haf. nia. }
  assert (Hfa : fee * after <= (sol - after) * tu).
  { etransitivity; [|apply Z.mul_le_mono_nonneg_r; [clear -Htu; lia|exact Hsh]]. rewrite Hfe, Z.mul_comm. apply Z.mul_div_le. exact Haf0. }
  destruct (near_rate c Hct Hfo Hlive) as (n & d & e & u & Hn0 & Hd0 & He & Hu0 & HP & HeP & HuP & HnP & Hlow & Hhigh).
  pose proof (Hlow (tu - 1)) as Q1. pose proof (Hhigh (tu + fee)) as Q2. clear Hlow Hhigh.
  set (P := token_price c) in *. set (v := worth c (tu + fee)) in *. set (v0 := worth c (tu - 1)) in *. set (sl := split_loss c) in *.
  clearbody P v v0 sl sol. clear -Hmono HkP Hk Hks Haf0 Haf Hfa Htu Hn0 Hd0 He Hu0 HP HeP HuP HnP Q1 Q2 Hwt.
  assert (Q3 : (v0 + e) * d <= (after - 1 + e) * d) by (apply Z.mul_le_mono_nonneg_r; lia).
  assert (Q4 : tu * n <= (after + 2 * P) * d).
  { assert ((e - 1) * d <= P * d) by (apply Z.mul_le_mono_nonneg_r; lia). lia. }
  assert (Q5 : (tu + fee) * after * n <= tu * sol * n) by (apply Z.mul_le_mono_nonneg_r; lia).
  assert (Q6 : sol * (tu * n) <= sol * ((after + 2 * P) * d)) by (apply Z.mul_le_mono_nonneg_l; lia).
  assert (Q7 : sol * (2 * P * d) <= (k * after) * (2 * P * d)).
  { apply Z.mul_le_mono_nonneg_r; auto. apply Z.mul_nonneg_nonneg; lia. }
  assert (Q8 : v * d * after <= ((tu + fee) * n + u * d) * after) by (apply Z.mul_le_mono_nonneg_r; lia).
  assert (Q9 : v * (d * after) <= (sol + 2 * k * P + u) * (d * after)) by lia.
  apply Z.mul_le_mono_pos_r in Q9; [|apply Z.mul_pos_pos; lia]. lia.
Qed.

(** ** The calculators that charge nothing are honest *)
(** Every listed LST is valued by a shipped calculator that charges nothing (wSOL, Lido, SPL stake pools without
    withdrawal fee), and its stake pool's rate is [r]. *)
Definition shipped_rates (dp : Deploy) (pw : PWorld) (r : rates) (w : World) : Prop :=
  forall l ls, the_list w = Some l -> In ls l ->
    shipped_calc dp (sol_value_calculator ls) /\
    forall accs c, accepts dp pw (sol_value_calculator ls) (ls_mint ls) accs c ->
      floor_rate c = Some (r (ls_mint ls)).
(** Such calculators are honest. *)
Theorem C44_shipped_honest R dp pw other r w :
  ratio_lib_ok R -> pools_typed pw -> rates_ok r -> shipped_rates dp pw r w ->
  honest (deployed_env R dp pw other) r w.
Proof.
  intros HR Ht Hr Hs l ls w0 accs Hl Hin. destruct (Hs l ls Hl Hin) as (Hc & Hp). destruct (Hr (ls_mint ls)) as (Hn & Hd). split.
  - intros x v Hv. pose proof Hv as (hi & Hv').
    destruct (deployed_value R dp pw other Ht _ _ _ _ _ _ _ Hc Hv') as (c & Hpc & _ & _ & -> & _).
    apply (valued_accepts R _ _ _ _ _ _ _ _ _ _ Hc Hv), Hp in Hpc. rewrite (surjective_pairing (r (ls_mint ls))) in Hpc. apply (floor_worth c _ _ x Hpc Hn Hd).
  - intros s lo hi Hu Hv.
    pose proof Hv as Hv'. cbn [e_sol_to_lst deployed_env] in Hv'.
    destruct (accepts_answer R dp pw _ _ _ _ _ _ Hc (ex_intro _ s (or_intror eq_refl)) Hv') as (c & Hac). clear Hv'.
    pose proof (accepts_pool _ _ _ _ _ _ Hac) as Hpc.
    pose proof (Hp _ _ Hac) as Hf. rewrite (surjective_pairing (r (ls_mint ls))) in Hf.
    destruct (deployed_reverse R dp pw other Ht _ _ _ _ _ _ _ _ HR Hc Hu Hpc (floor_live _ _ _ Hf Hn Hd) Hv) as (Hlo & Hmin).
    set (n := fst (r (ls_mint ls))) in *. set (d := snd (r (ls_mint ls))) in *. unfold U64 in Hlo.
    destruct (Z.eq_dec lo 0) as [->|Hne]; [nia|].
    destruct (Z.lt_ge_cases (worth c (lo - 1)) s) as [Hlt|Hge]; [|specialize (Hmin (lo - 1) ltac:(lia) Hge); lia].
    pose proof (floor_worth_bounds c n d (lo - 1) Hf Hn Hd). nia.
Qed.

(** ** A history these theorems apply to *)
(** Two LSTs, at 1 and 2 lamports a token; the example history of Concrete.v up to the end of its rebalance,
    then the second LST's rate rises by half and is recorded. *)
Definition r_ex : rates := fun m => if m =? MB then (2, 1) else (1, 1).
Definition r_up : rates := fun m => if m =? MB then (3, 1) else (1, 1).
Definition E_up : Env := {|
  e_lst_to_sol := fun _ c _ _ x =>
    if c =? CA then Ok (x, x) else if c =? CB then Ok (3 * x, 3 * x) else Err ExternalErr;
  e_sol_to_lst := fun _ c _ _ s =>
    if c =? CA then Ok (s, s) else if c =? CB then Ok (s / 3, (s + 2) / 3) else Err ExternalErr;
  e_price_exact_in := e_price_exact_in E0; e_price_exact_out := e_price_exact_out E0;
  e_price_lp_to_mint := e_price_lp_to_mint E0; e_price_lp_to_redeem := e_price_lp_to_redeem E0 |}.
Definition R_up := process D0 E_up C0 W11 sync_accs (SyncSolValue 1).
Definition W_up := get R_up.

Definition listsb (w : World) : bool :=
  match the_list w with
  | Some l => forallb (fun ls => ((sol_value_calculator ls =? CA) && (ls_mint ls =? MA)) ||
                                 ((sol_value_calculator ls =? CB) && (ls_mint ls =? MB))) l
  | None => false end.
Lemma honest_ex w : listsb w = true -> honest E0 r_ex w /\ honest E_up r_up w.
Proof.
  unfold listsb. intros H. split; intros l ls w0 accs Hl Hin; rewrite Hl in H; rewrite forallb_forall in H; specialize (H _ Hin);
    apply orb_prop in H as [H|H]; apply andb_prop in H as (H1 & H2); apply Z.eqb_eq in H1, H2; rewrite H1, H2;
    unfold valued, worth_at, E0, E_up, r_ex, r_up, CA, CB, MA, MB; cbn -[Z.mul Z.div Z.add Z.sub]; split.
  1,5: intros x v (hi & He); assert (v = x) by congruence; subst v; rewrite Z.mul_1_r, Z.div_1_r; reflexivity.
  1,4: intros s lo hi _ He; assert (lo = s) by congruence; subst lo; lia.
  - intros x v (hi & He). assert (v = 2 * x) by congruence. subst v. rewrite Z.div_1_r. lia.
  - intros s lo hi _ He. assert (lo = s / 2) by congruence. subst lo. pose proof (Z.mul_div_le s 2). lia.
  - intros x v (hi & He). assert (v = 3 * x) by congruence. subst v. rewrite Z.div_1_r. lia.
  - intros s lo hi _ He. assert (lo = s / 3) by congruence. subst lo. pose proof (Z.mul_div_le s 3). lia.
Qed.
Lemma rates_ex : rates_ok r_ex /\ rates_ok r_up /\ rates_rise r_ex r_up.
Proof.
  split; [|split]; intros m; unfold r_ex, r_up; destruct (m =? MB); cbn; lia.
Qed.
Lemma go_ex M r0 w0 r z w E C accs ix : fair_history D0 M r0 w0 z r w ->
  okb (process D0 E C w accs ix) = true -> pdas_do_not_signb accs = true ->
  listsb (get (process D0 E C w accs ix)) = true ->
  (listsb (get (process D0 E C w accs ix)) = true -> honest E r (get (process D0 E C w accs ix))) ->
  (M <=? lp_supply (get (process D0 E C w accs ix))) = true ->
  redeemed_within E r w accs ix 0 ->
  fair_history D0 M r0 w0 z r (get (process D0 E C w accs ix)).
Proof.
  intros H Ho Hs Hl Hh HM Hrw. rewrite <- (Z.add_0_r z). eapply fair_go; [exact H| |now apply Z.leb_le].
  eapply fair_call; [apply pdas_do_not_signb_ok, Hs|apply okb_get, Ho|apply Hh, Hl|lia|exact Hrw].
Qed.
Lemma redeem_ex : redeemed_within E0 r_ex W7 (liq_accs MB UB FB SPL_TOKEN_2022_ID RB CB) (RemoveLiquidity rem_args) 0.
Proof.
  intros w1 after. cbv zeta.
  intros (v & hi & ps & l & ls & _ & Hv & Hp & Hl & Hn & Hp' & _) Hpr.
  assert (Ht : total w1 = 1998146).
  { unfold total. rewrite Hp'. cbn [total_sol_value set_total].
    assert (Q : option_map total_sol_value (the_pool W7) = Some 1998146) by (vm_compute; reflexivity).
    assert (Q2 : option_map (fun l => option_map sol_value (nth_error l 1)) (the_list W7) = Some (Some 983082)) by (vm_compute; reflexivity).
    rewrite Hp in Q. rewrite Hl in Q2. cbn [option_map] in Q, Q2.
    replace (Z.to_nat (rl_lst_index rem_args)) with 1%nat in Hn by reflexivity. rewrite Hn in Q2. cbn [option_map] in Q2.
    assert (total_sol_value ps = 1998146) by congruence. assert (sol_value ls = 983082) by congruence.
    assert (v = 983082).
    { assert (Qb : balance W7 (lq_reserves (liq_accs MB UB FB SPL_TOKEN_2022_ID RB CB)) = 491541) by (vm_compute; reflexivity).
      rewrite Qb in Hv.
      assert (Qc : group_prog (group (liq_accs MB UB FB SPL_TOKEN_2022_ID RB CB) 11 (rl_lst_value_calc_accs rem_args)) = CB) by (vm_compute; reflexivity).
      rewrite Qc in Hv. assert (Qv : forall m a, e_lst_to_sol E0 W7 CB m a 491541 = Ok (983082, 983082)) by reflexivity.
      rewrite Qv in Hv. congruence. }
    lia. }
  rewrite Ht in *.
  assert (Qs : supply W7 (lq_lp_mint (liq_accs MB UB FB SPL_TOKEN_2022_ID RB CB)) = 1971081) by (vm_compute; reflexivity).
  assert (Qf : lp_fee_bps W7 = 1000) by (vm_compute; reflexivity).
  rewrite Qs in *. rewrite Qf.
  assert (Qp : group_prog (skipn (11 + Z.to_nat (rl_lst_value_calc_accs rem_args)) (liq_accs MB UB FB SPL_TOKEN_2022_ID RB CB)) = PP) by (vm_compute; reflexivity).
  rewrite Qp in Hpr. assert (Qv : forall m a, e_price_lp_to_redeem E0 w1 PP m a (rl_lp_token_amount rem_args) (rl_lp_token_amount rem_args * 1998146 / 1971081) = Ok 100359) by reflexivity.
  rewrite Qv in Hpr. assert (after = 100359) as -> by congruence.
  vm_compute. discriminate.
Qed.

Example C44_case :
  fair_history D0 0 r_ex W0 0 r_ex W4 /\ fair_history D0 990000 r_ex W4 0 r_up W_up /\
  (total W4, lp_supply W4) = (999000, 990000) /\ (total W_up, lp_supply W_up) = (2344000, 1871081) /\
  the_record W4 = None /\ the_record W_up = None /\
  backing W_up * lp_supply W4 >= backing W4 * lp_supply W_up.
Proof.
  destruct rates_ex as (K1 & K2 & K3).
  assert (H4 : fair_history D0 0 r_ex W0 0 r_ex W4).
  { unfold W4, R4. apply go_ex; [|vm_compute; reflexivity|vm_compute; reflexivity|vm_compute; reflexivity|apply honest_ex|vm_compute; reflexivity|exact I].
    unfold W3, R3. apply go_ex; [|vm_compute; reflexivity|vm_compute; reflexivity|vm_compute; reflexivity|apply honest_ex|vm_compute; reflexivity|exact I].
    unfold W2, R2. apply go_ex; [|vm_compute; reflexivity|vm_compute; reflexivity|vm_compute; reflexivity|apply honest_ex|vm_compute; reflexivity|exact I].
    unfold W1, R1. apply go_ex; [|vm_compute; reflexivity|vm_compute; reflexivity|vm_compute; reflexivity|apply honest_ex|vm_compute; reflexivity|exact I].
    apply fair_start; auto. vm_compute. discriminate. }
  assert (H11 : fair_history D0 990000 r_ex W4 0 r_ex W11).
  { unfold W11, R11. apply go_ex; [|vm_compute; reflexivity|vm_compute; reflexivity|vm_compute; reflexivity|apply honest_ex|vm_compute; reflexivity|exact I].
    replace 0 with (0 + 0) by reflexivity.
    eapply fair_go; [|apply fair_external; [|reflexivity]|vm_compute; discriminate].
    2:{ eapply (transfer_external D0 W9 SPL_TOKEN_2022_ID UB RB MB USER true 5000); [| |lia| |].
        - apply base_u64. exact (proj1 (reachable_inv D0 D0_ok _ W9_reach)).
        - exact (proj1 (reachable_ata D0 D0_ok _ W9_reach)).
        - unfold USER. cbn. unfold POOL_STATE_ID, LST_STATE_LIST_ID, DISABLE_POOL_AUTHORITY_LIST_ID,
            REBALANCE_RECORD_ID, PROTOCOL_FEE_ID. intuition lia.
        - unfold W10, R10. apply okb_get. vm_compute. reflexivity. }
    unfold W9, R9. apply go_ex; [|vm_compute; reflexivity|vm_compute; reflexivity|vm_compute; reflexivity|apply honest_ex|vm_compute; reflexivity|exact I].
    unfold W8, R8. apply go_ex; [|vm_compute; reflexivity|vm_compute; reflexivity|vm_compute; reflexivity|apply honest_ex|vm_compute; reflexivity|exact redeem_ex].
    unfold W7, R7. apply go_ex; [|vm_compute; reflexivity|vm_compute; reflexivity|vm_compute; reflexivity|apply honest_ex|vm_compute; reflexivity|exact I].
    unfold W6, R6. apply go_ex; [|vm_compute; reflexivity|vm_compute; reflexivity|vm_compute; reflexivity|apply honest_ex|vm_compute; reflexivity|exact I].
    unfold W5, R5. apply go_ex; [|vm_compute; reflexivity|vm_compute; reflexivity|vm_compute; reflexivity|apply honest_ex|vm_compute; reflexivity|exact I].
    apply fair_start; auto. vm_compute. discriminate. }
  assert (Hup : fair_history D0 990000 r_ex W4 0 r_up W_up).
  { unfold W_up, R_up. apply go_ex; [|vm_compute; reflexivity|vm_compute; reflexivity|vm_compute; reflexivity|apply honest_ex|vm_compute; reflexivity|exact I].
    eapply fair_accrue; eauto. }
  split; [exact H4|]. split; [exact Hup|].
  split; [vm_compute; reflexivity|]. split; [vm_compute; reflexivity|]. split; [vm_compute; reflexivity|]. split; [vm_compute; reflexivity|].
  apply (C44_never_falls D0 990000 r_ex W0 0 r_ex W4 r_up W_up D0_ok W0_genesis H4 ltac:(reflexivity) Hup).
Qed.

(** ** The same with the shipped programs *)
(** From genesis: both LSTs are listed with SPL stake pools (the second charges 0.1%); deposits of both, a
    redemption of the second, priced by the flat-fee program; then the second pool earns rewards, which are recorded. *)
Definition accs_b : list Meta :=
  match swap_ix dp1 D0 client2 (params LP MB UL UB 10000 1) ExactIn with Ok t => ti_accs t | Err _ => [] end.
Definition pool_b2 : SplPool := mkSpl true MB 7 2100000 1000000 1 1000.
Definition pw2 : PWorld := put_acc pw1 524 (mkPAcc 520 (PSpl pool_b2)).
Definition env2 : Env := deployed_env ref_ratio_lib dp1 pw2 E0.
Definition cs1 : pools := fun m => if m =? MB then CSpl pool_b else CSpl pool_a.
Definition cs2 : pools := fun m => if m =? MB then CSpl pool_b2 else CSpl pool_a.
Definition sync_accs_b : list Meta :=
  [ro MB; rw POOL_STATE_ID; rw LST_STATE_LIST_ID; ro RB; ro CB; ro 522; ro 524; ro 520; ro 521].
Definition X1 := process D0 env1 C0 W0 Concrete.init_accs Initialize.
Definition X2 := process D0 env1 C0 (get X1) (add_accs MA RA FA CA SPL_TOKEN_ID) AddLst.
Definition X3 := process D0 env1 C0 (get X2) (add_accs MB RB FB CB SPL_TOKEN_2022_ID) AddLst.
Definition X4 := process D0 env1 C0 (get X3) accs1 (AddLiquidity (mkAddLiq 5 0 900000 1)).
Definition X5 := process D0 env1 C0 (get X4) accs_b (AddLiquidity (mkAddLiq 5 1 400000 1)).
Definition X6 := process D0 env1 C0 (get X5) accs_b (RemoveLiquidity (mkRemLiq 5 1 10001 1)).
Definition X7 := process D0 env2 C0 (get X6) sync_accs_b (SyncSolValue 1).

Lemma spl_unique cfg pw m accs c k0 p0 : cc_kind cfg = KSpl ->
  (forall k p, powner pw k = cc_pool_program cfg -> pdata pw k = PSpl p -> sp_pool_mint p = m -> k = k0) ->
  pdata pw k0 = PSpl p0 -> quotable cfg pw (cpi_ro m :: accs) c -> c = CSpl p0.
Proof.
  intros Hk Hu H0 Hq. pose proof (q_pool _ _ _ _ Hq) as P1. pose proof (q_genuine _ _ _ _ Hq) as P2. pose proof (q_mint _ _ _ _ Hq) as P3.
  unfold pool_of in P1. unfold genuine_pool in P2. unfold lst_of in P3. rewrite Hk in *. destruct P2 as (O & p & Hp & _).
  rewrite Hp in P1. assert (c = CSpl p) by congruence. subst c. cbn [key_at nth_error cpi_ro mk] in P3.
  assert (sp_pool_mint p = m). { symmetry. exact P3. } rewrite (Hu _ _ O Hp H) in Hp. congruence.
Qed.
Lemma pools_where k p : (pdata pw1 k = PSpl p -> k = 514 /\ p = pool_a \/ k = 524 /\ p = pool_b) /\
  (pdata pw2 k = PSpl p -> k = 514 /\ p = pool_a \/ k = 524 /\ p = pool_b2).
Proof.
  split; unfold pw2, pw1, pw1_2, pw1_1, pw1_0, pdata, put_acc; cbn [pw_acc]; unfold upd;
  repeat (match goal with |- context [k =? ?c] => destruct (Z.eqb_spec k c) end; cbn [pa_data no_account];
     [intros Hx; try discriminate Hx; assert (p = pool_a \/ p = pool_b \/ p = pool_b2) as [?|[?|?]] by (injection Hx; auto);
      subst; try discriminate Hx; auto|]); intros Hx; discriminate Hx.
Qed.
Lemma listing_ex w : listsb w = true -> shipped_listing dp1 pw1 cs1 w /\ shipped_listing dp1 pw2 cs2 w.
Proof.
  unfold listsb. intros H.
  assert (Hc : forall ls, (sol_value_calculator ls =? CA) && (ls_mint ls =? MA) || (sol_value_calculator ls =? CB) && (ls_mint ls =? MB) = true ->
    shipped_calc dp1 (sol_value_calculator ls) /\
    (sol_value_calculator ls = CA /\ ls_mint ls = MA \/ sol_value_calculator ls = CB /\ ls_mint ls = MB)).
  { intros ls Hx. apply orb_prop in Hx as [Hx|Hx]; apply andb_prop in Hx as (H1 & H2); apply Z.eqb_eq in H1, H2; rewrite H1, H2;
      (split; [right; discriminate|auto]). }
  split; intros l ls Hl Hin; rewrite Hl in H; rewrite forallb_forall in H; destruct (Hc ls (H _ Hin)) as (Hs & Hm);
    (split; [exact Hs|]); intros accs c [(Hx & _)|(_ & cfg & Hcf & Hq)];
    (destruct Hm as [(E1 & E2)|(E1 & E2)]; rewrite E1, E2 in *; [| ]); try discriminate Hx;
    (assert (Hk : cc_kind cfg = KSpl) by (vm_compute in Hcf; inversion Hcf; reflexivity)).
  - apply (spl_unique _ _ _ _ _ 514 pool_a Hk) in Hq; [exact Hq| |reflexivity].
    intros k p _ Hp Hpm. apply pools_where in Hp as [(-> & _)|(_ & ->)]; [reflexivity|discriminate Hpm].
  - apply (spl_unique _ _ _ _ _ 524 pool_b Hk) in Hq; [exact Hq| |reflexivity].
    intros k p _ Hp Hpm. apply pools_where in Hp as [(_ & ->)|(-> & _)]; [discriminate Hpm|reflexivity].
  - apply (spl_unique _ _ _ _ _ 514 pool_a Hk) in Hq; [exact Hq| |reflexivity].
    intros k p _ Hp Hpm. apply pools_where in Hp as [(-> & _)|(_ & ->)]; [reflexivity|discriminate Hpm].
  - apply (spl_unique _ _ _ _ _ 524 pool_b2 Hk) in Hq; [exact Hq| |reflexivity].
    intros k p _ Hp Hpm. apply pools_where in Hp as [(_ & ->)|(-> & _)]; [discriminate Hpm|reflexivity].
Qed.
Lemma pools_ex : pools_sound cs1 /\ pools_sound cs2 /\ pools_rise cs1 cs2.
Proof.
  assert (Hs : forall p, In p [pool_a; pool_b; pool_b2] -> calc_typed (CSpl p) /\ fees_sound (CSpl p)).
  { intros p [<-|[<-|[<-|[]]]]; vm_compute; repeat split; discriminate. }
  split; [|split].
  - intros m. unfold cs1. destruct (m =? MB); apply Hs; cbn; auto.
  - intros m. unfold cs2. destruct (m =? MB); apply Hs; cbn; auto.
  - intros m x Hx. unfold cs1, cs2. destruct (m =? MB); [|lia]. cbn [worth].
    assert (spl_fee pool_b2 x = spl_fee pool_b x) as -> by reflexivity.
    pose proof (spl_fee_rest pool_b x ltac:(vm_compute; discriminate)) as Hr.
    pose proof (spl_rest_nonneg pool_b x ltac:(vm_compute; split; discriminate) Hx) as Hn. rewrite Hr. unfold share, down.
    cbn [sp_total_lamports sp_pool_token_supply pool_b pool_b2 Z.eqb Pos.eqb orb]. apply Z.div_le_mono; lia.
Qed.
Lemma pw2_typed : pools_typed pw2.
Proof.
  intros k. unfold pw2, pdata, put_acc. cbn [pw_acc]. unfold upd. destruct (k =? 524).
  - vm_compute. repeat split; discriminate.
  - exact (pw1_typed k).
Qed.
Lemma ship_ex M cs0 w0 cs z w pw C accs ix : shipped_history D0 ref_ratio_lib dp1 M cs0 w0 z cs w ->
  let r := process D0 (deployed_env ref_ratio_lib dp1 pw E0) C w accs ix in
  pools_typed pw -> okb r = true -> pdas_do_not_signb accs = true -> listsb (get r) = true ->
  (listsb (get r) = true -> shipped_listing dp1 pw cs (get r)) ->
  (M <=? lp_supply (get r)) = true -> shipped_deposit dp1 accs ix -> shipped_rounding cs w accs ix (get r) 0 ->
  shipped_history D0 ref_ratio_lib dp1 M cs0 w0 z cs (get r).
Proof.
  intros H r Ht Ho Hs Hl Hh HM Hd Hrw. rewrite <- (Z.add_0_r z). eapply ship_go; [exact H| |now apply Z.leb_le].
  eapply shipped_call; [apply pdas_do_not_signb_ok, Hs|exact Ht|apply okb_get, Ho|apply Hh, Hl|exact Hd|lia|exact Hrw].
Qed.
Ltac ship_go_ex := apply ship_ex; [|(exact pw1_typed || exact pw2_typed)|vm_compute; reflexivity|vm_compute; reflexivity|vm_compute; reflexivity|
  apply listing_ex|vm_compute; reflexivity| | ].
Example C44_shipped_case :
  shipped_history D0 ref_ratio_lib dp1 0 cs1 W0 0 cs1 (get X4) /\
  shipped_history D0 ref_ratio_lib dp1 900000 cs1 (get X4) 0 cs2 (get X7) /\
  (total (get X4), lp_supply (get X4)) = (900000, 900000) /\ (total (get X7), lp_supply (get X7)) = (1728666, 1689199) /\
  backing (get X7) * lp_supply (get X4) >= backing (get X4) * lp_supply (get X7).
Proof.
  destruct pools_ex as (K1 & K2 & K3).
  assert (H4 : shipped_history D0 ref_ratio_lib dp1 0 cs1 W0 0 cs1 (get X4)).
  { unfold X4. ship_go_ex; [|left; vm_compute; reflexivity|vm_compute; discriminate].
    unfold X3. ship_go_ex; [|exact I|exact I].
    unfold X2. ship_go_ex; [|exact I|exact I].
    unfold X1. ship_go_ex; [|exact I|exact I].
    apply ship_start; auto. vm_compute. discriminate. }
  assert (H7 : shipped_history D0 ref_ratio_lib dp1 900000 cs1 (get X4) 0 cs2 (get X7)).
  { unfold X7. ship_go_ex; [|exact I|exact I]. apply (ship_accrue D0 ref_ratio_lib dp1 900000 cs1 (get X4) 0 cs1 (get X6) cs2); auto.
    unfold X6. ship_go_ex; [|exact I|vm_compute; discriminate].
    unfold X5. ship_go_ex; [|left; vm_compute; reflexivity|vm_compute; discriminate].
    apply ship_start; auto. vm_compute. discriminate. }
  split; [exact H4|]. split; [exact H7|]. split; [vm_compute; reflexivity|]. split; [vm_compute; reflexivity|].
  pose proof (C44_shipped_value D0 ref_ratio_lib dp1 900000 cs1 W0 0 cs1 (get X4) 0 cs2 (get X7) D0_ok W0_genesis H4 ltac:(reflexivity) H7) as Q.
  rewrite Z.mul_0_l, Z.add_0_r in Q. set (a := backing (get X7)) in *. set (b := backing (get X4)) in *.
  set (c := lp_supply (get X4)) in *. set (d := lp_supply (get X7)) in *. clearbody a b c d. clear -Q. lia.
Qed.
