(** The four money instructions, phase by phase, with the accounting of every token account. *)
From Coq Require Import ZArith List Bool Lia.
From Verif Require Import Base Ratio Calc State Controller Inversion ProcInv Spec CalcProofs InvProofs
  TokProofs AccessProofs ShapeProofs.
Import ListNotations.
Open Scope Z_scope.

Lemma on_same k v : on k k v = v.
Proof. unfold on. now rewrite Z.eqb_refl. Qed.
Lemma on_other k x v : k <> x -> on k x v = 0.
Proof. unfold on. destruct (Z.eqb_spec k x); congruence. Qed.
Lemma on_add k x a b : on k x (a + b) = on k x a + on k x b.
Proof. unfold on. destruct (k =? x); lia. Qed.

Lemma transfer_balance w prog from to mint auth s amt w' :
  transfer_checked w prog from to mint auth s amt = Ok w' ->
  (forall k, balance w' k = balance w k - on k from amt + on k to amt) /\ w_mint w' = w_mint w /\
  w_owner w' = w_owner w /\ amt <= balance w from /\ s = true.
Proof.
  intros H. apply transfer_inv in H.
  destruct H as (f & t & m & _ & Hf & Ht & _ & _ & _ & _ & Mf & Mt & Of & Hs & Hle & Hc).
  assert (Hle' : amt <= balance w from) by (unfold balance; now rewrite Hf).
  destruct Hc as [(-> & ->)|(Hne & Hm & ->)]; csplit; auto.
  - intros k. unfold on. lia.
  - intros k. unfold balance, on. cbn. unfold upd.
    destruct (Z.eqb_spec k to) as [->|N1]; [destruct (Z.eqb_spec to from) as [E|_]; [congruence|]; rewrite Ht; cbn; lia|].
    destruct (Z.eqb_spec k from) as [->|N2]; [rewrite Hf; cbn; lia|]. lia.
Qed.
Lemma mint_to_balance w prog mint to auth s amt w' :
  mint_to w prog mint to auth s amt = Ok w' ->
  (forall k, balance w' k = balance w k + on k to amt) /\
  (forall M, supply w' M = supply w M + on M mint amt) /\ w_owner w' = w_owner w.
Proof.
  intros H. apply mint_to_inv in H.
  destruct H as (t & m & _ & Ht & Hm & _ & _ & Mt & _ & _ & _ & _ & ->).
  csplit; auto.
  - intros k. unfold balance, on. cbn. unfold upd. destruct (Z.eqb_spec k to) as [->|]; [rewrite Ht; cbn|]; lia.
  - intros M. unfold supply, on. cbn. unfold upd. destruct (Z.eqb_spec M mint) as [->|]; [rewrite Hm; cbn|]; lia.
Qed.
Lemma burn_balance w prog mint from auth s amt w' :
  burn w prog mint from auth s amt = Ok w' ->
  (forall k, balance w' k = balance w k - on k from amt) /\
  (forall M, supply w' M = supply w M - on M mint amt) /\ w_owner w' = w_owner w /\
  amt <= balance w from /\ amt <= supply w mint.
Proof.
  intros H. apply burn_inv in H.
  destruct H as (t & m & _ & Ht & Hm & _ & _ & Mt & _ & _ & L1 & L2 & ->).
  csplit; auto.
  - intros k. unfold balance, on. cbn. unfold upd. destruct (Z.eqb_spec k from) as [->|]; [rewrite Ht; cbn|]; lia.
  - intros M. unfold supply, on. cbn. unfold upd. destruct (Z.eqb_spec M mint) as [->|]; [rewrite Hm; cbn|]; lia.
  - unfold balance. now rewrite Ht.
  - unfold supply. now rewrite Hm.
Qed.

Lemma ctl_same_ctl w w' : ctl_eq w w' -> same_controller_accounts w w'.
Proof.
  intros (A & B & C & Dd & _). unfold same_controller_accounts, the_pool, the_list, the_authorities, the_record.
  rewrite A, B, C, Dd. auto.
Qed.
Lemma same_ctl_trans w1 w2 w3 :
  same_controller_accounts w1 w2 -> same_controller_accounts w2 w3 -> same_controller_accounts w1 w3.
Proof. unfold same_controller_accounts. intuition congruence. Qed.

Lemma firstn_group c t n :
  length (cpi_prog c :: cpi_accs c) = n ->
  firstn n ((cpi_prog c :: cpi_accs c) ++ t) = cpi_prog c :: cpi_accs c.
Proof. intros <-. rewrite firstn_app, firstn_all, Nat.sub_diag, firstn_O. apply app_nil_r. Qed.

Lemma swap_groups D w accs n m i j A cs cd cp ps l lsrc ldst :
  swap_facts D w accs n m i j A cs cd cp ps l lsrc ldst ->
  group accs 12 n = cpi_prog cs :: cpi_accs cs /\
  group accs (12 + Z.to_nat n) m = cpi_prog cd :: cpi_accs cd /\
  skipn (12 + Z.to_nat n + Z.to_nat m) accs = cpi_prog cp :: cpi_accs cp.
Proof.
  intros (Hacc & Hn & Hm & _).
  assert (Hs : forall q, skipn (12 + q) accs = skipn q
     ((cpi_prog cs :: cpi_accs cs) ++ (cpi_prog cd :: cpi_accs cd) ++ cpi_prog cp :: cpi_accs cp)).
  { intros q. rewrite Hacc. reflexivity. }
  unfold group. rewrite <- Nat.add_assoc, (Hs (Z.to_nat n)), (Hs (Z.to_nat n + Z.to_nat m)%nat).
  rewrite (Hs 0%nat : skipn 12 accs = _). cbn [skipn]. split; [now apply firstn_group|].
  rewrite <- Hn. rewrite !skipn_app, skipn_all, Nat.sub_diag. cbn [app skipn]. split; [now apply firstn_group|].
  rewrite <- Hm. rewrite skipn_all2 by lia.
  replace (length (cpi_prog cs :: cpi_accs cs) + length (cpi_prog cd :: cpi_accs cd) -
     length (cpi_prog cs :: cpi_accs cs))%nat with (length (cpi_prog cd :: cpi_accs cd)) by lia.
  rewrite skipn_all, Nat.sub_diag. reflexivity.
Qed.
Lemma liq_groups D w accs b n i A c cp ps l ls :
  liq_facts D w accs b n i A c cp ps l ls ->
  group accs 11 n = cpi_prog c :: cpi_accs c /\
  skipn (11 + Z.to_nat n) accs = cpi_prog cp :: cpi_accs cp.
Proof.
  intros (Hacc & Hn & _).
  assert (Hs : forall q, skipn (11 + q) accs = skipn q
     ((cpi_prog c :: cpi_accs c) ++ cpi_prog cp :: cpi_accs cp)).
  { intros q. rewrite Hacc. reflexivity. }
  unfold group. rewrite (Hs (Z.to_nat n)).
  rewrite (Hs 0%nat : skipn 11 accs = _). cbn [skipn]. split; [now apply firstn_group|].
  rewrite <- Hn. rewrite skipn_app, skipn_all, Nat.sub_diag. reflexivity.
Qed.
Lemma swap_keys D w accs n m i j A cs cd cp ps l lsrc ldst :
  swap_facts D w accs n m i j A cs cd cp ps l lsrc ldst ->
  sw_src_mint accs = mk (sa_src_lst_mint A) /\ sw_dst_mint accs = mk (sa_dst_lst_mint A) /\
  sw_user_src accs = mk (sa_src_lst_acc A) /\ sw_user_dst accs = mk (sa_dst_lst_acc A) /\
  sw_fee_acc accs = mk (sa_protocol_fee_accumulator A) /\
  sw_src_reserves accs = mk (sa_src_pool_reserves A) /\
  sw_dst_reserves accs = mk (sa_dst_pool_reserves A) /\ key_at accs 0 = mk (sa_signer A).
Proof. intros (-> & _). csplit; reflexivity. Qed.
Lemma liq_keys D w accs b n i A c cp ps l ls :
  liq_facts D w accs b n i A c cp ps l ls ->
  lq_mint accs = mk (la_lst_mint A) /\ lq_user_lst accs = mk (la_lst_acc A) /\
  lq_user_lp accs = mk (la_lp_acc A) /\ lq_lp_mint accs = mk (la_lp_token_mint A) /\
  lq_fee_acc accs = mk (la_protocol_fee_accumulator A) /\
  lq_reserves accs = mk (la_pool_reserves A) /\ key_at accs 0 = mk (la_signer A).
Proof. intros (-> & _). csplit; reflexivity. Qed.

Section WithDerive.
Variable D : Derive.

Lemma settle_flow E w accs n m i j A cs cd cp ps l lsrc ldst w1 w2 st si so tp w' :
  swap_facts D w accs n m i j A cs cd cp ps l lsrc ldst ->
  sync_src E w A cs i = Ok w1 -> sync_dst E w1 A cd j = Ok w2 ->
  settle_facts E w2 w' A cs cd i j st si so tp ->
  swap_flow E w accs n m i j w2 si so tp w' /\ so + tp <= balance w2 (sw_dst_reserves accs) /\
  st <= total w' /\ si <= balance w (sw_user_src accs).
Proof.
  intros HF S1 S2 (w3 & w4 & w5 & w6 & ps' & t & Ht & Hle & _ & T1 & T2 & T3 & S3 & S4 & Hp' & Htot).
  destruct (swap_groups _ _ _ _ _ _ _ _ _ _ _ _ _ _ _ HF) as (G1 & G2 & _).
  destruct (swap_keys _ _ _ _ _ _ _ _ _ _ _ _ _ _ _ HF) as (K1 & K2 & K3 & K4 & K5 & K6 & K7 & _).
  destruct HF as (_ & _ & _ & _ & _ & HP & HL & _).
  unfold sync_src, sync_dst in *. rewrite HP, HL in *.
  pose proof (same_ctl_trans _ _ _ (ctl_same_ctl _ _ (transfer_ctl _ _ _ _ _ _ _ _ _ T1))
    (same_ctl_trans _ _ _ (ctl_same_ctl _ _ (transfer_ctl _ _ _ _ _ _ _ _ _ T2))
      (ctl_same_ctl _ _ (transfer_ctl _ _ _ _ _ _ _ _ _ T3)))) as HC.
  apply transfer_balance in T1 as (B1 & M1 & _ & L1 & _), T2 as (B2 & M2 & _), T3 as (B3 & M3 & _).
  apply sync_revalued in S1, S2, S3, S4.
  assert (Htok : w_tok w2 = w_tok w).
  { pose proof (proj1 (revalued_tokens _ _ _ _ _ _ _ _ S1)). pose proof (proj1 (revalued_tokens _ _ _ _ _ _ _ _ S2)).
    congruence. }
  csplit.
  - unfold swap_flow. rewrite G1, G2, K1, K2, K3, K4, K5, K6, K7. cbn [group_prog group_accs tl].
    exists w1, w5, w6. csplit; auto; try congruence; try apply HC.
    intros k. rewrite B3, B2, B1, !on_add. lia.
  - rewrite K7. unfold balance. now rewrite Ht.
  - unfold total, the_pool. now rewrite Hp'.
  - rewrite K3. unfold balance in *. now rewrite <- Htok.
Qed.

(** SwapExactIn *)
Lemma swap_in_run E C w accs a w' :
  base_inv w -> process D E C w accs (SwapExactIn a) = Ok w' ->
  let n := si_src_lst_value_calc_accs a in let m := si_dst_lst_value_calc_accs a in
  let gs := group accs 12 n in let gd := group accs (12 + Z.to_nat n) m in
  let gp := skipn (12 + Z.to_nat n + Z.to_nat m) accs in
  exists w2 in_sol in_hi out_sol dst_out dst_hi fee,
    swap_flow E w accs n m (si_src_lst_index a) (si_dst_lst_index a) w2 (si_amount a) dst_out fee w' /\
    e_lst_to_sol E w2 (group_prog gs) (sw_src_mint accs) (group_accs gs) (si_amount a) = Ok (in_sol, in_hi) /\
    e_price_exact_in E w2 (group_prog gp) (sw_src_mint accs) (sw_dst_mint accs) (group_accs gp)
      (si_amount a) in_sol = Ok out_sol /\
    e_sol_to_lst E w2 (group_prog gd) (sw_dst_mint accs) (group_accs gd) out_sol = Ok (dst_out, dst_hi) /\
    calc_swap_protocol_fees in_sol out_sol dst_out (trading_fee_bps w2) = Ok fee /\
    U64 in_sol /\ 0 < in_sol /\ U64 out_sol /\ U64 dst_out /\ 0 < dst_out /\ 0 < si_amount a /\
    si_min_amount_out a <= dst_out /\ 0 <= fee <= U64_MAX /\ 0 <= trading_fee_bps w2 <= 10000 /\
    dst_out + fee <= balance w2 (sw_dst_reserves accs) /\ total w2 <= total w' /\
    si_amount a <= balance w (sw_user_src accs) /\ trading_fee_bps w2 = trading_fee_bps w.
Proof.
  intros Hb H. unfold process in H. apply guard_ok in H as (Hwf & H).
  apply swap_exact_in_inv in H; auto. wf Hwf.
  destruct H as (A & cs & cd & cp & ps & l & lsrc & ldst & w1 & w2 & ps2 & in_sol & in_hi & out_sol &
    dst_out & dst_hi & tp & HF & Hz & S1 & S2 & Hp2 & I1 & Hz2 & I2 & I3 & Hmin & Hz3 & Hc & HS).
  destruct (settle_flow _ _ _ _ _ _ _ _ _ _ _ _ _ _ _ _ _ _ _ _ _ _ HF S1 S2 HS) as (HFl & Hle & Htot & Hsrc).
  destruct (swap_groups _ _ _ _ _ _ _ _ _ _ _ _ _ _ _ HF) as (G1 & G2 & G3).
  destruct (swap_keys _ _ _ _ _ _ _ _ _ _ _ _ _ _ _ HF) as (K1 & K2 & K3 & K4 & K5 & K6 & K7 & _).
  destruct HF as (_ & _ & _ & _ & _ & HP & HL & _ & _ & _ & Hp & _).
  unfold sync_src, sync_dst in S1, S2. rewrite HP, HL in *.
  assert (Hb2 : base_inv w2) by eauto using sync_base.
  pose proof (base_pool _ _ Hb2 Hp2) as (_ & Hf & _). dec_invokes.
  assert (Hfe : trading_fee_bps w2 = trading_fee_bps w).
  { pose proof (vals_trans _ _ _ (sync_vals _ _ _ _ _ _ _ S1) (sync_vals _ _ _ _ _ _ _ S2)) as HV.
    destruct (vals_pool _ _ _ HV Hp) as (v & Hv). unfold trading_fee_bps. unfold the_pool in *.
    rewrite Hv, Hp. reflexivity. }
  assert (Htf : trading_fee_bps w2 = trading_protocol_fee_bps ps2).
  { unfold trading_fee_bps, the_pool. now rewrite Hp2. }
  assert (Ht2 : total w2 = total_sol_value ps2).
  { unfold total, the_pool. now rewrite Hp2. }
  assert (Hfee : 0 <= tp <= U64_MAX).
  { unfold U64 in *. pose proof Hc as Hc'. apply calc_swap_fees_ok in Hc'; lia. }
  cbv zeta. exists w2, in_sol, in_hi, out_sol, dst_out, dst_hi, tp.
  rewrite G1, G2, G3, K1, K2. cbn [group_prog group_accs tl]. unfold U64 in *.
  csplit; auto; try congruence; try lia.
Qed.

Lemma swap_out_run E C w accs a w' :
  base_inv w -> process D E C w accs (SwapExactOut a) = Ok w' ->
  let n := so_src_lst_value_calc_accs a in let m := so_dst_lst_value_calc_accs a in
  let gs := group accs 12 n in let gd := group accs (12 + Z.to_nat n) m in
  let gp := skipn (12 + Z.to_nat n + Z.to_nat m) accs in
  exists w2 out_lo out_sol in_sol src_lo src_in fee,
    swap_flow E w accs n m (so_src_lst_index a) (so_dst_lst_index a) w2 src_in (so_amount a) fee w' /\
    e_lst_to_sol E w2 (group_prog gd) (sw_dst_mint accs) (group_accs gd) (so_amount a) = Ok (out_lo, out_sol) /\
    e_price_exact_out E w2 (group_prog gp) (sw_src_mint accs) (sw_dst_mint accs) (group_accs gp)
      (so_amount a) out_sol = Ok in_sol /\
    e_sol_to_lst E w2 (group_prog gs) (sw_src_mint accs) (group_accs gs) in_sol = Ok (src_lo, src_in) /\
    calc_swap_protocol_fees in_sol out_sol (so_amount a) (trading_fee_bps w2) = Ok fee /\
    U64 in_sol /\ U64 out_sol /\ 0 < out_sol /\ U64 src_in /\ 0 < src_in /\ 0 < so_amount a /\
    src_in <= so_max_amount_in a /\ 0 <= fee <= U64_MAX /\ 0 <= trading_fee_bps w2 <= 10000 /\
    so_amount a + fee <= balance w2 (sw_dst_reserves accs) /\ total w2 <= total w' /\
    src_in <= balance w (sw_user_src accs) /\ trading_fee_bps w2 = trading_fee_bps w.
Proof.
  intros Hb H. unfold process in H. apply guard_ok in H as (Hwf & H).
  apply swap_exact_out_inv in H; auto. wf Hwf.
  destruct H as (A & cs & cd & cp & ps & l & lsrc & ldst & w1 & w2 & ps2 & out_lo & out_sol & in_sol &
    src_lo & src_in & tp & HF & Hz & Hz' & S1 & S2 & Hp2 & I1 & Hz2 & I2 & I3 & Hmax & Hz3 & Hc & HS).
  destruct (settle_flow _ _ _ _ _ _ _ _ _ _ _ _ _ _ _ _ _ _ _ _ _ _ HF S1 S2 HS) as (HFl & Hle & Htot & Hsrc).
  destruct (swap_groups _ _ _ _ _ _ _ _ _ _ _ _ _ _ _ HF) as (G1 & G2 & G3).
  destruct (swap_keys _ _ _ _ _ _ _ _ _ _ _ _ _ _ _ HF) as (K1 & K2 & K3 & K4 & K5 & K6 & K7 & _).
  destruct HF as (_ & _ & _ & _ & _ & HP & HL & _ & _ & _ & Hp & _).
  unfold sync_src, sync_dst in S1, S2. rewrite HP, HL in *.
  assert (Hb2 : base_inv w2) by eauto using sync_base.
  pose proof (base_pool _ _ Hb2 Hp2) as (_ & Hf & _). dec_invokes.
  assert (Hfe : trading_fee_bps w2 = trading_fee_bps w).
  { pose proof (vals_trans _ _ _ (sync_vals _ _ _ _ _ _ _ S1) (sync_vals _ _ _ _ _ _ _ S2)) as HV.
    destruct (vals_pool _ _ _ HV Hp) as (v & Hv). unfold trading_fee_bps. unfold the_pool in *.
    rewrite Hv, Hp. reflexivity. }
  assert (Htf : trading_fee_bps w2 = trading_protocol_fee_bps ps2).
  { unfold trading_fee_bps, the_pool. now rewrite Hp2. }
  assert (Ht2 : total w2 = total_sol_value ps2).
  { unfold total, the_pool. now rewrite Hp2. }
  assert (Hfee : 0 <= tp <= U64_MAX).
  { unfold U64 in *. pose proof Hc as Hc'. apply calc_swap_fees_ok in Hc'; lia. }
  cbv zeta. exists w2, out_lo, out_sol, in_sol, src_lo, src_in, tp.
  rewrite G1, G2, G3, K1, K2. cbn [group_prog group_accs tl]. unfold U64 in *.
  csplit; auto; try congruence; try lia.
Qed.

Lemma add_run E C w accs a w' :
  base_inv w -> process D E C w accs (AddLiquidity a) = Ok w' ->
  let n := al_lst_value_calc_accs a in
  let g := group accs 11 n in let gp := skipn (11 + Z.to_nat n) accs in
  exists w1 lst_sol lst_hi after to_reserves fee lp,
    add_flow E w accs n (al_lst_index a) w1 to_reserves fee lp w' /\
    e_lst_to_sol E w1 (group_prog g) (lq_mint accs) (group_accs g) (al_lst_amount a) = Ok (lst_sol, lst_hi) /\
    e_price_lp_to_mint E w1 (group_prog gp) (lq_mint accs) (group_accs gp) (al_lst_amount a) lst_sol = Ok after /\
    calc_add_liquidity_protocol_fees (al_lst_amount a) lst_sol after (lp_fee_bps w1) = Ok (to_reserves, fee) /\
    calc_lp_tokens_to_mint (supply w1 (lq_lp_mint accs)) (total w1) after = Ok lp /\
    U64 lst_sol /\ U64 after /\ after <= lst_sol /\ to_reserves + fee = al_lst_amount a /\
    0 < to_reserves /\ 0 <= fee /\ 0 < lp /\ al_min_lp_out a <= lp /\ 0 < al_lst_amount a /\
    0 <= lp_fee_bps w1 <= 10000 /\ lp_fee_bps w1 = lp_fee_bps w /\ total w1 <= total w' /\
    U64 (total w1) /\ U64 (supply w1 (lq_lp_mint accs)) /\ supply w1 = supply w /\
    supply w1 (lq_lp_mint accs) + lp <= U64_MAX /\
    (exists ps, the_pool w = Some ps /\ lq_lp_mint accs = lp_token_mint ps).
Proof.
  intros Hb H. unfold process in H. apply guard_ok in H as (Hwf & H).
  apply add_liquidity_inv in H; auto. wf Hwf.
  destruct H as (A & c & cp & ps & l & ls & w1 & ps1 & lst_sol & lst_hi & af & tr & tp & mi & lp & w2 &
    w3 & w4 & ps' & HF & Hz & S1 & Hp1 & I1 & I2 & Haf & Hc & Hmi & Hlp & Hz1 & Hz2 & Hmin & T1 & T2 & M1 & S2 &
    Hp' & Htot).
  destruct (liq_groups _ _ _ _ _ _ _ _ _ _ _ _ HF) as (G1 & G2).
  destruct (liq_keys _ _ _ _ _ _ _ _ _ _ _ _ HF) as (K1 & K2 & K3 & K4 & K5 & K6 & _).
  destruct HF as (_ & _ & _ & _ & HP & HL & _ & _ & Hlm & Hp & _).
  unfold sync_liq in *. rewrite HP, HL in *.
  assert (Hb1 : base_inv w1) by eauto using sync_base.
  pose proof (base_pool _ _ Hb1 Hp1) as (Ht & _ & Hf & _). dec_invokes.
  pose proof (proj2 (base_u64 _ Hb1) _ _ Hmi) as Hs.
  assert (Hfe : lp_fee_bps w1 = lp_fee_bps w).
  { destruct (vals_pool _ _ _ (sync_vals _ _ _ _ _ _ _ S1) Hp) as (v & Hv). unfold lp_fee_bps. unfold the_pool in *.
    rewrite Hv, Hp. reflexivity. }
  assert (Htf : lp_fee_bps w1 = lp_protocol_fee_bps ps1) by (unfold lp_fee_bps, the_pool; now rewrite Hp1).
  assert (Ht1 : total w1 = total_sol_value ps1) by (unfold total, the_pool; now rewrite Hp1).
  assert (Ht' : total w' = total_sol_value ps') by (unfold total, the_pool; now rewrite Hp').
  assert (Hsup : supply w1 (mk (la_lp_token_mint A)) = m_supply mi) by (unfold supply; now rewrite Hmi).
  assert (Hss : supply w1 = supply w).
  { pose proof (sync_tok _ _ _ _ _ _ _ _ _ S1) as (_ & Hm & _). unfold supply. now rewrite Hm. }
  pose proof (same_ctl_trans _ _ _ (ctl_same_ctl _ _ (transfer_ctl _ _ _ _ _ _ _ _ _ T1))
    (same_ctl_trans _ _ _ (ctl_same_ctl _ _ (transfer_ctl _ _ _ _ _ _ _ _ _ T2))
      (ctl_same_ctl _ _ (mint_to_ctl _ _ _ _ _ _ _ _ M1)))) as HC.
  pose proof M1 as M1'. apply mint_to_inv in M1'.
  destruct M1' as (tt & m1 & _ & _ & Hm1 & _ & _ & _ & _ & _ & _ & Hsmax & _).
  apply transfer_balance in T1 as (B1 & MM1 & _ & L1 & _), T2 as (B2 & MM2 & _ & L2 & _).
  rewrite MM2, MM1, Hmi in Hm1. injection Hm1 as <-.
  apply mint_to_balance in M1 as (B3 & SS & _).
  unfold U64 in *.
  pose proof Hc as Hc'. apply calc_add_fees_ok in Hc' as (Hsum & Hr0 & Hf0 & Hbps & _); try lia.
  pose proof Hlp as Hlp'. apply lp_to_mint_nonneg in Hlp'; try lia.
  assert (Htok : w_tok w1 = w_tok w) by (pose proof (sync_tok _ _ _ _ _ _ _ _ _ S1) as (? & _); auto).
  apply sync_revalued in S1, S2.
  cbv zeta. exists w1, lst_sol, lst_hi, af, tr, tp, lp.
  unfold add_flow. rewrite G1, G2, K1, K2, K3, K4, K5, K6. cbn [group_prog group_accs tl].
  csplit; auto; try congruence; try lia.
  - exists w4. csplit; auto; try apply HC.
    + intros M. rewrite SS. unfold supply. now rewrite MM2, MM1.
    + intros k. rewrite B3, B2, B1, !on_add. lia.
  - exists ps. split; auto.
Qed.

Lemma remove_run E C w accs a w' :
  base_inv w -> process D E C w accs (RemoveLiquidity a) = Ok w' ->
  let n := rl_lst_value_calc_accs a in
  let g := group accs 11 n in let gp := skipn (11 + Z.to_nat n) accs in
  exists w1 lp_sol after to_user to_user_hi fee,
    remove_flow E w accs n (rl_lst_index a) w1 (rl_lp_token_amount a) to_user fee w' /\
    calc_lp_tokens_sol_value (supply w1 (lq_lp_mint accs)) (total w1) (rl_lp_token_amount a) = Ok lp_sol /\
    e_price_lp_to_redeem E w1 (group_prog gp) (lq_mint accs) (group_accs gp) (rl_lp_token_amount a) lp_sol
      = Ok after /\
    e_sol_to_lst E w1 (group_prog g) (lq_mint accs) (group_accs g) after = Ok (to_user, to_user_hi) /\
    calc_remove_liquidity_protocol_fees lp_sol after to_user (lp_fee_bps w1) = Ok fee /\
    U64 lp_sol /\ U64 after /\ after <= lp_sol /\ 0 < to_user <= U64_MAX /\ rl_min_lst_out a <= to_user /\
    0 <= fee <= U64_MAX /\ 0 < rl_lp_token_amount a /\
    0 <= lp_fee_bps w1 <= 10000 /\ lp_fee_bps w1 = lp_fee_bps w /\
    U64 (total w1) /\ U64 (supply w1 (lq_lp_mint accs)) /\ supply w1 = supply w /\
    rl_lp_token_amount a <= supply w (lq_lp_mint accs) /\
    rl_lp_token_amount a <= balance w (lq_user_lp accs) /\
    (exists ps, the_pool w = Some ps /\ lq_lp_mint accs = lp_token_mint ps).
Proof.
  intros Hb H. unfold process in H. apply guard_ok in H as (Hwf & H).
  apply remove_liquidity_inv in H; auto. wf Hwf.
  destruct H as (A & c & cp & ps & l & ls & w1 & ps1 & mi & lp_sol & af & tu & tuh & tp & w2 & w3 & w4 &
    HF & Hz & S1 & Hp1 & Hmi & Hlp & I1 & Haf & I2 & Hc & Hz1 & Hmin & B1 & T1 & T2 & S2).
  destruct (liq_groups _ _ _ _ _ _ _ _ _ _ _ _ HF) as (G1 & G2).
  destruct (liq_keys _ _ _ _ _ _ _ _ _ _ _ _ HF) as (K1 & K2 & K3 & K4 & K5 & K6 & _).
  destruct HF as (_ & _ & _ & _ & HP & HL & _ & _ & Hlm & Hp & _).
  unfold sync_liq in *. rewrite HP, HL in *.
  assert (Hb1 : base_inv w1) by eauto using sync_base.
  pose proof (base_pool _ _ Hb1 Hp1) as (Ht & _ & Hf & _). dec_invokes.
  pose proof (proj2 (base_u64 _ Hb1) _ _ Hmi) as Hs.
  assert (Hfe : lp_fee_bps w1 = lp_fee_bps w).
  { destruct (vals_pool _ _ _ (sync_vals _ _ _ _ _ _ _ S1) Hp) as (v & Hv). unfold lp_fee_bps. unfold the_pool in *.
    rewrite Hv, Hp. reflexivity. }
  assert (Htf : lp_fee_bps w1 = lp_protocol_fee_bps ps1) by (unfold lp_fee_bps, the_pool; now rewrite Hp1).
  assert (Ht1 : total w1 = total_sol_value ps1) by (unfold total, the_pool; now rewrite Hp1).
  assert (Hsup : supply w1 (mk (la_lp_token_mint A)) = m_supply mi) by (unfold supply; now rewrite Hmi).
  assert (Hss : supply w1 = supply w).
  { pose proof (sync_tok _ _ _ _ _ _ _ _ _ S1) as (_ & Hm & _). unfold supply. now rewrite Hm. }
  pose proof (same_ctl_trans _ _ _ (ctl_same_ctl _ _ (burn_ctl _ _ _ _ _ _ _ _ B1))
    (same_ctl_trans _ _ _ (ctl_same_ctl _ _ (transfer_ctl _ _ _ _ _ _ _ _ _ T1))
      (ctl_same_ctl _ _ (transfer_ctl _ _ _ _ _ _ _ _ _ T2)))) as HC.
  apply transfer_balance in T1 as (BB1 & MM1 & _ & L1 & _), T2 as (BB2 & MM2 & _ & L2 & _).
  apply burn_balance in B1 as (BB3 & SS & _ & L3 & L4).
  unfold U64 in *.
  pose proof Hlp as Hlp'. apply lp_sol_value_le in Hlp' as (Hl0 & Hl1 & _); try lia.
  pose proof Hc as Hc'. apply calc_remove_fees_ok in Hc' as (Hf0 & Hf1 & _); try lia.
  assert (Htok : w_tok w1 = w_tok w) by (pose proof (sync_tok _ _ _ _ _ _ _ _ _ S1) as (? & _); auto).
  apply sync_revalued in S1, S2.
  cbv zeta. exists w1, lp_sol, af, tu, tuh, tp.
  unfold remove_flow. rewrite G1, G2, K1, K2, K3, K4, K5, K6. cbn [group_prog group_accs tl].
  csplit; auto; try congruence; try lia.
  - exists w4. csplit; auto; try apply HC.
    + intros M. transitivity (supply w2 M); [unfold supply; now rewrite MM2, MM1 | apply SS].
    + intros k. rewrite BB2, BB1, BB3, !on_add. lia.
  - unfold balance in *. now rewrite <- Htok.
  - exists ps. split; auto.
Qed.

(** Who owns the debited accounts; the pool's accounts. *)
Definition swap_parties (w : World) (accs : list Meta) (lsrc ldst : LstState) : Prop :=
  sw_src_mint accs <> sw_dst_mint accs /\
  ls_mint lsrc = sw_src_mint accs /\ ls_mint ldst = sw_dst_mint accs /\ is_input_disabled lsrc = 0 /\
  (exists t, w_tok w (sw_user_src accs) = Some t /\ ta_mint t = sw_src_mint accs /\
     ta_owner t = key_at accs 0 /\ signed_by accs (key_at accs 0)) /\
  (exists t, w_tok w (sw_user_dst accs) = Some t /\ ta_mint t = sw_dst_mint accs) /\
  (exists t, w_tok w (sw_src_reserves accs) = Some t /\ ta_mint t = sw_src_mint accs) /\
  (exists t, w_tok w (sw_dst_reserves accs) = Some t /\ ta_mint t = sw_dst_mint accs /\ ta_owner t = POOL_STATE_ID) /\
  (exists t, w_tok w (sw_fee_acc accs) = Some t /\ ta_mint t = sw_dst_mint accs) /\
  d_create D POOL_STATE_ID (w_owner w (sw_src_mint accs)) (sw_src_mint accs) (pool_reserves_bump lsrc)
    = Some (sw_src_reserves accs) /\
  d_create D POOL_STATE_ID (w_owner w (sw_dst_mint accs)) (sw_dst_mint accs) (pool_reserves_bump ldst)
    = Some (sw_dst_reserves accs) /\
  d_create D PROTOCOL_FEE_ID (w_owner w (sw_dst_mint accs)) (sw_dst_mint accs)
    (protocol_fee_accumulator_bump ldst) = Some (sw_fee_acc accs).
Definition liq_parties (w : World) (accs : list Meta) (ls : LstState) : Prop :=
  ls_mint ls = lq_mint accs /\
  (exists t, w_tok w (lq_user_lst accs) = Some t /\ ta_mint t = lq_mint accs) /\
  (exists t, w_tok w (lq_user_lp accs) = Some t /\ ta_mint t = lq_lp_mint accs) /\
  (exists t, w_tok w (lq_reserves accs) = Some t /\ ta_mint t = lq_mint accs) /\
  (exists t, w_tok w (lq_fee_acc accs) = Some t /\ ta_mint t = lq_mint accs) /\
  d_create D POOL_STATE_ID (w_owner w (lq_mint accs)) (lq_mint accs) (pool_reserves_bump ls)
    = Some (lq_reserves accs) /\
  d_create D PROTOCOL_FEE_ID (w_owner w (lq_mint accs)) (lq_mint accs)
    (protocol_fee_accumulator_bump ls) = Some (lq_fee_acc accs).

Lemma shape_back w w' k t : shape w w' -> w_tok w' k = Some t ->
  exists t0, w_tok w k = Some t0 /\ ta_mint t0 = ta_mint t /\ ta_owner t0 = ta_owner t.
Proof.
  intros (_ & H & _) Ht. specialize (H k). rewrite Ht in H. destruct (w_tok w k) as [t0|]; [|tauto].
  exists t0. intuition congruence.
Qed.

Lemma transfer_parties w prog from to mint auth s amt w' w0 :
  transfer_checked w prog from to mint auth s amt = Ok w' -> shape w0 w ->
  (exists t, w_tok w0 from = Some t /\ ta_mint t = mint /\ ta_owner t = auth) /\
  (exists t, w_tok w0 to = Some t /\ ta_mint t = mint) /\ s = true /\ shape w0 w'.
Proof.
  intros H Hs. pose proof (transfer_shape _ _ _ _ _ _ _ _ _ H) as Hsh. apply transfer_inv in H.
  destruct H as (f & t & m & _ & Hf & Ht & _ & _ & _ & _ & Mf & Mt & Of & Hsg & _).
  destruct (shape_back _ _ _ _ Hs Hf) as (f0 & F1 & F2 & F3).
  destruct (shape_back _ _ _ _ Hs Ht) as (t0 & T1 & T2 & T3).
  csplit; eauto using shape_trans; [exists f0 | exists t0]; csplit; auto; congruence.
Qed.

Lemma settle_parties E w accs n m i j A cs cd cp ps l lsrc ldst w1 w2 st si so tp w' :
  swap_facts D w accs n m i j A cs cd cp ps l lsrc ldst ->
  sync_src E w A cs i = Ok w1 -> sync_dst E w1 A cd j = Ok w2 ->
  settle_facts E w2 w' A cs cd i j st si so tp ->
  swap_parties w accs lsrc ldst.
Proof.
  intros HF S1 S2 (w3 & w4 & w5 & w6 & ps' & t & Ht & Hle & _ & T1 & T2 & T3 & _).
  destruct (swap_keys _ _ _ _ _ _ _ _ _ _ _ _ _ _ _ HF) as (K1 & K2 & K3 & K4 & K5 & K6 & K7 & K8).
  unfold sync_src, sync_dst in *.
  assert (Sh : shape w w2) by (eapply shape_trans; eapply sync_shape; eauto).
  destruct (transfer_parties _ _ _ _ _ _ _ _ _ _ T1 Sh) as ((u & U1 & U2 & U3) & HR & Hs & Sh1).
  destruct (transfer_parties _ _ _ _ _ _ _ _ _ _ T2 Sh1) as ((r & R1 & R2 & R3) & HP & _ & Sh2).
  destruct (transfer_parties _ _ _ _ _ _ _ _ _ _ T3 Sh2) as (_ & HU & _).
  destruct HF as (Hac & Hn & Hm & Hsig & Hwr & HP0 & HL & HT1 & HT2 & Hne & Hp & Hact & Hl & N1 & N2 & M1 & M2 & Hin &
    D1 & D2 & D3 & _).
  unfold swap_parties. rewrite K1, K2, K3, K4, K5, K6, K7, K8.
  csplit; auto.
  - exists u. csplit; auto. exists (sa_signer A). rewrite Hac. cbn. auto.
  - exists r. csplit; auto; congruence.
Qed.

Lemma swap_in_parties E C w accs a w' :
  process D E C w accs (SwapExactIn a) = Ok w' ->
  exists l lsrc ldst, the_list w = Some l /\ nth_error l (Z.to_nat (si_src_lst_index a)) = Some lsrc /\
    nth_error l (Z.to_nat (si_dst_lst_index a)) = Some ldst /\ swap_parties w accs lsrc ldst.
Proof.
  intros H. unfold process in H. apply guard_ok in H as (Hwf & H).
  apply swap_exact_in_inv in H; auto.
  destruct H as (A & cs & cd & cp & ps & l & lsrc & ldst & w1 & w2 & ps2 & in_sol & in_hi & out_sol &
      dst_out & dst_hi & tp & HF & _ & S1 & S2 & _ & _ & _ & _ & _ & _ & _ & _ & HS).
  exists l, lsrc, ldst. pose proof HF as (_ & _ & _ & _ & _ & _ & _ & _ & _ & _ & _ & _ & Hl & N1 & N2 & _).
  csplit; eauto using settle_parties.
Qed.
Lemma swap_out_parties E C w accs a w' :
  process D E C w accs (SwapExactOut a) = Ok w' ->
  exists l lsrc ldst, the_list w = Some l /\ nth_error l (Z.to_nat (so_src_lst_index a)) = Some lsrc /\
    nth_error l (Z.to_nat (so_dst_lst_index a)) = Some ldst /\ swap_parties w accs lsrc ldst.
Proof.
  intros H. unfold process in H. apply guard_ok in H as (Hwf & H).
  apply swap_exact_out_inv in H; auto.
  destruct H as (A & cs & cd & cp & ps & l & lsrc & ldst & w1 & w2 & ps2 & in_sol & in_hi & out_sol &
      dst_out & dst_hi & tp & HF & _ & _ & S1 & S2 & _ & _ & _ & _ & _ & _ & _ & _ & HS).
  exists l, lsrc, ldst. pose proof HF as (_ & _ & _ & _ & _ & _ & _ & _ & _ & _ & _ & _ & Hl & N1 & N2 & _).
  csplit; eauto using settle_parties.
Qed.
Lemma add_parties E C w accs a w' :
  process D E C w accs (AddLiquidity a) = Ok w' ->
  exists l ls t, the_list w = Some l /\ nth_error l (Z.to_nat (al_lst_index a)) = Some ls /\
    is_input_disabled ls = 0 /\
    liq_parties w accs ls /\ w_tok w (lq_user_lst accs) = Some t /\ ta_owner t = key_at accs 0 /\
    signed_by accs (key_at accs 0).
Proof.
  intros H. unfold process in H. apply guard_ok in H as (Hwf & H).
  apply add_liquidity_inv in H; auto.
  destruct H as (A & c & cp & ps & l & ls & w1 & ps1 & lst_sol & lst_hi & af & tr & tp & mi & lp & w2 &
    w3 & w4 & ps' & HF & Hz & S1 & Hp1 & I1 & I2 & Haf & Hc & Hmi & Hlp & Hz1 & Hz2 & Hmin & T1 & T2 & M1 & S2 &
    Hp' & Htot).
  destruct (liq_keys _ _ _ _ _ _ _ _ _ _ _ _ HF) as (K1 & K2 & K3 & K4 & K5 & K6 & K7).
  assert (Sh : shape w w1) by (eapply sync_shape; eauto).
  destruct (transfer_parties _ _ _ _ _ _ _ _ _ _ T1 Sh) as ((u & U1 & U2 & U3) & HR & Hs & Sh1).
  destruct (transfer_parties _ _ _ _ _ _ _ _ _ _ T2 Sh1) as (_ & HP & _ & Sh2).
  apply mint_to_inv in M1. destruct M1 as (tt & m1 & _ & Ht & _ & _ & _ & Mt & _).
  destruct (shape_back _ _ _ _ Sh2 Ht) as (t0 & Ht0 & Ht1 & _).
  destruct HF as (Hac & Hn & Hsig & Hwr & HP0 & HL & HT1 & HT2 & Hlm & Hp & Hact & Hl & N1 & Hm & Hin &
    D1 & D2 & _).
  exists l, ls, u. unfold liq_parties. rewrite K1, K2, K3, K4, K5, K6, K7. csplit; eauto.
  - exists t0. split; auto. congruence.
  - exists (la_signer A). rewrite Hac. cbn. auto.
Qed.
Lemma remove_parties E C w accs a w' :
  process D E C w accs (RemoveLiquidity a) = Ok w' ->
  exists l ls t, the_list w = Some l /\ nth_error l (Z.to_nat (rl_lst_index a)) = Some ls /\
    liq_parties w accs ls /\ w_tok w (lq_user_lp accs) = Some t /\ ta_owner t = key_at accs 0 /\
    signed_by accs (key_at accs 0).
Proof.
  intros H. unfold process in H. apply guard_ok in H as (Hwf & H).
  apply remove_liquidity_inv in H; auto.
  destruct H as (A & c & cp & ps & l & ls & w1 & ps1 & mi & lp_sol & af & tu & tuh & tp & w2 & w3 & w4 &
    HF & Hz & S1 & Hp1 & Hmi & Hlp & I1 & Haf & I2 & Hc & Hz1 & Hmin & B1 & T1 & T2 & S2).
  destruct (liq_keys _ _ _ _ _ _ _ _ _ _ _ _ HF) as (K1 & K2 & K3 & K4 & K5 & K6 & K7).
  assert (Sh : shape w w1) by (eapply sync_shape; eauto).
  pose proof (burn_shape _ _ _ _ _ _ _ _ B1) as Shb.
  pose proof (shape_trans _ _ _ Sh Shb) as Sh1.
  destruct (transfer_parties _ _ _ _ _ _ _ _ _ _ T1 Sh1) as (HR & HU & Hs & Sh2).
  destruct (transfer_parties _ _ _ _ _ _ _ _ _ _ T2 Sh2) as (_ & HP & _ & _).
  apply burn_inv in B1. destruct B1 as (tt & m1 & _ & Ht & _ & _ & _ & Mt & Ot & _).
  destruct (shape_back _ _ _ _ Sh Ht) as (t0 & Ht0 & Ht1 & Ht2).
  destruct HF as (Hac & Hn & Hsig & Hwr & HP0 & HL & HT1 & HT2 & Hlm & Hp & Hact & Hl & N1 & Hm & Hin &
    D1 & D2 & _).
  destruct HR as (r & R1 & R2 & R3).
  exists l, ls, t0. unfold liq_parties. rewrite K1, K2, K3, K4, K5, K6, K7. csplit; eauto; try congruence.
  - exists t0. split; auto. congruence.
  - exists (la_signer A). rewrite Hac. cbn. auto.
Qed.

Lemma start_run E C w accs a w' :
  base_inv w -> process D E C w accs (StartRebalance a) = Ok w' ->
  exists w2 l lsrc ldst ps,
    start_flow E w accs (sr_src_lst_calc_accs a) (sr_src_lst_index a) (sr_dst_lst_index a) w2 (sr_amount a) w' /\
    the_pool w = Some ps /\ signed_by accs (rebalance_authority ps) /\
    the_list w = Some l /\ nth_error l (Z.to_nat (sr_src_lst_index a)) = Some lsrc /\
    nth_error l (Z.to_nat (sr_dst_lst_index a)) = Some ldst /\
    ls_mint lsrc = key_at accs 4 /\ ls_mint ldst = key_at accs 5 /\ is_input_disabled ldst = 0 /\
    sr_min_starting_src_lst a <= balance w (key_at accs 6) /\
    balance w (key_at accs 7) <= sr_max_starting_dst_lst a /\
    0 <= sr_amount a <= balance w (key_at accs 6) /\
    d_create D POOL_STATE_ID (w_owner w (key_at accs 4)) (key_at accs 4) (pool_reserves_bump lsrc)
      = Some (key_at accs 6) /\
    d_create D POOL_STATE_ID (w_owner w (key_at accs 5)) (key_at accs 5) (pool_reserves_bump ldst)
      = Some (key_at accs 7) /\
    (exists t, w_tok w (key_at accs 6) = Some t /\ ta_owner t = POOL_STATE_ID) /\
    (exists t, w_tok w (key_at accs 8) = Some t /\ ta_mint t = key_at accs 4).
Proof.
  intros Hb H. unfold process in H. apply guard_ok in H as (Hwf & H).
  apply start_rebalance_inv in H; auto. wf Hwf.
  destruct H as (reb_auth & pool_state & lst_state_list & rebalance_record & src_lst_mint & dst_lst_mint &
    src_pool_reserves & dst_pool_reserves & withdraw_to & instructions & system_program &
    src_lst_token_program & cs & cd & ps & l & lsrc & ldst & ts & td & w1 & w2 & ps2 & w3 & w4 & ps4 &
    Hac & Hn & HP & HL & HR & HT & Hwr & Hsg & Hra & Hp & Hact & Hl & N1 & N2 & M1 & M2 & Hin & D1 & D2 &
    C1 & C2 & Hts & Hmin & Htd & Hmax & _ & S1 & S2 & Hp2 & T & S3 & Hr4 & Hp4 & ->).
  assert (Sh : shape w w2) by (eapply shape_trans; eapply sync_shape; eauto).
  destruct (transfer_parties _ _ _ _ _ _ _ _ _ _ T Sh) as ((u & U1 & U2 & U3) & HRc & Hs & Sh1).
  pose proof (ctl_same_ctl _ _ (transfer_ctl _ _ _ _ _ _ _ _ _ T)) as HC.
  pose proof (sync_tok _ _ _ _ _ _ _ _ _ S1) as (TK1 & _). pose proof (sync_tok _ _ _ _ _ _ _ _ _ S2) as (TK2 & _).
  apply transfer_balance in T as (TB & TM & _ & TL & _).
  assert (Hs12 : forall q, skipn (12 + q) accs = skipn q
     ((cpi_prog cs :: cpi_accs cs) ++ (cpi_prog cd :: cpi_accs cd))) by (intros q; rewrite Hac; reflexivity).
  assert (G1 : group accs 12 (sr_src_lst_calc_accs a) = cpi_prog cs :: cpi_accs cs).
  { unfold group. rewrite (Hs12 0%nat : skipn 12 accs = _). cbn [skipn]. now apply firstn_group. }
  assert (G2 : skipn (12 + Z.to_nat (sr_src_lst_calc_accs a)) accs = cpi_prog cd :: cpi_accs cd).
  { rewrite (Hs12 (Z.to_nat (sr_src_lst_calc_accs a))). rewrite <- Hn.
    rewrite skipn_app, skipn_all, Nat.sub_diag. reflexivity. }
  assert (K4 : key_at accs 4 = mk src_lst_mint) by (rewrite Hac; reflexivity).
  assert (K5 : key_at accs 5 = mk dst_lst_mint) by (rewrite Hac; reflexivity).
  assert (K6 : key_at accs 6 = mk src_pool_reserves) by (rewrite Hac; reflexivity).
  assert (K7 : key_at accs 7 = mk dst_pool_reserves) by (rewrite Hac; reflexivity).
  assert (K8 : key_at accs 8 = mk withdraw_to) by (rewrite Hac; reflexivity).
  apply sync_revalued in S1, S2, S3.
  exists w2, l, lsrc, ldst, ps. unfold start_flow. rewrite G1, G2, K4, K5, K6, K7, K8. cbn [group_prog group_accs tl].
  unfold balance, U64 in *. rewrite TK2, TK1, Hts in TL. rewrite Hts, Htd.
  csplit; eauto; try lia; try congruence.
  - exists w1, w3, w4, ps4. csplit; auto; try apply HC; try (split; reflexivity).
    unfold the_record. cbn. rewrite upd_same. f_equal. f_equal. unfold total, the_pool. now rewrite Hp2.
  - exists reb_auth. rewrite Hac. cbn. auto.
  - exists ts. split; congruence.
Qed.
End WithDerive.
