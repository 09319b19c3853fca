(** C64: records go stale only by rewards and gifts. *)
From Coq Require Import ZArith List Bool Lia.
From Verif Require Import Periph PeriphSpec PeriphProofs Deploy DeploySpec PropCalc ClientSpec Jup JupSpec PropJup.
From Verif Require Import Base Ratio Calc State Controller Inversion ProcInv Spec CalcProofs InvProofs
  TokProofs AccessProofs ShapeProofs MoneyProofs Concrete ConcreteReach PropState PropAccess PropTok PropMoney PropLp JupRefresh PropDeploy
  AdminSpec HistSpec HistProofs PropHistory ArbSpec PropArb FreshSpec FreshProofs.
Import ListNotations.
Open Scope Z_scope.

Section Fresh.
Context (D : Derive) (HD : derive_ok D).

Definition quiet (ix : Ix) : bool := match ix with
  | SyncSolValue _ | SwapExactIn _ | SwapExactOut _ | AddLiquidity _ | RemoveLiquidity _ | SetSolValueCalculator _
  | StartRebalance _ | EndRebalance => false | _ => true end.
(** What an instruction that measures nothing does to the pool's token accounts. *)
Lemma quiet_balance E C w accs ix w' k t : process D E C w accs ix = Ok w' -> quiet ix = true ->
  w_tok w k = Some t -> ta_owner t = POOL_STATE_ID ->
  balance w' k = balance w k \/ pays_unmeasured accs ix k /\ balance w k <= balance w' k.
Proof.
  intros H Hq Ht Ho. unfold process in H. apply guard_ok in H as (Hwf & H).
  assert (Hsame : w_tok w' = w_tok w -> balance w' k = balance w k) by (intros Hk; unfold balance; now rewrite Hk).
  destruct ix; try discriminate Hq;
  try (match type of H with
       | process_set_lst_input _ _ _ _ = _ => apply set_lst_input_inv in H
       | process_set_admin _ _ = _ => apply set_admin_inv in H
       | process_set_protocol_fee _ _ _ _ = _ => apply set_protocol_fee_inv in H
       | process_set_protocol_fee_beneficiary _ _ = _ => apply set_beneficiary_inv in H
       | process_set_pricing_program _ _ = _ => apply set_pricing_inv in H
       | process_add_disable_pool_authority _ _ = _ => apply add_auth_inv in H
       | process_remove_disable_pool_authority _ _ _ = _ => apply remove_auth_inv in H
       | process_disable_pool _ _ = _ => apply disable_pool_inv in H
       | process_enable_pool _ _ = _ => apply enable_pool_inv in H
       | process_set_rebalance_authority _ _ = _ => apply set_rebalance_authority_inv in H
       | process_initialize _ _ = _ => apply initialize_inv in H
       end;
       repeat match goal with H : exists _, _ |- _ => destruct H end;
       repeat match goal with H : _ /\ _ |- _ => destruct H end; subst w';
       left; apply Hsame; reflexivity).
  - (* AddLst *)
    apply add_lst_inv in H.
    destruct H as (adm & payer & lst_mint & pr & pfa & pfaa & calc & pst & lsl & ap & sp & ltp & rest &
      ps & l & mi & w1 & w2 & prb & pfb & Hacc & _ & _ & _ & _ & _ & _ & _ & _ & _ & _ & F1 & F2 & _ & _ & _ &
      Hp & _ & Hl & Hni & C1 & C2 & ->). left.
    assert (HC : forall wa wb a b c d, create_ata_if_not_exist wa a b c d = Ok wb -> w_tok wa k = Some t -> w_tok wb k = Some t).
    { intros wa wb a b c d Hc Hk. apply create_ata_if_inv in Hc as [(x & _ & _ & ->)|(Hno & _ & _ & ->)]; auto.
      cbn. rewrite upd_other by congruence. exact Hk. }
    pose proof (HC _ _ _ _ _ _ C2 (HC _ _ _ _ _ _ C1 Ht)) as Hk. unfold balance. cbn. now rewrite Hk, Ht.
  - (* RemoveLst *)
    apply remove_lst_inv in H.
    destruct H as (adm & rf & lm & pr & pfa & pfaa & pst & lsl & ltp & rest & ps & l & ls & tr & tf & w1 &
      w2 & Hacc & _ & _ & _ & _ & _ & _ & _ & _ & _ & Hp & _ & Hl & Hn & _ & _ & _ & Htr & Htf & Hz & Hz1 & Hz2 &
      C1 & C2 & ->). left. apply close_inv in C1, C2.
    destruct C1 as (x & _ & Hx & _ & _ & _ & Hxz & ->). destruct C2 as (y & _ & Hy & _ & _ & _ & Hyz & ->).
    unfold balance. cbn. rewrite Ht.
    destruct (Z.eq_dec k (mk pr)) as [->|Hk1].
    { rewrite upd_same. assert (t = tr) by congruence. subst. lia. }
    rewrite upd_other by auto. destruct (Z.eq_dec k (mk pfa)) as [->|Hk2].
    { rewrite upd_same. assert (t = tf) by congruence. subst. lia. }
    rewrite upd_other by auto. now rewrite Ht.
  - (* WithdrawProtocolFees *)
    wf Hwf. apply withdraw_inv in H. destruct H as (b & wt & pf & pfa & tpg & pst & lm & rest & ps & t' & tf & Hacc & H).
    decompose [and] H. clear H.
    match goal with H : transfer_checked _ _ _ _ _ _ _ _ = Ok _ |- _ =>
      pose proof (transfer_balance _ _ _ _ _ _ _ _ _ H) as (HB & _); apply transfer_inv in H end.
    match goal with H : exists f t m, _ |- _ => destruct H as (f & t1 & m & _ & Hf & _ & _ & _ & _ & _ & _ & _ & Hof & _) end.
    rewrite HB, (on_other k (mk pf)) by (intros ->; assert (f = t) by congruence; subst f; rewrite Ho in Hof; exact (pool_ne_fee Hof)).
    subst accs. cbn [pays_unmeasured key_at nth_error]. unfold on. destruct (Z.eqb_spec k (mk wt)); [right; split; [auto|lia]|left; lia].
Qed.

Lemma nodup_listed w l : inv w -> the_list w = Some l -> NoDup (map ls_mint l).
Proof. intros ((la & _ & Hla & _ & Hnd & _) & _) Hl. assert (la = l) by congruence. now subst la. Qed.

(** Instructions that measure: every record relates to what it was, or to what is there. *)
Lemma measuring_pc V E C w accs ix w' : reachable D w -> pdas_do_not_sign accs -> process D E C w accs ix = Ok w' ->
  value_at E V w' -> quiet ix = false ->
  pc D (ledger D V w (measures accs ix) (pays_unmeasured accs ix)) (fun _ => False) w'.
Proof.
  intros Hre Hn H Hh Hq. pose proof (reachable_inv D HD _ Hre) as Hi. pose proof (reachable_ata D HD _ Hre) as Ha.
  pose proof (process_wf _ _ _ _ _ _ _ H) as Hwf.
  pose proof (process_shape D _ _ _ _ _ _ H) as Hsh.
  set (P := ledger D V w (measures accs ix) (pays_unmeasured accs ix)).
  destruct ix as [i|a|a|a|a|i|i| |i|i| |ft lp| | |amt| |i| | |a| | |]; try discriminate Hq; wf Hwf; cbn in Hsh.
  - (* Sync *)
    unfold process in H. apply guard_ok in H as (_ & H). apply sync_proc_inv in H.
    destruct H as (lm & pst & lsl & pr & ps & l & ls & c & Hacc & _ & _ & _ & _ & Hp & _ & Hl & Hn0 & Hm & Hd & Hcc & S). unfold nth_lst in Hn0.
    destruct (vals_list _ _ l (sync_vals _ _ _ _ _ _ _ S) Hl) as (l' & L' & E').
    assert (Hs : speaks E V (sol_value_calculator ls) (ls_mint ls)) by exact (honest_strip E V w _ l l' _ ls Hh Hl L' E' Hn0).
    rewrite <- Hcc, Hm in Hs. apply sync_revalued in S.
    assert (Hmz : forall x, measures accs (SyncSolValue i) x <-> x = mk lm) by (intros x; subst accs; reflexivity).
    destruct (pc_reval D P (measures accs (SyncSolValue i)) _ _ _ _ _ _ _ _ l ls S Hl (nodup_listed _ _ Hi Hl) Hn0 Hm) as (V1 & _);
      [unfold reserves_at; rewrite Hm; exact Hd|intros v Hv; left; split; [now apply Hmz|eapply Hs; eauto]|apply pc_start|].
    eapply pc_weak; [|exact V1]. intros x (A & B). apply Hmz in A. auto.
  - (* SwapExactIn *)
    pose proof (C28_suffix_split D _ _ _ _ _ _ H) as HG.
    destruct (swap_in_parties D _ _ _ _ _ _ H) as (l & lsrc & ldst & Hl & N1 & N2 & HQ).
    destruct (process_list_effect D _ _ _ _ _ _ _ H Hl) as (l' & Hl' & [(Hx & _)|(q & _ & He)]); [discriminate|].
    inversion He; subst; try contradiction.
    apply swap_in_run in H; [|exact (proj1 Hi)]. cbv zeta in H.
    destruct H as (w2 & ? & ? & ? & so & ? & fee & HF & H). destruct a as [n m i j mo amt]. cbv beta iota in HG.
    cbn [si_src_lst_index si_dst_lst_index si_amount si_src_lst_value_calc_accs si_dst_lst_value_calc_accs] in *.
    destruct HG as (g1 & g2 & g3 & p1 & p2 & p3 & psx & lx & ls1 & ls2 & Hsk & Hn1 & Hn2 & _ & Hlx & X1 & X2 & Y1 & Y2 & _).
    assert (lx = l) by congruence. subst lx. assert (ls1 = lsrc) by congruence. assert (ls2 = ldst) by congruence. subst ls1 ls2.
    destruct (group_first _ _ _ _ _ _ Hsk Hn1) as (G1 & Hsk2). destruct (group_first _ _ _ _ _ _ Hsk2 Hn2) as (G2 & _).
    apply (swap_pc D HD V E w accs n m i j w2 amt so fee w' l lsrc ldst); auto; [| |intros ?; reflexivity].
    + rewrite G1. cbn [group_prog]. rewrite Y1. eapply honest_strip; [exact Hh|exact Hl|exact Hl'|assumption|eassumption].
    + rewrite G2. cbn [group_prog]. rewrite Y2. eapply honest_strip; [exact Hh|exact Hl|exact Hl'|assumption|eassumption].
  - (* SwapExactOut *)
    pose proof (C28_suffix_split D _ _ _ _ _ _ H) as HG.
    destruct (swap_out_parties D _ _ _ _ _ _ H) as (l & lsrc & ldst & Hl & N1 & N2 & HQ).
    destruct (process_list_effect D _ _ _ _ _ _ _ H Hl) as (l' & Hl' & [(Hx & _)|(q & _ & He)]); [discriminate|].
    inversion He; subst; try contradiction.
    apply swap_out_run in H; [|exact (proj1 Hi)]. cbv zeta in H.
    destruct H as (w2 & ? & ? & ? & ? & si & fee & HF & H). destruct a as [n m i j mo amt]. cbv beta iota in HG.
    cbn [so_src_lst_index so_dst_lst_index so_amount so_src_lst_value_calc_accs so_dst_lst_value_calc_accs] in *.
    destruct HG as (g1 & g2 & g3 & p1 & p2 & p3 & psx & lx & ls1 & ls2 & Hsk & Hn1 & Hn2 & _ & Hlx & X1 & X2 & Y1 & Y2 & _).
    assert (lx = l) by congruence. subst lx. assert (ls1 = lsrc) by congruence. assert (ls2 = ldst) by congruence. subst ls1 ls2.
    destruct (group_first _ _ _ _ _ _ Hsk Hn1) as (G1 & Hsk2). destruct (group_first _ _ _ _ _ _ Hsk2 Hn2) as (G2 & _).
    apply (swap_pc D HD V E w accs n m i j w2 si amt fee w' l lsrc ldst); auto; [| |intros ?; reflexivity].
    + rewrite G1. cbn [group_prog]. rewrite Y1. eapply honest_strip; [exact Hh|exact Hl|exact Hl'|assumption|eassumption].
    + rewrite G2. cbn [group_prog]. rewrite Y2. eapply honest_strip; [exact Hh|exact Hl|exact Hl'|assumption|eassumption].
  - (* AddLiquidity *)
    pose proof (C28_suffix_split D _ _ _ _ _ _ H) as HG.
    destruct (add_parties D _ _ _ _ _ _ H) as (l & ls & t & Hl & N1 & _ & HQ & US & USo & USs).
    destruct (process_list_effect D _ _ _ _ _ _ _ H Hl) as (l' & Hl' & [(Hx & _)|(q & _ & He)]); [discriminate|].
    inversion He; subst; try contradiction.
    assert (Hsp : speaks E V (group_prog (group accs 11 (al_lst_value_calc_accs a))) (ls_mint ls)).
    { destruct a as [n i amt mn]. cbv beta iota in HG. cbn [al_lst_value_calc_accs al_lst_index] in *.
      destruct HG as (g1 & g3 & p1 & p3 & psx & lx & ls1 & Hsk & Hn1 & _ & Hlx & X1 & Y1 & _).
      assert (lx = l) by congruence. subst lx. assert (ls1 = ls) by congruence. subst ls1.
      destruct (group_first _ _ _ _ _ _ Hsk Hn1) as (G1 & _). rewrite G1. cbn [group_prog]. rewrite Y1.
      eapply honest_strip; [exact Hh|exact Hl|exact Hl'|assumption|eassumption]. }
    apply add_run in H; [|exact (proj1 Hi)]. cbv zeta in H.
    destruct H as (w1 & sol & hi & after & tr & fee & lp & (w2 & R1 & SC & _ & HB & R2) & Hrest).
    assert (Hlp0 : 0 < lp) by tauto.
    apply (liq_pc D HD V E w accs (group accs 11 (al_lst_value_calc_accs a)) (al_lst_index a) w1 w2 w' l ls); auto; [|intros ?; reflexivity].
    intros k tk Hk Hko Hne. rewrite HB.
    destruct HQ as (M1 & (ul & UL1 & ULm) & _ & (rs & RS & RSm) & (rf & RF & RFm) & _).
    rewrite (on_other k (lq_user_lst accs)), (on_other k (lq_reserves accs)), (on_other k (lq_fee_acc accs)) by (intros ->; congruence).
    cbn [pays_unmeasured]. unfold on. destruct (Z.eqb_spec k (lq_user_lp accs)); [right; split; [auto|lia]|left; lia].
  - (* RemoveLiquidity *)
    pose proof (C28_suffix_split D _ _ _ _ _ _ H) as HG.
    destruct (remove_parties D _ _ _ _ _ _ H) as (l & ls & t & Hl & N1 & HQ & US & USo & USs).
    destruct (process_list_effect D _ _ _ _ _ _ _ H Hl) as (l' & Hl' & [(Hx & _)|(q & _ & He)]); [discriminate|].
    inversion He; subst; try contradiction.
    assert (Hsp : speaks E V (group_prog (group accs 11 (rl_lst_value_calc_accs a))) (ls_mint ls)).
    { destruct a as [n i amt mn]. cbv beta iota in HG. cbn [rl_lst_value_calc_accs rl_lst_index] in *.
      destruct HG as (g1 & g3 & p1 & p3 & psx & lx & ls1 & Hsk & Hn1 & _ & Hlx & X1 & Y1 & _).
      assert (lx = l) by congruence. subst lx. assert (ls1 = ls) by congruence. subst ls1.
      destruct (group_first _ _ _ _ _ _ Hsk Hn1) as (G1 & _). rewrite G1. cbn [group_prog]. rewrite Y1.
      eapply honest_strip; [exact Hh|exact Hl|exact Hl'|assumption|eassumption]. }
    apply remove_run in H; [|exact (proj1 Hi)]. cbv zeta in H.
    destruct H as (w1 & sol & after & tu & hi & fee & (w2 & R1 & SC & _ & HB & R2) & Hrest).
    apply (liq_pc D HD V E w accs (group accs 11 (rl_lst_value_calc_accs a)) (rl_lst_index a) w1 w2 w' l ls); auto; [|intros ?; reflexivity].
    intros k tk Hk Hko Hne. left. rewrite HB.
    pose proof (signer_users _ _ _ _ Hn US USo USs _ US) as (Nu & _).
    destruct HQ as (M1 & (ul & UL1 & ULm) & _ & (rs & RS & RSm) & (rf & RF & RFm) & _).
    rewrite (on_other k (lq_user_lst accs)), (on_other k (lq_reserves accs)), (on_other k (lq_fee_acc accs)), (on_other k (lq_user_lp accs)) by (intros ->; congruence).
    lia.
  - (* SetSolValueCalculator *)
    unfold process in H. apply guard_ok in H as (_ & H). apply set_calculator_inv in H.
    destruct H as (adm & lm & pst & pr & lsl & ps & l & ls & c & Hacc & _ & _ & _ & _ & _ & _ & Hp & _ & Hl & Hn0 & Hm & Hd & _ & S). unfold nth_lst in Hn0.
    set (lc := replace_nth l (Z.to_nat i) (set_calculator ls (mk (cpi_prog c)))) in *.
    set (wc := put_list w LST_STATE_LIST_ID (Some lc)) in *.
    assert (Lc : the_list wc = Some lc) by apply the_list_put.
    assert (Nc : nth_error lc (Z.to_nat i) = Some (set_calculator ls (mk (cpi_prog c)))).
    { unfold lc. eapply nth_error_replace_same; eauto. }
    destruct (vals_list _ _ lc (sync_vals _ _ _ _ _ _ _ S) Lc) as (l' & L' & E').
    pose proof (honest_strip E V wc w' lc l' _ _ Hh Lc L' E' Nc) as Hs. cbn [sol_value_calculator set_calculator ls_mint] in Hs.
    rewrite Hm in Hs. apply sync_revalued in S.
    assert (Hmz : forall x, measures accs (SetSolValueCalculator i) x <-> x = mk lm) by (intros x; subst accs; reflexivity).
    assert (Hndc : NoDup (map ls_mint lc)).
    { replace (map ls_mint lc) with (map ls_mint l); [exact (nodup_listed _ _ Hi Hl)|]. unfold lc. clear -Hn0.
      revert l Hn0. generalize (Z.to_nat i). induction n; intros [|x l] H; try discriminate; cbn in *;
        [injection H as ->; reflexivity|f_equal; auto]. }
    assert (Hpc : pc D P (measures accs (SetSolValueCalculator i)) wc).
    { intros lz lx k Hlz Hx Hk Hnx. rewrite Lc in Hlz. injection Hlz as <-. apply In_nth_error in Hx as (x & Hx).
      assert (Hxi : x <> Z.to_nat i).
      { intros ->. rewrite Nc in Hx. injection Hx as <-. apply Hnx, Hmz. exact Hm. }
      unfold lc in Hx. rewrite nth_error_replace_other in Hx by auto.
      right. split; auto. exists l, lx, k. csplit; auto. eapply nth_error_In; eauto. }
    destruct (pc_reval D P (measures accs (SetSolValueCalculator i)) _ _ _ _ _ _ _ _ lc _ S Lc Hndc Nc Hm) as (V1 & _);
      [unfold reserves_at; cbn [ls_mint set_calculator pool_reserves_bump]; rewrite Hm; exact Hd
      |intros v Hv; left; split; [now apply Hmz|eapply Hs; eauto]|exact Hpc|].
    eapply pc_weak; [|exact V1]. intros x (A & B). apply Hmz in A. auto.
  - (* StartRebalance *)
    unfold process in H. apply guard_ok in H as (_ & H). apply start_rebalance_inv in H.
    destruct H as (reb_auth & pool_state & lst_state_list & rebalance_record & src_lst_mint & dst_lst_mint &
      src_pool_reserves & dst_pool_reserves & withdraw_to & instructions & system_program &
      src_lst_token_program & cs & cd & ps & l & lsrc & ldst & ts & td & w1 & w2 & ps2 & w3 & w4 & ps4 &
      Hac & Hnc & HP & HL & HR & HT & Hwr & Hsg & Hra & Hp & Hact & Hl & N1 & N2 & M1 & M2 & Hin & D1 & D2 &
      C1 & C2 & Hts & Hmin & Htd & Hmax & _ & S1 & S2 & Hp2 & T & S3 & Hr4 & Hp4 & ->).
    unfold nth_lst in N1, N2.
    assert (HX : exists l', the_list w4 = Some l' /\ map strip l' = map strip l).
    { assert (HV : vals_only w w4).
      { eapply vals_trans; [eapply sync_vals, S1|]. eapply vals_trans; [eapply sync_vals, S2|].
        eapply vals_trans; [eapply ctl_vals, transfer_ctl, T|]. eapply sync_vals, S3. }
      destruct (vals_list _ _ _ HV Hl) as (l' & Hv & He). eauto. }
    destruct HX as (l4 & L4 & E4).
    assert (Hs1 : speaks E V (sol_value_calculator lsrc) (ls_mint lsrc)) by exact (honest_strip E V w _ l l4 _ lsrc Hh Hl L4 E4 N1).
    assert (Hs2 : speaks E V (sol_value_calculator ldst) (ls_mint ldst)) by exact (honest_strip E V w _ l l4 _ ldst Hh Hl L4 E4 N2).
    rewrite <- C1 in Hs1. rewrite <- C2 in Hs2. rewrite M1 in Hs1. rewrite M2 in Hs2.
    set (mz := measures accs (StartRebalance a)) in *.
    assert (Hmz : forall x, mz x <-> x = mk src_lst_mint \/ x = mk dst_lst_mint) by (intros x; unfold mz; subst accs; reflexivity).
    pose proof (transfer_shape _ _ _ _ _ _ _ _ _ T) as ShT. pose proof ShT as (OT & _).
    pose proof (ctl_same_ctl _ _ (transfer_ctl _ _ _ _ _ _ _ _ _ T)) as (SP & SL & _).
    pose proof (transfer_balance _ _ _ _ _ _ _ _ _ T) as (TB & _).
    apply transfer_inv in T. destruct T as (f & tw & mi & _ & Tf & Tw & _ & _ & _ & _ & Tfm & Twm & _).
    pose proof (sync_tok _ _ _ _ _ _ _ _ _ S1) as (Y1 & _). pose proof (sync_tok _ _ _ _ _ _ _ _ _ S2) as (Y2 & _).
    assert (Y12 : w_tok w2 = w_tok w) by congruence. rewrite Y12 in Tf, Tw.
    apply sync_revalued in S1, S2, S3.
    destruct (pc_reval D P mz _ _ _ _ _ _ _ _ l lsrc S1 Hl (nodup_listed _ _ Hi Hl) N1 M1) as (V1 & O1 & K1 & l1 & L1 & E1);
      [unfold reserves_at; now rewrite M1|intros v Hv; left; split; [apply Hmz; auto|eapply Hs1; eauto]|apply pc_start|].
    destruct (strip_nth _ _ _ _ E1 N2) as (ld1 & N21 & Md1 & Bd1 & _).
    assert (Q1 : ls_mint ld1 = mk dst_lst_mint) by congruence.
    assert (Hnd1 : NoDup (map ls_mint l1)) by (rewrite (strip_mints _ _ E1); exact (nodup_listed _ _ Hi Hl)).
    destruct (pc_reval D P (fun x => mz x /\ x <> mk src_lst_mint) _ _ _ _ _ _ _ _ l1 ld1 S2 L1 Hnd1 N21 Q1) as (V2 & O2 & K2 & l2 & L2 & E2);
      [unfold reserves_at; rewrite Q1, O1, Bd1; exact D2|intros v Hv; left; split; [apply Hmz; auto|eapply Hs2; eauto]|exact V1|].
    rewrite L2 in SL. rewrite E1 in E2.
    assert (C3 : pc D P (fun x => x = mk src_lst_mint) w3).
    { apply (pc_move D P _ w2); auto; [now rewrite SL, L2| |].
      2:{ eapply pc_weak; [|exact V2]. intros x ((A & B) & B'). apply Hmz in A. tauto. }
      intros lz lx k v Hlz Hx Hk Hnx. rewrite L2 in Hlz. injection Hlz as <-.
      apply In_nth_error in Hx as (x & Hx). symmetry in E2. destruct (strip_nth l2 l x lx E2 Hx) as (lx0 & Hx0 & Mx & Bx & _).
      assert (Hk0 : reserves_at D w lx0 k) by (unfold reserves_at in *; rewrite Mx, Bx; congruence).
      destruct (reserve_account D HD _ _ _ _ Ha Hl (nth_error_In _ _ Hx0) Hk0) as (_ & t & Ht & Hmt & Hot).
      rewrite TB. rewrite (on_other k (mk src_pool_reserves)), (on_other k (mk withdraw_to)) by (intros ->; congruence).
      match goal with |- _ -> P _ _ ?b => replace b with (balance w2 k) by lia end. auto. }
    destruct (strip_nth l l2 _ lsrc E2 N1) as (ls2 & N12 & Ms2 & Bs2 & _).
    assert (Hnd2 : NoDup (map ls_mint l2)) by (rewrite (strip_mints _ _ E2); exact (nodup_listed _ _ Hi Hl)).
    destruct (pc_reval D P (fun x => x = mk src_lst_mint) _ _ _ _ _ _ _ _ l2 ls2 S3 SL Hnd2 N12) as (V4 & _);
      [congruence|unfold reserves_at; rewrite Ms2, Bs2, M1, OT, O2, O1; exact D1
      |intros v Hv; left; split; [apply Hmz; auto|eapply Hs1; eauto]|exact C3|].
    assert (V5 : pc D P (fun _ => False) w4) by (eapply pc_weak; [|exact V4]; cbn; tauto).
    exact V5.
  - (* EndRebalance *)
    unfold process in H. apply guard_ok in H as (_ & H). apply end_rebalance_inv in H.
    destruct H as (ra & pst & lst & rr & dm & dr & c & ps & l & rec & ld & w2 & ps2 & Hacc & _ & _ & _ & _ & _ & _ &
      _ & _ & Hp & _ & Hl & Hrec & Hn0 & Hm & Hd & Hcc & S & Hp2 & Hle & ->). unfold nth_lst in Hn0.
    destruct (vals_list _ _ l (sync_vals _ _ _ _ _ _ _ S) Hl) as (l' & L' & E').
    assert (Hs : speaks E V (sol_value_calculator ld) (ls_mint ld)) by exact (honest_strip E V w _ l l' _ ld Hh Hl L' E' Hn0).
    rewrite <- Hcc, Hm in Hs. apply sync_revalued in S.
    set (mz := measures accs EndRebalance) in *.
    assert (Hmz : forall x, mz x <-> x = mk dm) by (intros x; unfold mz; subst accs; reflexivity).
    assert (Hpc : pc D P mz (put_pool w POOL_STATE_ID (Some (set_rebalancing ps 0)))) by exact (pc_start D V w mz _).
    destruct (pc_reval D P mz _ _ _ _ _ _ _ _ l ld S Hl (nodup_listed _ _ Hi Hl) Hn0 Hm) as (V1 & _);
      [unfold reserves_at; rewrite Hm; exact Hd|intros v Hv; left; split; [now apply Hmz|eapply Hs; eauto]|exact Hpc|].
    assert (V5 : pc D P (fun _ => False) w2).
    { eapply pc_weak; [|exact V1]. intros x (A & B). apply Hmz in A. auto. }
    exact V5.
Qed.

Lemma reserves_key_of w l ls : reachable D w -> the_list w = Some l -> In ls l ->
  reserves_at D w ls (reserves_key D w (ls_mint ls)) /\ w_mint w (ls_mint ls) <> None /\
  exists t, w_tok w (reserves_key D w (ls_mint ls)) = Some t /\ ta_owner t = POOL_STATE_ID.
Proof.
  intros Hr Hl Hin. destruct (C39_listed_accounts_exist D w l ls HD Hr Hl Hin) as (_ & Hm & r & f & tr & tf & Hf & Hcr & _ & _ & Ht & _ & Ho & _).
  unfold reserves_key. rewrite Hf. cbn [fst]. csplit; auto. exists tr. auto.
Qed.
Lemma measures_dec accs ix m : measures accs ix m \/ ~ measures accs ix m.
Proof.
  destruct ix; cbn [measures]; try tauto;
    repeat match goal with |- context [m = ?x] => lazymatch goal with H : m = x \/ m <> x |- _ => fail | _ =>
      assert (m = x \/ m <> x) by (destruct (Z.eq_dec m x); auto) end end; tauto.
Qed.

(** After any instruction, whatever the state it finds: the records of the LSTs it names are what their reserves are worth
    now. Every other record is as before, and so are the reserves it stands for, unless the caller had LP tokens minted, or
    protocol fees paid, into those very reserves. A newly listed LST starts at 0. *)
Theorem C64_records E V C w accs ix w' l' ls' : reachable D w -> pdas_do_not_sign accs ->
  process D E C w accs ix = Ok w' -> value_at E V w' -> the_list w' = Some l' -> In ls' l' ->
  let m := ls_mint ls' in
  (measures accs ix m -> sol_value ls' = V m (in_pool D w' m)) /\
  (~ measures accs ix m ->
     (same_record w ls' /\ (in_pool D w' m = in_pool D w m \/
        pays_unmeasured accs ix (reserves_key D w' m) /\ in_pool D w m <= in_pool D w' m)) \/
     (ix = AddLst /\ ~ In m (listed_mints w) /\ sol_value ls' = 0)).
Proof.
  intros Hre Hn H Hh Hl' Hin m. pose proof (reachable_inv D HD _ Hre) as Hi.
  pose proof (reach_ctl _ _ _ _ _ _ _ Hre Hn H) as Hre'.
  destruct (reserves_key_of w' l' ls' Hre' Hl' Hin) as (Hk' & _). fold m in Hk'.
  assert (Hown : forall x, w_mint w x <> None -> w_owner w' x = w_owner w x).
  { intros x Hx. eapply (proj1 (steps_keep D HD w w' Hre (steps_cons _ _ _ _ (steps_refl _ _) (step_controller _ _ _ _ _ _ _ Hn H)))); auto. }
  assert (Hkey : forall l ls, the_list w = Some l -> In ls l -> ls_mint ls = m -> reserves_key D w' m = reserves_key D w m).
  { intros l ls Hl Hls He. destruct (reserves_key_of w l ls Hre Hl Hls) as (_ & Hm & _). rewrite He in Hm.
    unfold reserves_key. now rewrite (Hown m Hm). }
  destruct (quiet ix) eqn:Hq.
  2:{ pose proof (measuring_pc V E C w accs ix w' Hre Hn H Hh Hq l' ls' _ Hl' Hin Hk' (fun x => x)) as Q. fold m in Q.
      change (balance w' (reserves_key D w' m)) with (in_pool D w' m) in Q.
      destruct Q as [(Hz & Q)|(Hz & l & ls & k & Q1 & Q2 & Q3 & Q4 & Q5 & Q6)]; [tauto|]. split; [tauto|]. intros _. left.
      destruct (reserves_key_of w l ls Hre Q1 Q2) as (Hk & _). rewrite Q3 in Hk. assert (k = reserves_key D w m) by (unfold reserves_at in *; congruence). subst k.
      split; [exists l, ls; auto|]. rewrite (Hkey l ls Q1 Q2 Q3) in *. exact Q6. }
  split; [destruct ix; try discriminate Hq; cbn [measures]; tauto|]. intros _.
  assert (Hold : same_record w ls' -> in_pool D w' m = in_pool D w m \/
     pays_unmeasured accs ix (reserves_key D w' m) /\ in_pool D w m <= in_pool D w' m).
  { intros (l & ls & Q1 & Q2 & Q3 & _). destruct (reserves_key_of w l ls Hre Q1 Q2) as (_ & _ & t & Ht & Ho).
    change (ls_mint ls') with m in Q3. rewrite Q3 in Ht. unfold in_pool. rewrite (Hkey l ls Q1 Q2 Q3).
    exact (quiet_balance E C w accs ix w' _ t H Hq Ht Ho). }
  destruct (proj1 Hi) as (l & au & Hl & _).
  assert (Hsame : In ls' l -> same_record w ls') by (intros Hx; exists l, ls'; auto).
  destruct (process_list_effect D _ _ _ _ _ _ _ H Hl) as (l1 & Hl1 & [(Hx & ->)|(q & Hpq & He)]).
  - assert (l' = l) by congruence. subst l'. left. auto.
  - assert (l1 = l') by congruence. subst l1.
    destruct ix; try discriminate Hq;
      inversion He as [| |i0 ls m0 E1 E2 E3 Ei El|i0 ls m0 E1 E2 E3 Ei El|m0 c b1 b2 E1 E2 E3 E4 E5 Ei El|i0 ls m0 E1 E2 E3 E4 Ei El|]; subst; try contradiction;
      try (left; now auto).
    + left. assert (same_record w ls'); auto. apply In_replace_nth in Hin as [->|Hin]; [|auto]. exists l, ls. csplit; auto. eapply nth_error_In; eauto.
    + left. assert (same_record w ls'); auto. apply In_replace_nth in Hin as [->|Hin]; [|auto]. exists l, ls. csplit; auto. eapply nth_error_In; eauto.
    + apply in_app_or in Hin as [Hin|[<-|[]]]; [left; auto|]. right. csplit; auto. unfold m. cbn [ls_mint]. unfold listed_mints. now rewrite Hl.
    + apply In_remove_nth in Hin. left; auto.
Qed.

Lemma stale_reach V0 w0 st V w : reachable D w0 -> stale_history D V0 w0 st V w -> reachable D w.
Proof. intros Hr H. induction H; auto; [eapply reach_ctl; eauto|eapply reach_ext; eauto]. Qed.

(** Along any history, whatever becomes of the tokens' worth, every record outside the set that history accumulates is what the reserves are worth:
    an LST's record falls behind only when tokens reach its reserves unmeasured or are revalued there, and catches up at the next instruction naming it. *)
Theorem C64_history V0 w0 st V w l ls : reachable D w0 -> stale_history D V0 w0 st V w ->
  the_list w = Some l -> In ls l -> ~ st (ls_mint ls) -> sol_value ls = V (ls_mint ls) (in_pool D w (ls_mint ls)).
Proof.
  intros Hr H. revert l ls. induction H as [st Hs|st V w E C accs ix w' Hh IH Hn Hp Hv|st V w w' Hh IH Hx|st V w V' Hh IH]; intros l ls Hl Hin Hst; [eauto| | |].
  - pose proof (stale_reach _ _ _ _ _ Hr Hh) as Hw.
    destruct (C64_records E V C w accs ix w' l ls Hw Hn Hp Hv Hl Hin) as (A & B). set (m := ls_mint ls) in *.
    destruct (measures_dec accs ix m) as [Hm|Hm]; [auto|].
    destruct (B Hm) as [(Hsr & Hb)|(He & Hnew & Hz)].
    + destruct Hb as [Hb|(Hg & _)]; [|exfalso; apply Hst; tauto].
      destruct Hsr as (l0 & ls0 & Q1 & Q2 & Q3 & Q4). change (ls_mint ls) with m in Q3.
      pose proof (IH l0 ls0 Q1 Q2) as Q. rewrite Q3 in Q. rewrite <- Q4, Hb. apply Q. intros Hx. apply Hst. tauto.
    + rewrite Hz. destruct (Z.eq_dec (V m (in_pool D w' m)) 0) as [->|Hne]; [reflexivity|]. exfalso. apply Hst. tauto.
  - rewrite (x_list _ _ _ Hx) in Hl. pose proof (IH l ls Hl Hin) as Q. set (m := ls_mint ls) in *.
    destruct (Z.eq_dec (in_pool D w' m) (in_pool D w m)) as [->|Hne]; [|exfalso; apply Hst; auto]. apply Q. intros Hy. apply Hst. auto.
  - pose proof (IH l ls Hl Hin) as Q. set (m := ls_mint ls) in *.
    destruct (Z.eq_dec (V' m (in_pool D w m)) (V m (in_pool D w m))) as [->|Hne]; [|exfalso; apply Hst; auto]. apply Q. intros Hy. apply Hst. auto.
Qed.

(** So with nothing stale the pool's recorded total is exactly what it holds. *)
Theorem C64_total V0 w0 st V w : reachable D w0 -> stale_history D V0 w0 st V w ->
  (forall m, In m (listed_mints w) -> ~ st m) -> freshly_measured D V w /\ total w = holdings D V w.
Proof.
  intros Hr H Hs. assert (Hf : freshly_measured D V w).
  { intros l ls Hl Hin. apply (C64_history V0 w0 st V w l ls Hr H Hl Hin). apply Hs. unfold listed_mints. rewrite Hl. now apply in_map. }
  split; auto. apply held_fresh; auto. eapply stale_reach; eauto.
Qed.

(** From genesis, nothing is stale until something reaches the reserves unmeasured. *)
Corollary C64_from_genesis V0 g st V w : genesis D g -> stale_history D V0 g st V w ->
  (forall m, In m (listed_mints w) -> ~ st m) -> freshly_measured D V w.
Proof. intros Hg H Hs. exact (proj1 (C64_total V0 g st V w (reach_genesis _ _ Hg) H Hs)). Qed.

(** C62 with its freshness hypothesis discharged: while nothing reaches the reserves unmeasured, nothing can be made from the pool. *)
Theorem C64_no_arbitrage V1 M r00 g z0 r w1 st w0 w : genesis D g -> fair_history D 0 r00 g z0 r w0 ->
  reachable D w1 -> stale_history D V1 w1 st (worth_at r) w0 -> (forall m, In m (listed_mints w0) -> ~ st m) ->
  0 < M -> fair_history D M r w0 0 r w ->
  the_record w0 = None -> the_record w = None -> listed_mints w = listed_mints w0 -> lp_supply w0 <= lp_supply w ->
  (forall m, In m (listed_mints w) -> in_pool D w m <= in_pool D w0 m) ->
  forall m, In m (listed_mints w) -> worth_at r m (in_pool D w m) = worth_at r m (in_pool D w0 m).
Proof.
  intros Hg Hh Hr Hs Hst HM HM2 N0 N Hm HS Hle.
  eapply (C62_no_arbitrage D HD M r00 g z0 r w0 w); eauto. exact (proj1 (C64_total _ _ _ _ _ Hr Hs Hst)).
Qed.
(** The shipped calculators: every record an instruction measured is what the reserves are worth at the stake pool. *)
Lemma shipped_value_at R dp pw other cs w : pools_typed pw -> shipped_listing dp pw cs w ->
  value_at (deployed_env R dp pw other) (fun m => worth (cs m)) w.
Proof. intros Ht Hs. exact (shipped_truthful R dp pw other cs w Ht Hs). Qed.
Corollary C64_shipped R dp pw other cs C w accs ix w' l' ls' : reachable D w -> pdas_do_not_sign accs -> pools_typed pw ->
  process D (deployed_env R dp pw other) C w accs ix = Ok w' -> shipped_listing dp pw cs w' -> the_list w' = Some l' -> In ls' l' ->
  let m := ls_mint ls' in
  (measures accs ix m -> sol_value ls' = worth (cs m) (in_pool D w' m)) /\
  (~ measures accs ix m ->
     (same_record w ls' /\ (in_pool D w' m = in_pool D w m \/
        pays_unmeasured accs ix (reserves_key D w' m) /\ in_pool D w m <= in_pool D w' m)) \/
     (ix = AddLst /\ ~ In m (listed_mints w) /\ sol_value ls' = 0)).
Proof.
  intros Hr Hn Ht H Hs Hl Hin. exact (C64_records _ (fun m => worth (cs m)) C w accs ix w' l' ls' Hr Hn H (shipped_value_at R dp pw other cs w' Ht Hs) Hl Hin).
Qed.
End Fresh.

(** ** Histories these theorems apply to *)
Definition measuresb (accs : list Meta) (ix : Ix) (m : key) : bool :=
  match ix with
  | SyncSolValue _ => m =? key_at accs 0
  | SwapExactIn _ | SwapExactOut _ => (m =? sw_src_mint accs) || (m =? sw_dst_mint accs)
  | AddLiquidity _ | RemoveLiquidity _ => m =? lq_mint accs
  | SetSolValueCalculator _ => m =? key_at accs 1
  | StartRebalance _ => (m =? key_at accs 4) || (m =? key_at accs 5)
  | EndRebalance => m =? key_at accs 4
  | _ => false
  end.
Lemma measuresb_ok accs ix m : measuresb accs ix m = true -> measures accs ix m.
Proof. destruct ix; cbn; intros H; try discriminate H; rewrite ?orb_true_iff, ?Z.eqb_eq in H; exact H. Qed.
Definition paysb (accs : list Meta) (ix : Ix) (k : key) : bool :=
  match ix with AddLiquidity _ => k =? lq_user_lp accs | WithdrawProtocolFees _ => k =? key_at accs 1 | _ => false end.
Lemma paysb_ok accs ix k : paysb accs ix k = false -> ~ pays_unmeasured accs ix k.
Proof. destruct ix; cbn; intros H Hp; try contradiction; subst k; now rewrite Z.eqb_refl in H. Qed.
Definition newb (ix : Ix) (w w' : World) (m : key) : bool :=
  match ix with AddLst => negb (existsb (Z.eqb m) (listed_mints w)) && negb (worth_at r_ex m (in_pool D0 w' m) =? 0) | _ => false end.
Lemma newb_ok ix w w' m : newb ix w w' m = false ->
  ~ (ix = AddLst /\ ~ In m (listed_mints w) /\ worth_at r_ex m (in_pool D0 w' m) <> 0).
Proof.
  intros H (-> & Hn & Hv). cbn in H. apply andb_false_iff in H as [H|H]; apply negb_false_iff in H.
  - apply existsb_exists in H as (x & Hx & He). apply Z.eqb_eq in He. subst x. auto.
  - apply Z.eqb_eq in H. auto.
Qed.
(** Of the two LSTs of Concrete.v's pool, only those in [L] are stale. *)
Definition at_most (L : list key) (w0 w : World) : Prop :=
  exists st, stale_history D0 (worth_at r_ex) w0 st (worth_at r_ex) w /\ forall m, In m [MA; MB] -> st m -> In m L.
Definition go_check (L L' : list key) (w w' : World) (accs : list Meta) (ix : Ix) : bool :=
  forallb (fun m => existsb (Z.eqb m) L' || measuresb accs ix m ||
    (negb (existsb (Z.eqb m) L) && negb (paysb accs ix (reserves_key D0 w' m)) && negb (newb ix w w' m))) [MA; MB].
Lemma existsb_In m L : existsb (Z.eqb m) L = true <-> In m L.
Proof.
  split; intros H.
  - apply existsb_exists in H as (x & Hx & He). apply Z.eqb_eq in He. now subst x.
  - apply existsb_exists. exists m. split; auto. apply Z.eqb_refl.
Qed.
Lemma go_stale L L' w0 w C accs ix : at_most L w0 w -> okb (process D0 E0 C w accs ix) = true ->
  pdas_do_not_signb accs = true -> listsb (get (process D0 E0 C w accs ix)) = true ->
  go_check L L' w (get (process D0 E0 C w accs ix)) accs ix = true ->
  at_most L' w0 (get (process D0 E0 C w accs ix)).
Proof.
  intros (st & Hs & Hst) Hok Hn Hl Hc. eexists. split.
  - eapply stale_call; [exact Hs|apply pdas_do_not_signb_ok, Hn|apply okb_get, Hok|].
    exact (honest_truthful _ _ _ (proj1 (honest_ex _ Hl))).
  - intros m Hm (Hz & Hd). unfold go_check in Hc. rewrite forallb_forall in Hc. specialize (Hc m Hm).
    apply orb_true_iff in Hc as [Hc|Hc].
    + apply orb_true_iff in Hc as [Hc|Hc]; [now apply existsb_In|]. now apply measuresb_ok in Hc.
    + exfalso. apply andb_true_iff in Hc as (Hc & H3). apply andb_true_iff in Hc as (H1 & H2).
      apply negb_true_iff in H1, H2, H3. destruct Hd as [Hd|[Hd|Hd]].
      * apply (Hst m Hm), existsb_In in Hd. congruence.
      * exact (paysb_ok _ _ _ H2 Hd).
      * exact (newb_ok _ _ _ _ H3 Hd).
Qed.
Lemma go_stale_out L L' w0 w w' : at_most L w0 w -> external_step D0 w w' ->
  forallb (fun m => existsb (Z.eqb m) L' || (negb (existsb (Z.eqb m) L) && (in_pool D0 w' m =? in_pool D0 w m))) [MA; MB] = true ->
  at_most L' w0 w'.
Proof.
  intros (st & Hs & Hst) Hx Hc. eexists. split; [eapply stale_outside; eauto|].
  intros m Hm Hd. rewrite forallb_forall in Hc. specialize (Hc m Hm). cbv beta in Hd.
  apply orb_true_iff in Hc as [Hc|Hc]; [now apply existsb_In|].
  apply andb_true_iff in Hc as (H1 & H2). apply negb_true_iff in H1. apply Z.eqb_eq in H2.
  destruct Hd as [Hd|Hd]; [apply (Hst m Hm), existsb_In in Hd; congruence|contradiction].
Qed.
Ltac stale_step L := eapply (go_stale L); [|vm_compute; reflexivity..].

(** Concrete.v's history: two LSTs are listed, liquidity added, swaps, a redemption, a rebalance that leaves the second LST's
    record behind (its reserves are paid from outside) until EndRebalance measures them. Nothing is stale then, and the
    recorded total is what the pool holds. *)
Example C64_case :
  at_most [] W0 W5 /\ at_most [] W0 W9 /\ at_most [MB] W0 W10 /\ at_most [] W0 W11 /\
  freshly_measured D0 (worth_at r_ex) W11 /\ ~ freshly_measured D0 (worth_at r_ex) W10 /\
  (total W10, holdings D0 (worth_at r_ex) W10) = (1887688, 1897688) /\
  (total W11, holdings D0 (worth_at r_ex) W11) = (1897688, 1897688).
Proof.
  assert (H5 : at_most [] W0 W5).
  { unfold W5, R5. stale_step (@nil key). unfold W4, R4. stale_step (@nil key). unfold W3, R3. stale_step (@nil key). unfold W2, R2. stale_step (@nil key). unfold W1, R1. stale_step (@nil key).
    exists (fun _ => False). split; [|contradiction]. apply stale_start. intros l ls Hl Hin _.
    assert (l = []) by (destruct W0_genesis as (_ & Hg & _); congruence). subst l. destruct Hin. }
  assert (H9 : at_most [] W0 W9).
  { unfold W9, R9. stale_step (@nil key). unfold W8, R8. stale_step (@nil key). unfold W7, R7. stale_step (@nil key). unfold W6, R6. stale_step (@nil key). exact H5. }
  assert (H10 : at_most [MB] W0 W10).
  { eapply go_stale_out; [exact H9| |vm_compute; reflexivity].
    eapply (transfer_external D0 W9 SPL_TOKEN_2022_ID UB RB MB USER true 5000); [| |lia| |].
    - apply base_u64. exact (proj1 (reachable_inv D0 D0_ok _ W9_reach)).
    - exact (proj1 (reachable_ata D0 D0_ok _ W9_reach)).
    - unfold USER. cbn. unfold POOL_STATE_ID, LST_STATE_LIST_ID, DISABLE_POOL_AUTHORITY_LIST_ID,
        REBALANCE_RECORD_ID, PROTOCOL_FEE_ID. intuition lia.
    - unfold W10, R10. apply okb_get. vm_compute. reflexivity. }
  assert (H11 : at_most [] W0 W11).
  { unfold W11, R11. stale_step [MB]. exact H10. }
  split; [exact H5|]. split; [exact H9|]. split; [exact H10|]. split; [exact H11|].
  split; [apply freshb_ok; vm_compute; reflexivity|].
  split; [|split; vm_compute; reflexivity].
  intros H. pose proof (held_fresh D0 D0_ok _ W10 W10_reach H) as Q. vm_compute in Q. discriminate Q.
Qed.

(** The exception is real: the beneficiary may withdraw protocol fees into the pool's own reserves, and the record of that LST
    stays behind until someone has it measured. *)
Definition gift_accs : list Meta := match withdraw_accs with b :: _ :: rest => b :: rw RB :: rest | _ => [] end.
Definition S15 := process D0 E0 C0 W14 gift_accs (WithdrawProtocolFees 5).
Example C64_gift :
  process D0 E0 C0 W14 gift_accs (WithdrawProtocolFees 5) = Ok (get S15) /\ pays_unmeasured gift_accs (WithdrawProtocolFees 5) (reserves_key D0 (get S15) MB) /\
  in_pool D0 (get S15) MB = in_pool D0 W14 MB + 5 /\ total (get S15) = total W14 /\
  freshly_measured D0 (worth_at r_ex) W14 /\ ~ freshly_measured D0 (worth_at r_ex) (get S15).
Proof.
  assert (H : process D0 E0 C0 W14 gift_accs (WithdrawProtocolFees 5) = Ok (get S15)) by (unfold S15; apply okb_get; vm_compute; reflexivity).
  split; [exact H|]. do 3 (split; [vm_compute; reflexivity|]). split; [apply freshb_ok; vm_compute; reflexivity|].
  assert (Hn : pdas_do_not_sign gift_accs) by (apply pdas_do_not_signb_ok; vm_compute; reflexivity).
  pose proof (reach_ctl _ _ _ _ _ _ _ W14_reach Hn H) as Hr.
  intros Hf. pose proof (held_fresh D0 D0_ok _ _ Hr Hf) as Q. vm_compute in Q. discriminate Q.
Qed.

(** Rewards with the shipped programs: PropHistory's pool, whose second stake pool earns. Its LST's record, current until then,
    falls behind by the rewards (and only its record does), and SyncSolValue on it catches up. *)
Definition pool_worth (cs : pools) : key -> Z -> Z := fun m => worth (cs m).
Definition at_most_at (L : list key) (w0 : World) (cs : pools) (w : World) : Prop :=
  exists st, stale_history D0 (pool_worth cs1) w0 st (pool_worth cs) w /\ forall m, In m [MA; MB] -> st m -> In m L.
Definition newb_at (cs : pools) (ix : Ix) (w w' : World) (m : key) : bool :=
  match ix with AddLst => negb (existsb (Z.eqb m) (listed_mints w)) && negb (worth (cs m) (in_pool D0 w' m) =? 0) | _ => false end.
Lemma newb_at_ok cs ix w w' m : newb_at cs ix w w' m = false ->
  ~ (ix = AddLst /\ ~ In m (listed_mints w) /\ pool_worth cs m (in_pool D0 w' m) <> 0).
Proof.
  intros H (-> & Hn & Hv). cbn in H. apply andb_false_iff in H as [H|H]; apply negb_false_iff in H.
  - apply existsb_exists in H as (x & Hx & He). apply Z.eqb_eq in He. subst x. auto.
  - apply Z.eqb_eq in H. auto.
Qed.
Definition go_check_at (cs : pools) (L L' : list key) (w w' : World) (accs : list Meta) (ix : Ix) : bool :=
  forallb (fun m => existsb (Z.eqb m) L' || measuresb accs ix m ||
    (negb (existsb (Z.eqb m) L) && negb (paysb accs ix (reserves_key D0 w' m)) && negb (newb_at cs ix w w' m))) [MA; MB].
Lemma go_stale_at L L' w0 w cs pw C accs ix : let r := process D0 (deployed_env ref_ratio_lib dp1 pw E0) C w accs ix in
  at_most_at L w0 cs w -> pools_typed pw -> (listsb (get r) = true -> shipped_listing dp1 pw cs (get r)) ->
  okb r = true -> pdas_do_not_signb accs = true -> listsb (get r) = true -> go_check_at cs L L' w (get r) accs ix = true ->
  at_most_at L' w0 cs (get r).
Proof.
  intros r (st & Hs & Hst) Ht Hlist Hok Hn Hl Hc. eexists. split.
  - eapply stale_call; [exact Hs|apply pdas_do_not_signb_ok, Hn|apply okb_get, Hok|].
    exact (shipped_value_at ref_ratio_lib dp1 pw E0 cs _ Ht (Hlist Hl)).
  - intros m Hm (Hz & Hd). unfold go_check_at in Hc. rewrite forallb_forall in Hc. specialize (Hc m Hm).
    apply orb_true_iff in Hc as [Hc|Hc].
    + apply orb_true_iff in Hc as [Hc|Hc]; [now apply existsb_In|]. now apply measuresb_ok in Hc.
    + exfalso. apply andb_true_iff in Hc as (Hc & H3). apply andb_true_iff in Hc as (H1 & H2).
      apply negb_true_iff in H1, H2, H3. destruct Hd as [Hd|[Hd|Hd]].
      * apply (Hst m Hm), existsb_In in Hd. congruence.
      * exact (paysb_ok _ _ _ H2 Hd).
      * exact (newb_at_ok _ _ _ _ _ H3 Hd).
Qed.
Ltac stale_step_at L := eapply (go_stale_at L); [|(exact pw1_typed || exact pw2_typed)|apply listing_ex|vm_compute; reflexivity..].
Example C64_rewards :
  at_most_at [] W0 cs1 (get X6) /\ at_most_at [MB] W0 cs2 (get X6) /\ at_most_at [] W0 cs2 (get X7) /\
  (total (get X6), holdings D0 (pool_worth cs1) (get X6), holdings D0 (pool_worth cs2) (get X6)) =
    (total (get X6), total (get X6), total (get X7)) /\
  total (get X6) < total (get X7) /\ total (get X7) = holdings D0 (pool_worth cs2) (get X7).
Proof.
  assert (H6 : at_most_at [] W0 cs1 (get X6)).
  { unfold X6. stale_step_at (@nil key). unfold X5. stale_step_at (@nil key). unfold X4. stale_step_at (@nil key).
    unfold X3. stale_step_at (@nil key). unfold X2. stale_step_at (@nil key). unfold X1. stale_step_at (@nil key).
    exists (fun _ => False). split; [|contradiction]. apply stale_start. intros l ls Hl Hin _.
    assert (l = []) by (destruct W0_genesis as (_ & Hg & _); congruence). subst l. destruct Hin. }
  assert (H62 : at_most_at [MB] W0 cs2 (get X6)).
  { destruct H6 as (st & Hs & Hst). eexists. split; [exact (stale_revalued _ _ _ _ _ _ (pool_worth cs2) Hs)|].
    intros m Hm [Hd|Hd]; [destruct (Hst m Hm Hd)|]. cbn [In] in Hm |- *. destruct Hm as [<-|[<-|[]]]; [|auto].
    exfalso. apply Hd. reflexivity. }
  assert (H7 : at_most_at [] W0 cs2 (get X7)).
  { unfold X7. stale_step_at [MB]. exact H62. }
  split; [exact H6|]. split; [exact H62|]. split; [exact H7|].
  split; [vm_compute; reflexivity|]. split; vm_compute; reflexivity.
Qed.
