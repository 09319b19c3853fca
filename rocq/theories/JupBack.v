(** Proofs for C60: what the chain accepts, the client quotes. *)
From Coq Require Import ZArith List Bool Lia.
From Verif Require Import Base Ratio Calc State Controller Inversion ProcInv Spec CalcProofs InvProofs TokProofs AccessProofs
  ShapeProofs MoneyProofs Periph PeriphSpec PeriphProofs PropCalc PropFlat Serde SerdeProofs Client ClientSpec ClientProofs PropClient
  Deploy Known Jup JupSpec JupProofs JupPool QuoteSpec.
Import ListNotations.
Open Scope Z_scope.

Section Back.
Context (R : RatioLib) (dp : Deploy) (pw : PWorld) (other : Env) (D : Derive) (C : Ctx) (SP : SPool) (w : World).
Notation E := (deployed_env R dp pw other).
Hypothesis HR : ratio_lib_ok R.
Hypothesis HT : pools_typed pw.
Hypothesis HDp : deploy_ok dp.
Hypothesis HF : flat_derive_ok (dp_flat dp).
Hypothesis HP : flat_reachable R (dp_flat dp) pw.
Hypothesis HD : derive_ok D.
Hypothesis Hreach : reachable D w.
Hypothesis Hsync : in_sync dp D SP w pw.
Hypothesis Hlen : Z.of_nat (length (jp_list SP)) <= U32_MAX.
Hypothesis Hready : calculators_ready dp pw SP.
Notation facts := (entry_facts dp pw D SP w).

Lemma back_l2s m i ls ld w0 x v : facts m i ls ld -> invoke_lst_to_sol E w0 (kn_cpi dp (ld_calc ld)) m x = Ok v ->
  kn_lst_to_sol (pw_epoch pw) (ld_calc ld) x = Ok v.
Proof.
  intros F H. rewrite <- (kn_mint_eq _ _ _ _ _ _ _ _ _ F) in H. unfold invoke_lst_to_sol in H. destruct v as (lo & hi).
  apply decode_range_ok in H as (H & _). cbn [kn_cpi cpi_prog cpi_accs mk ro] in H.
  apply (chain_known_l2s R dp pw other HDp w0); [apply F|exact H].
Qed.
Lemma back_s2l m i ls ld w0 x v : facts m i ls ld -> invoke_sol_to_lst E w0 (kn_cpi dp (ld_calc ld)) m x = Ok v ->
  kn_sol_to_lst R (pw_epoch pw) (ld_calc ld) x = Ok v.
Proof.
  intros F H. rewrite <- (kn_mint_eq _ _ _ _ _ _ _ _ _ F) in H. unfold invoke_sol_to_lst in H. destruct v as (lo & hi).
  apply decode_range_ok in H as (H & _). cbn [kn_cpi cpi_prog cpi_accs mk ro] in H.
  apply (chain_known_s2l R dp pw other HDp w0); [apply F|exact H].
Qed.

Lemma ok_inj {A} (a b : A) : Ok a = Ok b -> a = b. Proof. congruence. Qed.
(** The chain's sync is the client's. *)
Lemma sync_back w0 ps0 l0 m i i0 ls ld w1 :
  w_tok w0 = w_tok w -> the_pool w0 = Some ps0 -> the_list w0 = Some l0 -> nth_lst l0 i0 = Some ls -> facts m i ls ld ->
  sync_sol_value_unchecked E w0 POOL_STATE_ID LST_STATE_LIST_ID (reserves_of D w m) (kn_cpi dp (ld_calc ld)) m i0 = Ok w1 ->
  exists v1 ls1, apply_sync_sol_value (pw_epoch pw) ps0 ls ld = Ok (set_total ps0 v1, ls1, balance w (reserves_of D w m)) /\
    w1 = put_list (put_pool w0 POOL_STATE_ID (Some (set_total ps0 v1))) LST_STATE_LIST_ID (Some (replace_nth l0 (Z.to_nat i0) ls1)).
Proof.
  intros Ht Hp Hl Hn F H.
  assert (exists r, apply_sync_sol_value (pw_epoch pw) ps0 ls ld = Ok r) as (((ps1 & ls1) & bal) & A).
  { unfold sync_sol_value_unchecked in H. apply bind_ok in H as (b & Hb & H). apply bind_ok in H as ((lo & hi) & Hv & H).
    unfold token_account_balance in Hb. rewrite Ht in Hb. apply bind_ok in Hb as (t & Et & Hb). apply of_option_ok in Et.
    injection Hb as <-. apply (back_l2s _ _ _ _ _ _ _ F) in Hv.
    unfold apply_sync_sol_value. pose proof (es_reserves _ _ _ _ _ _ (ef_sync _ _ _ _ _ _ _ _ _ F)) as Hres.
    rewrite (lu_mint _ _ _ _ _ _ _ _ _ (ef_look _ _ _ _ _ _ _ _ _ F)) in Hres. rewrite Hres. cbn [of_option bind].
    unfold balance. rewrite Et, Hv. cbn [bind fst].
    unfold try_pool_state, try_lst_state_list, the_pool, the_list in *. rewrite Hp, Hl in H. cbn [of_option bind] in H.
    rewrite Hn in H. cbn [of_option bind] in H. apply bind_ok in H as ((ps1 & ls1) & Hr & H). rewrite Hr. cbn [bind]. eauto. }
  pose proof A as A0.
  destruct (sync_step R dp pw other D SP w HT HDp HD Hreach w0 ps0 l0 m i i0 ls ld ps1 ls1 bal Ht Hp Hl Hn F A0) as (S1 & Hb & (v1 & ->) & _).
  exists v1, ls1. rewrite <- Hb. split; [exact A|]. congruence.
Qed.

Lemma active_back ps : the_pool w = Some ps -> verify_not_rebalancing_and_not_disabled ps = Ok tt -> pool_active w.
Proof.
  intros Hp H. apply verify_active in H as (H1 & H2). exists ps. auto.
Qed.
Section Trade.
Context (p : SwapParams) (ps : PoolState) (w' : World) (t : TopIx).
Let sm := p_source_mint p. Let dm := p_destination_mint p.
Hypothesis Hp : the_pool w = Some ps.
Hypothesis Hne : sm <> dm.
Hypothesis Uin : U64 (p_in_amount p).
Hypothesis Uout : U64 (p_out_amount p).
Hypothesis Hrun : run D E C w t = Ok w'.

Lemma swap_in_back : sm <> lp_token_mint ps -> dm <> lp_token_mint ps -> swap_exact_in_ix dp D SP p = Ok t ->
  pool_active w /\ match quote_swap_exact_in R SP sm dm (p_in_amount p) with
  | Ok q => accepts p ExactIn q
  | Err e => overcautious R SP ExactIn sm dm (p_in_amount p) e
  end.
Proof.
  intros Es Ed Ht. pose proof (is_pool _ _ _ _ _ Hsync) as Hjp. rewrite Hp in Hjp.
  assert (Hps : jp_pool_state SP = Ok ps) by (unfold jp_pool_state; rewrite Hjp; reflexivity).
  unfold swap_exact_in_ix in Ht. fold sm dm in Ht. apply bind_ok in Ht as ((ils & ild) & Hi & Ht).
  apply bind_ok in Ht as ((ols & old) & Ho & Ht). rewrite Hps in Ht. cbn [bind] in Ht.
  apply bind_ok in Ht as (pp & Hpp & Ht). pose proof Hpp as Hpp0. unfold jp_pricing_prog in Hpp. apply of_option_ok in Hpp.
  destruct (pricing dp pw D SP w Hsync ps Hp pp Hpp) as (HS & Hprog).
  destruct (ready_entry dp pw D SP w HD Hreach Hsync Hlen Hready ps sm ils ild Hp Hi) as (i & F1).
  destruct (ready_entry dp pw D SP w HD Hreach Hsync Hlen Hready ps dm ols old Hp Ho) as (j & F2).
  pose proof (ef_look _ _ _ _ _ _ _ _ _ F1) as L1. pose proof (ef_look _ _ _ _ _ _ _ _ _ F2) as L2.
  assert (In1 : In sm (ready_mints SP)) by apply F1. assert (In2 : In dm (ready_mints SP)) by apply F2.
  rewrite (swap_accounts_known R dp pw HF HP pp _ HS _ _ In1 In2) in Ht. cbn [bind] in Ht.
  revert Ht.
  set (sgn := p_authority p). set (sa := p_source_token_account p). set (da := p_destination_token_account p).
  pose proof (kn_accounts_ok dp SP (ld_calc ild)) as K1. pose proof (kn_accounts_ok dp SP (ld_calc old)) as K2.
  set (sacc := kn_ix_accounts dp (ld_calc ild)) in *. set (dacc := kn_ix_accounts dp (ld_calc old)) in *.
  set (pacc := [ro sm; ro dm; ro (fst (fd_find (dp_flat dp) sm)); ro (fst (fd_find (dp_flat dp) dm))]).
  set (args := mkSwapIn (len sacc) (len dacc) i j (p_out_amount p) (p_in_amount p)).
  set (metas := swap_metas w sgn sa da sm dm (fees_of D w dm) (reserves_of D w sm) (reserves_of D w dm) ++
         ((ro (sol_value_calculator ils) :: skipn 1 sacc) ++ (ro (sol_value_calculator ols) :: skipn 1 dacc)) ++
         (ro (pricing_program ps) :: skipn 2 pacc)).
  pose proof (the_l dp pw D SP w Hsync) as Hl.
  unfold client_swap_exact_in.
  assert (client_swap_keys D (jp_view SP) sgn sa da sm dm LST_STATE_LIST_ID =
          client_swap_keys D w sgn sa da sm dm LST_STATE_LIST_ID) as ->.
  { unfold client_swap_keys.
    rewrite (view_list dp pw D SP w Hsync), (view_owner dp pw D SP w _ _ _ _ Hi F1), (view_owner dp pw D SP w _ _ _ _ Ho F2). reflexivity. }
  rewrite (swap_keys_ok D w w (fresh_self dp pw D SP w Hsync Hlen ps Hp) _ _ _ _ _ _ _ _ _ _ _ _ _ _ _ L1 L2). cbn [bind].
  rewrite (u32_idx D w w _ _ _ _ _ _ L1). cbn [bind]. rewrite (u32_idx D w w _ _ _ _ _ _ L2). cbn [bind].
  rewrite src_dst_ok by assumption. cbn [bind].
  rewrite suffix_group2 by (unfold pacc, len; cbn; unfold U8_MAX; lia).
  change (Ok (built metas (SwapExactIn args)) = Ok t -> pool_active w /\ match quote_swap_exact_in R SP sm dm (p_in_amount p) with
    | Ok q => accepts p ExactIn q | Err e => overcautious R SP ExactIn sm dm (p_in_amount p) e end).
  intros Ht. apply ok_inj in Ht as <-.
  destruct (suffix_group 0 sacc (sol_value_calculator ils) K1) as (_ & Hlen1 & Hu81).
  destruct (suffix_group 0 dacc (sol_value_calculator ols) K2) as (_ & Hlen2 & Hu82).
  assert (Hwf : ix_wfb (SwapExactIn args) = true).
  { unfold args. cbn [ix_wfb si_src_lst_value_calc_accs si_dst_lst_value_calc_accs si_src_lst_index si_dst_lst_index
      si_min_amount_out si_amount]. rewrite Hu81, Hu82, (lu_range _ _ _ _ _ _ _ _ _ L1), (lu_range _ _ _ _ _ _ _ _ _ L2).
    rewrite !u64b_t by assumption. reflexivity. }
  pose proof Hrun as H. rewrite run_built in H by exact Hwf. unfold process in H. rewrite Hwf in H. cbn [guard] in H.
  pose proof (verify_swap_built D w w ps _ Hp Hl _ _ _ _ _ _ _ _ _ _ _ _ sgn sa da _ _
    (ro (pricing_program ps) :: skipn 2 pacc) _ _ _ L1 L2
    Hlen1 (len_nonneg _) Hlen2 (len_nonneg _) _ _ _ eq_refl eq_refl eq_refl eq_refl) as Hver. fold metas in Hver.
  unfold process_swap_exact_in in H. cbn [args si_src_lst_value_calc_accs si_dst_lst_value_calc_accs si_src_lst_index
    si_dst_lst_index si_min_amount_out si_amount] in H.
  apply guard_ok in H as (_ & H). fold metas in H. rewrite Hver in H. clear Hver.
  unfold verify_swap_not_same_lst in H. destruct (Z.eqb_spec sm dm); [contradiction|]. cbn [negb guard bind] in H.
  destruct (verify_not_rebalancing_and_not_disabled ps) as [[]|] eqn:Hact; [|discriminate H]. cbn [bind] in H.
  split; [exact (active_back ps Hp Hact)|].
  unfold verify_lst_input_not_disabled in H. destruct (negb (u8bool_is_true (is_input_disabled ils))) eqn:Hdis; [|discriminate H].
  cbn [guard bind] in H.
  rewrite (kn_cpi_eq _ _ _ _ _ _ _ _ _ F1 : mkCpi (ro (sol_value_calculator ils)) (skipn 1 sacc) = _),
    (kn_cpi_eq _ _ _ _ _ _ _ _ _ F2 : mkCpi (ro (sol_value_calculator ols)) (skipn 1 dacc) = _) in H.
  unfold sync_src, sync_dst, swap_accounts in H.
  cbn [sa_signer sa_src_lst_mint sa_dst_lst_mint sa_src_lst_acc sa_dst_lst_acc sa_protocol_fee_accumulator
    sa_src_lst_token_program sa_dst_lst_token_program sa_pool_state sa_lst_state_list sa_src_pool_reserves
    sa_dst_pool_reserves mk sg wr ro is_signer] in H.
  apply bind_ok in H as (w1 & S1 & H). apply bind_ok in H as (w2 & S2 & H).
  pose proof (lu_nth _ _ _ _ _ _ _ _ _ L1 _ Hl) as N1. pose proof (lu_nth _ _ _ _ _ _ _ _ _ L2 _ Hl) as N2.
  destruct (sync_back _ _ _ _ _ _ _ _ _ eq_refl Hp Hl N1 F1 S1) as (v1 & ls1 & A1 & Ew1).
  assert (Hij : Z.to_nat i <> Z.to_nat j) by (eapply pos_ne; eassumption).
  assert (N2' : nth_lst (replace_nth (jp_list SP) (Z.to_nat i) ls1) j = Some ols).
  { unfold nth_lst in *. rewrite nth_error_replace_other by congruence. exact N2. }
  assert (P1 : the_pool w1 = Some (set_total ps v1)) by (subst w1; unfold the_pool; cbn [put_list put_pool w_pool]; apply upd_same).
  assert (Hl1 : the_list w1 = Some (replace_nth (jp_list SP) (Z.to_nat i) ls1)) by (subst w1; unfold the_list; cbn [put_list w_list]; apply upd_same).
  assert (T1 : w_tok w1 = w_tok w) by (subst w1; reflexivity).
  destruct (sync_back _ _ _ _ _ _ _ _ _ T1 P1 Hl1 N2' F2 S2) as (v2 & ls2 & A2 & Ew2).
  assert (P2 : the_pool w2 = Some (set_total (set_total ps v1) v2)) by (rewrite Ew2; unfold the_pool; cbn [put_list put_pool w_pool]; apply upd_same).
  assert (T2 : w_tok w2 = w_tok w) by (rewrite Ew2; exact T1).
  unfold pool_field in H. rewrite (ClientProofs.pool_ok w2 _ P2) in H. cbn [bind] in H.
  apply bind_ok in H as ((before & hi) & I1 & H). apply (back_l2s _ _ _ _ _ _ _ F1) in I1.
  apply guard_ok in H as (Hz1 & H). apply bind_ok in H as (after & I2 & H).
  unfold invoke_price_exact_in in I2. cbn [cpi_prog cpi_accs mk ro] in I2. apply Inversion.decode_u64_ok in I2 as (I2 & _).
  rewrite Hprog in I2. change (skipn 2 pacc) with (fee_metas dp sm dm) in I2.
  apply (proj1 (price_in_iff R dp pw other HF HP pp _ HS w2 sm dm (p_in_amount p) before after In1 In2)) in I2.
  apply bind_ok in H as ((dst_out & dst_hi) & I3 & H). apply (back_s2l _ _ _ _ _ _ _ F2) in I3.
  apply guard_ok in H as (Hmin & H). apply guard_ok in H as (Hz2 & H).
  apply bind_ok in H as (fee & Hfee & H). unfold swap_settle in H. apply bind_ok in H as (tot & Htot & H).
  apply bind_ok in H as (db & Hdb & H). apply guard_ok in H as (Hliq & _).
  cbn [sa_dst_pool_reserves mk wr] in Hdb. unfold token_account_balance in Hdb. rewrite T2 in Hdb.
  apply bind_ok in Hdb as (td & Etd & Hdb). apply of_option_ok in Etd.
  assert (Hdbal : balance w (reserves_of D w dm) = db) by (unfold balance; rewrite Etd; congruence).
  unfold quote_swap_exact_in. rewrite Hps, (is_epoch _ _ _ _ _ Hsync), Hpp0, Hi. cbn [bind]. rewrite Hdis. cbn [guard].
  rewrite A1. cbn [bind]. rewrite Ho. cbn [bind]. rewrite A2. cbn [bind]. rewrite I1. cbn [bind fst]. rewrite Hz1. cbn [guard].
  rewrite I2. cbn [bind].
  assert (TV : trade_values R SP ExactIn sm dm (p_in_amount p) before after old).
  { unfold trade_values. exists ps, pp. split; [exact Hjp|]. split; [exact Hpp|].
    destruct (Z.eqb_spec sm (lp_token_mint ps)); [contradiction|]. destruct (Z.eqb_spec dm (lp_token_mint ps)); [contradiction|].
    exists ols. split; [exact Ho|]. exists ils, ild, hi. rewrite (is_epoch _ _ _ _ _ Hsync). auto. }
  destruct (Z.leb_spec after before) as [Hle|Hlt]; cbn [guard].
  2:{ exists before, after, old. split; [exact TV|]. left. split; [reflexivity|]. split; [exact Hlt|]. intros ps' Hp'.
      assert (ps' = ps) as -> by congruence. auto. }
  rewrite I3. cbn [bind fst]. rewrite Hz2. cbn [guard]. rewrite Hfee. cbn [bind]. rewrite Htot. cbn [bind].
  rewrite Hdbal, Hliq. cbn [guard]. unfold calc_quote_fees. destruct (Z.leb_spec after before); [|lia]. cbn [guard]. rewrite Hz1. cbn [guard].
  destruct (kn_sol_to_lst R (pw_epoch pw) (ld_calc old) (before - after)) as [r|e] eqn:Hq; cbn [bind].
  - cbn [accepts q_in_amount q_out_amount]. split; [reflexivity|]. apply Z.leb_le in Hmin. unfold U64 in Uout. lia.
  - exists before, after, old. split; [exact TV|]. right; left. rewrite (is_epoch _ _ _ _ _ Hsync). auto.
Qed.
Lemma swap_out_back : sm <> lp_token_mint ps -> dm <> lp_token_mint ps -> swap_exact_out_ix dp D SP p = Ok t ->
  pool_active w /\ match quote_swap_exact_out R SP sm dm (p_out_amount p) with
  | Ok q => accepts p ExactOut q
  | Err e => overcautious R SP ExactOut sm dm (p_out_amount p) e
  end.
Proof.
  intros Es Ed Ht. pose proof (is_pool _ _ _ _ _ Hsync) as Hjp. rewrite Hp in Hjp.
  assert (Hps : jp_pool_state SP = Ok ps) by (unfold jp_pool_state; rewrite Hjp; reflexivity).
  unfold swap_exact_out_ix in Ht. fold sm dm in Ht. apply bind_ok in Ht as ((ils & ild) & Hi & Ht).
  apply bind_ok in Ht as ((ols & old) & Ho & Ht). rewrite Hps in Ht. cbn [bind] in Ht.
  apply bind_ok in Ht as (pp & Hpp & Ht). pose proof Hpp as Hpp0. unfold jp_pricing_prog in Hpp. apply of_option_ok in Hpp.
  destruct (pricing dp pw D SP w Hsync ps Hp pp Hpp) as (HS & Hprog).
  destruct (ready_entry dp pw D SP w HD Hreach Hsync Hlen Hready ps sm ils ild Hp Hi) as (i & F1).
  destruct (ready_entry dp pw D SP w HD Hreach Hsync Hlen Hready ps dm ols old Hp Ho) as (j & F2).
  pose proof (ef_look _ _ _ _ _ _ _ _ _ F1) as L1. pose proof (ef_look _ _ _ _ _ _ _ _ _ F2) as L2.
  assert (In1 : In sm (ready_mints SP)) by apply F1. assert (In2 : In dm (ready_mints SP)) by apply F2.
  rewrite (swap_accounts_known R dp pw HF HP pp _ HS _ _ In1 In2) in Ht. cbn [bind] in Ht.
  revert Ht.
  set (sgn := p_authority p). set (sa := p_source_token_account p). set (da := p_destination_token_account p).
  pose proof (kn_accounts_ok dp SP (ld_calc ild)) as K1. pose proof (kn_accounts_ok dp SP (ld_calc old)) as K2.
  set (sacc := kn_ix_accounts dp (ld_calc ild)) in *. set (dacc := kn_ix_accounts dp (ld_calc old)) in *.
  set (pacc := [ro sm; ro dm; ro (fst (fd_find (dp_flat dp) sm)); ro (fst (fd_find (dp_flat dp) dm))]).
  set (args := mkSwapOut (len sacc) (len dacc) i j (p_in_amount p) (p_out_amount p)).
  set (metas := swap_metas w sgn sa da sm dm (fees_of D w dm) (reserves_of D w sm) (reserves_of D w dm) ++
         ((ro (sol_value_calculator ils) :: skipn 1 sacc) ++ (ro (sol_value_calculator ols) :: skipn 1 dacc)) ++
         (ro (pricing_program ps) :: skipn 2 pacc)).
  pose proof (the_l dp pw D SP w Hsync) as Hl.
  unfold client_swap_exact_out.
  assert (client_swap_keys D (jp_view SP) sgn sa da sm dm LST_STATE_LIST_ID =
          client_swap_keys D w sgn sa da sm dm LST_STATE_LIST_ID) as ->.
  { unfold client_swap_keys.
    rewrite (view_list dp pw D SP w Hsync), (view_owner dp pw D SP w _ _ _ _ Hi F1), (view_owner dp pw D SP w _ _ _ _ Ho F2). reflexivity. }
  rewrite (swap_keys_ok D w w (fresh_self dp pw D SP w Hsync Hlen ps Hp) _ _ _ _ _ _ _ _ _ _ _ _ _ _ _ L1 L2). cbn [bind].
  rewrite (u32_idx D w w _ _ _ _ _ _ L1). cbn [bind]. rewrite (u32_idx D w w _ _ _ _ _ _ L2). cbn [bind].
  rewrite src_dst_ok by assumption. cbn [bind].
  rewrite suffix_group2 by (unfold pacc, len; cbn; unfold U8_MAX; lia).
  change (Ok (built metas (SwapExactOut args)) = Ok t -> pool_active w /\ match quote_swap_exact_out R SP sm dm (p_out_amount p) with
    | Ok q => accepts p ExactOut q | Err e => overcautious R SP ExactOut sm dm (p_out_amount p) e end).
  intros Ht. apply ok_inj in Ht as <-.
  destruct (suffix_group 0 sacc (sol_value_calculator ils) K1) as (_ & Hlen1 & Hu81).
  destruct (suffix_group 0 dacc (sol_value_calculator ols) K2) as (_ & Hlen2 & Hu82).
  assert (Hwf : ix_wfb (SwapExactOut args) = true).
  { unfold args. cbn [ix_wfb so_src_lst_value_calc_accs so_dst_lst_value_calc_accs so_src_lst_index so_dst_lst_index
      so_max_amount_in so_amount]. rewrite Hu81, Hu82, (lu_range _ _ _ _ _ _ _ _ _ L1), (lu_range _ _ _ _ _ _ _ _ _ L2).
    rewrite !u64b_t by assumption. reflexivity. }
  pose proof Hrun as H. rewrite run_built in H by exact Hwf. unfold process in H. rewrite Hwf in H. cbn [guard] in H.
  pose proof (verify_swap_built D w w ps _ Hp Hl _ _ _ _ _ _ _ _ _ _ _ _ sgn sa da _ _
    (ro (pricing_program ps) :: skipn 2 pacc) _ _ _ L1 L2
    Hlen1 (len_nonneg _) Hlen2 (len_nonneg _) _ _ _ eq_refl eq_refl eq_refl eq_refl) as Hver. fold metas in Hver.
  unfold process_swap_exact_out in H. cbn [args so_src_lst_value_calc_accs so_dst_lst_value_calc_accs so_src_lst_index
    so_dst_lst_index so_max_amount_in so_amount] in H.
  apply guard_ok in H as (_ & H). fold metas in H. rewrite Hver in H. clear Hver.
  unfold verify_swap_not_same_lst in H. destruct (Z.eqb_spec sm dm); [contradiction|]. cbn [negb guard bind] in H.
  destruct (verify_not_rebalancing_and_not_disabled ps) as [[]|] eqn:Hact; [|discriminate H]. cbn [bind] in H.
  split; [exact (active_back ps Hp Hact)|].
  unfold verify_lst_input_not_disabled in H. destruct (negb (u8bool_is_true (is_input_disabled ils))) eqn:Hdis; [|discriminate H].
  cbn [guard bind] in H.
  rewrite (kn_cpi_eq _ _ _ _ _ _ _ _ _ F1 : mkCpi (ro (sol_value_calculator ils)) (skipn 1 sacc) = _),
    (kn_cpi_eq _ _ _ _ _ _ _ _ _ F2 : mkCpi (ro (sol_value_calculator ols)) (skipn 1 dacc) = _) in H.
  unfold sync_src, sync_dst, swap_accounts in H.
  cbn [sa_signer sa_src_lst_mint sa_dst_lst_mint sa_src_lst_acc sa_dst_lst_acc sa_protocol_fee_accumulator
    sa_src_lst_token_program sa_dst_lst_token_program sa_pool_state sa_lst_state_list sa_src_pool_reserves
    sa_dst_pool_reserves mk sg wr ro is_signer] in H.
  apply bind_ok in H as (w1 & S1 & H). apply bind_ok in H as (w2 & S2 & H).
  pose proof (lu_nth _ _ _ _ _ _ _ _ _ L1 _ Hl) as N1. pose proof (lu_nth _ _ _ _ _ _ _ _ _ L2 _ Hl) as N2.
  destruct (sync_back _ _ _ _ _ _ _ _ _ eq_refl Hp Hl N1 F1 S1) as (v1 & ls1 & A1 & Ew1).
  assert (Hij : Z.to_nat i <> Z.to_nat j) by (eapply pos_ne; eassumption).
  assert (N2' : nth_lst (replace_nth (jp_list SP) (Z.to_nat i) ls1) j = Some ols).
  { unfold nth_lst in *. rewrite nth_error_replace_other by congruence. exact N2. }
  assert (P1 : the_pool w1 = Some (set_total ps v1)) by (subst w1; unfold the_pool; cbn [put_list put_pool w_pool]; apply upd_same).
  assert (Hl1 : the_list w1 = Some (replace_nth (jp_list SP) (Z.to_nat i) ls1)) by (subst w1; unfold the_list; cbn [put_list w_list]; apply upd_same).
  assert (T1 : w_tok w1 = w_tok w) by (subst w1; reflexivity).
  destruct (sync_back _ _ _ _ _ _ _ _ _ T1 P1 Hl1 N2' F2 S2) as (v2 & ls2 & A2 & Ew2).
  assert (P2 : the_pool w2 = Some (set_total (set_total ps v1) v2)) by (rewrite Ew2; unfold the_pool; cbn [put_list put_pool w_pool]; apply upd_same).
  assert (T2 : w_tok w2 = w_tok w) by (rewrite Ew2; exact T1).
  unfold pool_field in H. rewrite (ClientProofs.pool_ok w2 _ P2) in H. cbn [bind] in H.
  apply bind_ok in H as ((lo & after) & I1 & H). pose proof I1 as I1'. unfold invoke_lst_to_sol in I1'.
  apply decode_range_ok in I1' as (_ & _ & Uaft). apply (back_l2s _ _ _ _ _ _ _ F2) in I1.
  apply guard_ok in H as (Hz1 & H). apply bind_ok in H as (before & I2 & H).
  unfold invoke_price_exact_out in I2. cbn [cpi_prog cpi_accs mk ro] in I2. apply Inversion.decode_u64_ok in I2 as (I2 & _).
  rewrite Hprog in I2. change (skipn 2 pacc) with (fee_metas dp sm dm) in I2.
  apply (proj1 (price_out_iff R dp pw other HF HP pp _ HS w2 sm dm (p_out_amount p) after before In1 In2)) in I2.
  apply bind_ok in H as ((src_lo & src_in) & I3 & H). apply (back_s2l _ _ _ _ _ _ _ F1) in I3.
  apply guard_ok in H as (Hmax & H). apply guard_ok in H as (Hz2 & H).
  apply bind_ok in H as (fee & Hfee & H). unfold swap_settle in H. apply bind_ok in H as (tot & Htot & H).
  apply bind_ok in H as (db & Hdb & H). apply guard_ok in H as (Hliq & _).
  cbn [sa_dst_pool_reserves mk wr] in Hdb. unfold token_account_balance in Hdb. rewrite T2 in Hdb.
  apply bind_ok in Hdb as (td & Etd & Hdb). apply of_option_ok in Etd.
  assert (Hdbal : balance w (reserves_of D w dm) = db) by (unfold balance; rewrite Etd; congruence).
  unfold quote_swap_exact_out. rewrite Hps, (is_epoch _ _ _ _ _ Hsync), Hpp0, Hi. cbn [bind]. rewrite Hdis. cbn [guard].
  rewrite A1. cbn [bind]. rewrite Ho. cbn [bind]. rewrite A2. cbn [bind]. rewrite I1. cbn [bind snd]. rewrite Hz1. cbn [guard].
  rewrite I2. cbn [bind].
  assert (TV : trade_values R SP ExactOut sm dm (p_out_amount p) before after old).
  { unfold trade_values. exists ps, pp. split; [exact Hjp|]. split; [exact Hpp|].
    destruct (Z.eqb_spec sm (lp_token_mint ps)); [contradiction|]. destruct (Z.eqb_spec dm (lp_token_mint ps)); [contradiction|].
    exists ols. split; [exact Ho|]. exists lo. rewrite (is_epoch _ _ _ _ _ Hsync). auto. }
  destruct (Z.leb_spec after before) as [Hle|Hlt]; cbn [guard].
  2:{ exists before, after, old. split; [exact TV|]. left. split; [reflexivity|]. split; [exact Hlt|]. intros ps' Hp'.
      assert (ps' = ps) as -> by congruence. auto. }
  rewrite I3. cbn [bind snd]. rewrite Hz2. cbn [guard]. rewrite Hfee. cbn [bind]. rewrite Htot. cbn [bind].
  rewrite Hdbal, Hliq. cbn [guard]. unfold calc_quote_fees. destruct (Z.leb_spec after before); [|lia]. cbn [guard].
  assert (negb (before =? 0) = true) as ->.
  { apply negb_true_iff, Z.eqb_neq. apply negb_true_iff, Z.eqb_neq in Hz1. unfold U64 in Uaft. lia. }
  cbn [guard].
  destruct (kn_sol_to_lst R (pw_epoch pw) (ld_calc old) (before - after)) as [r|e] eqn:Hq; cbn [bind].
  - cbn [accepts q_in_amount q_out_amount]. split; [reflexivity|]. apply Z.leb_le in Hmax. unfold U64 in Uin. lia.
  - exists before, after, old. split; [exact TV|]. right; left. rewrite (is_epoch _ _ _ _ _ Hsync). auto.
Qed.

Let lpm := lp_token_mint ps.
Lemma add_back : sm <> lpm -> dm = lpm -> add_liquidity_ix dp D SP p = Ok t ->
  pool_active w /\ match quote_add_liquidity R SP sm (p_in_amount p) with
  | Ok q => accepts p ExactIn q
  | Err e => overcautious R SP ExactIn sm dm (p_in_amount p) e
  end.
Proof.
  intros Es Ed Ht. pose proof (is_pool _ _ _ _ _ Hsync) as Hjp. rewrite Hp in Hjp.
  assert (Hps : jp_pool_state SP = Ok ps) by (unfold jp_pool_state; rewrite Hjp; reflexivity).
  unfold add_liquidity_ix in Ht. fold sm in Ht. apply bind_ok in Ht as ((ils & ild) & Hi & Ht).
  apply bind_ok in Ht as (pp & Hpp & Ht). pose proof Hpp as Hpp0. unfold jp_pricing_prog in Hpp. apply of_option_ok in Hpp.
  destruct (pricing dp pw D SP w Hsync ps Hp pp Hpp) as (HS & Hprog).
  destruct (ready_entry dp pw D SP w HD Hreach Hsync Hlen Hready ps sm ils ild Hp Hi) as (i & F1).
  pose proof (ef_look _ _ _ _ _ _ _ _ _ F1) as L1. pose proof (the_l dp pw D SP w Hsync) as Hl.
  destruct (lp_facts D w HD Hreach ps Hp) as (Olp & mi & Hmi & Hau & Hsu & Usu).
  revert Ht.
  set (sgn := p_authority p). set (sa := p_source_token_account p). set (da := p_destination_token_account p).
  pose proof (kn_accounts_ok dp SP (ld_calc ild)) as K1. set (sacc := kn_ix_accounts dp (ld_calc ild)) in *.
  assert (K2 : suffix_ok 1 (kf_mint_accounts sm)) by (unfold suffix_ok, len; cbn; unfold U8_MAX; lia).
  set (pacc := kf_mint_accounts sm) in *.
  set (args := mkAddLiq (len sacc) i (p_in_amount p) (p_out_amount p)).
  set (metas := liq_metas w ps sgn sa da sm (fees_of D w sm) (reserves_of D w sm) ++
         (ro (sol_value_calculator ils) :: skipn 1 sacc) ++ (ro (pricing_program ps) :: skipn 1 pacc)).
  unfold client_add_liquidity.
  assert (client_liquidity D (jp_view SP) sgn sa da POOL_STATE_ID LST_STATE_LIST_ID sm sacc pacc
            (fun n i => AddLiquidity (mkAddLiq n i (p_in_amount p) (p_out_amount p))) = Ok (built metas (AddLiquidity args))) as ->.
  { unfold client_liquidity.
    rewrite (view_list dp pw D SP w Hsync), (view_pool dp pw D SP w Hsync _ Hp), (view_owner dp pw D SP w _ _ _ _ Hi F1).
    exact (liquidity_ok D w w (fresh_self dp pw D SP w Hsync Hlen ps Hp) sgn sa da sm sacc pacc
      (fun n i => AddLiquidity (mkAddLiq n i (p_in_amount p) (p_out_amount p))) i ils ils _ _ ps L1 Hp K1 K2). }
  intros Ht. apply ok_inj in Ht as <-.
  destruct (suffix_group 0 sacc (sol_value_calculator ils) K1) as (_ & Hlen1 & Hu81).
  assert (Hwf : ix_wfb (AddLiquidity args) = true).
  { unfold args. cbn [ix_wfb al_lst_value_calc_accs al_lst_index al_lst_amount al_min_lp_out].
    rewrite Hu81, (lu_range _ _ _ _ _ _ _ _ _ L1). rewrite !u64b_t by assumption. reflexivity. }
  pose proof Hrun as H. rewrite run_built in H by exact Hwf. unfold process in H. rewrite Hwf in H. cbn [guard] in H.
  pose proof (verify_liq_built D w w ps _ Hp Hl _ _ _ _ _ _ sgn sa da _
    (ro (pricing_program ps) :: skipn 1 pacc) _ _ true L1
    Hlen1 (len_nonneg _) _ _ eq_refl eq_refl eq_refl) as Hver. fold metas in Hver.
  unfold process_add_liquidity in H. cbn [args al_lst_value_calc_accs al_lst_index al_lst_amount al_min_lp_out] in H.
  apply guard_ok in H as (_ & H). rewrite Hver in H. clear Hver.
  destruct (verify_not_rebalancing_and_not_disabled ps) as [[]|] eqn:Hact; [|discriminate H]. cbn [bind] in H.
  split; [exact (active_back ps Hp Hact)|].
  unfold verify_lst_input_not_disabled in H. destruct (negb (u8bool_is_true (is_input_disabled ils))) eqn:Hdis; [|discriminate H].
  cbn [guard bind] in H.
  rewrite (kn_cpi_eq _ _ _ _ _ _ _ _ _ F1 : mkCpi (ro (sol_value_calculator ils)) (skipn 1 sacc) = _) in H.
  unfold sync_liq, liq_accounts in H.
  cbn [la_signer la_lst_mint la_lst_acc la_lp_acc la_lp_token_mint la_protocol_fee_accumulator la_lst_token_program la_lp_token_program
    la_pool_state la_lst_state_list la_pool_reserves mk sg wr ro is_signer] in H.
  apply bind_ok in H as (w1 & S1 & H).
  pose proof (lu_nth _ _ _ _ _ _ _ _ _ L1 _ Hl) as N1.
  destruct (sync_back _ _ _ _ _ _ _ _ _ eq_refl Hp Hl N1 F1 S1) as (v1 & ls1 & A1 & Ew1).
  assert (P1 : the_pool w1 = Some (set_total ps v1)) by (subst w1; unfold the_pool; cbn [put_list put_pool w_pool]; apply upd_same).
  assert (M1 : w_mint w1 = w_mint w) by (subst w1; reflexivity).
  unfold pool_field in H. rewrite (ClientProofs.pool_ok w1 _ P1) in H. cbn [bind] in H.
  apply bind_ok in H as ((before & hi) & I1 & H). pose proof I1 as I1'. unfold invoke_lst_to_sol in I1'.
  apply decode_range_ok in I1' as (_ & Ubef & _). apply (back_l2s _ _ _ _ _ _ _ F1) in I1.
  apply bind_ok in H as (after & I2 & H).
  unfold invoke_price_lp_to_mint in I2. cbn [cpi_prog cpi_accs mk ro] in I2. apply Inversion.decode_u64_ok in I2 as (I2 & _).
  rewrite Hprog in I2.
  apply (proj1 (price_mint_iff R dp pw other pp w1 sm _ (p_in_amount p) before after)) in I2.
  apply guard_ok in H as (Hle & H). apply bind_ok in H as ((tr & tp) & _ & H).
  apply bind_ok in H as (sup & Hsup & H). unfold mint_supply in Hsup. rewrite M1 in Hsup. fold lpm in Hsup, Hmi, Hsu. rewrite Hmi in Hsup. cbn [of_option bind] in Hsup.
  apply bind_ok in H as (lp & Hlp & H). apply guard_ok in H as (Hz & H). apply guard_ok in H as (Hmin & _).
  assert (sup = supply w lpm) as -> by congruence.
  assert (JS : jp_lp_supply SP = Some (supply w lpm)) by (apply (is_supply _ _ _ _ _ Hsync ps Hp)).
  unfold quote_add_liquidity. rewrite Hps, (is_epoch _ _ _ _ _ Hsync), Hpp0, JS, Hi. cbn [bind of_option]. rewrite Hdis. cbn [guard].
  rewrite A1. cbn [bind]. rewrite I1. cbn [bind fst]. rewrite I2. cbn [bind]. rewrite Hle. cbn [guard]. rewrite Hlp. cbn [bind].
  assert (TV : trade_values R SP ExactIn sm dm (p_in_amount p) before after ild).
  { unfold trade_values. exists ps, pp. split; [exact Hjp|]. split; [exact Hpp|].
    destruct (Z.eqb_spec sm (lp_token_mint ps)); [contradiction|]. destruct (Z.eqb_spec dm (lp_token_mint ps)); [|contradiction].
    exists ils, hi. rewrite (is_epoch _ _ _ _ _ Hsync). auto. }
  unfold calc_quote_fees. rewrite Hle. cbn [guard].
  assert (after = before) as -> by (unfold kf_quote_mint in I2; congruence).
  destruct (negb (before =? 0)) eqn:Hbz; cbn [guard].
  2:{ apply negb_false_iff, Z.eqb_eq in Hbz. subst before. exists 0, 0, ild. split; [exact TV|]. right; right; left.
      split; [reflexivity|]. split; [reflexivity|]. split.
      - rewrite JS. f_equal. apply negb_true_iff, orb_false_iff in Hz as (_ & Hz). apply Z.eqb_neq in Hz.
        unfold calc_lp_tokens_to_mint in Hlp. destruct (Z.eqb_spec (supply w lpm) 0) as [E0|E0]; [exact E0|].
        destruct (total_sol_value (set_total ps v1) =? 0); [exfalso; apply Hz; congruence|].
        unfold floor_apply in Hlp. rewrite Z.mul_0_l, Zdiv_0_l in Hlp.
        destruct ((supply w lpm =? 0) || (total_sol_value (set_total ps v1) =? 0)); [exfalso; apply Hz; congruence|].
        cbn in Hlp. exfalso; apply Hz; congruence.
      - intros ps' Hp'. assert (ps' = ps) as -> by congruence. auto. }
  apply Z.leb_le in Hle.
  destruct (kn_sol_to_lst R (pw_epoch pw) (ld_calc ild) (before - before)) as [r|e] eqn:Hq; cbn [bind].
  - cbn [accepts q_in_amount q_out_amount]. split; [reflexivity|]. apply Z.leb_le in Hmin. unfold U64 in Uout. lia.
  - exists before, before, ild. split; [exact TV|]. right; left. rewrite (is_epoch _ _ _ _ _ Hsync). auto.
Qed.

Lemma remove_back : sm = lpm -> p_destination_token_account p <> reserves_of D w dm -> remove_liquidity_ix dp D SP p = Ok t ->
  pool_active w /\ match quote_remove_liquidity R SP dm (p_in_amount p) with
  | Ok q => accepts p ExactIn q
  | Err e => overcautious R SP ExactIn sm dm (p_in_amount p) e
  end.
Proof.
  intros Es Hda Ht. pose proof (is_pool _ _ _ _ _ Hsync) as Hjp. rewrite Hp in Hjp.
  assert (Hps : jp_pool_state SP = Ok ps) by (unfold jp_pool_state; rewrite Hjp; reflexivity).
  unfold remove_liquidity_ix in Ht. fold dm in Ht. apply bind_ok in Ht as ((ols & old) & Ho & Ht).
  apply bind_ok in Ht as (pp & Hpp & Ht). pose proof Hpp as Hpp0. unfold jp_pricing_prog in Hpp. apply of_option_ok in Hpp.
  destruct (pricing dp pw D SP w Hsync ps Hp pp Hpp) as (HS & Hprog).
  destruct (ready_entry dp pw D SP w HD Hreach Hsync Hlen Hready ps dm ols old Hp Ho) as (i & F1).
  pose proof (ef_look _ _ _ _ _ _ _ _ _ F1) as L1. pose proof (the_l dp pw D SP w Hsync) as Hl.
  destruct (lp_facts D w HD Hreach ps Hp) as (Olp & mi & Hmi & Hau & Hsu & Usu).
  revert Ht.
  set (sgn := p_authority p). set (sa := p_source_token_account p). set (da := p_destination_token_account p).
  pose proof (kn_accounts_ok dp SP (ld_calc old)) as K1. set (sacc := kn_ix_accounts dp (ld_calc old)) in *.
  assert (K2 : suffix_ok 1 (kf_redeem_accounts dp dm)) by (unfold suffix_ok, len; cbn; unfold U8_MAX; lia).
  set (pacc := kf_redeem_accounts dp dm) in *.
  set (args := mkRemLiq (len sacc) i (p_in_amount p) (p_out_amount p)).
  set (metas := liq_metas w ps sgn da sa dm (fees_of D w dm) (reserves_of D w dm) ++
         (ro (sol_value_calculator ols) :: skipn 1 sacc) ++ (ro (pricing_program ps) :: skipn 1 pacc)).
  unfold client_remove_liquidity.
  assert (client_liquidity D (jp_view SP) sgn da sa POOL_STATE_ID LST_STATE_LIST_ID dm sacc pacc
            (fun n i => RemoveLiquidity (mkRemLiq n i (p_in_amount p) (p_out_amount p))) = Ok (built metas (RemoveLiquidity args))) as ->.
  { unfold client_liquidity.
    rewrite (view_list dp pw D SP w Hsync), (view_pool dp pw D SP w Hsync _ Hp), (view_owner dp pw D SP w _ _ _ _ Ho F1).
    exact (liquidity_ok D w w (fresh_self dp pw D SP w Hsync Hlen ps Hp) sgn da sa dm sacc pacc
      (fun n i => RemoveLiquidity (mkRemLiq n i (p_in_amount p) (p_out_amount p))) i ols ols _ _ ps L1 Hp K1 K2). }
  intros Ht. apply ok_inj in Ht as <-.
  destruct (suffix_group 0 sacc (sol_value_calculator ols) K1) as (_ & Hlen1 & Hu81).
  assert (Hwf : ix_wfb (RemoveLiquidity args) = true).
  { unfold args. cbn [ix_wfb rl_lst_value_calc_accs rl_lst_index rl_lp_token_amount rl_min_lst_out].
    rewrite Hu81, (lu_range _ _ _ _ _ _ _ _ _ L1). rewrite !u64b_t by assumption. reflexivity. }
  pose proof Hrun as H. rewrite run_built in H by exact Hwf. unfold process in H. rewrite Hwf in H. cbn [guard] in H.
  pose proof (verify_liq_built D w w ps _ Hp Hl _ _ _ _ _ _ sgn da sa _
    (ro (pricing_program ps) :: skipn 1 pacc) _ _ false L1
    Hlen1 (len_nonneg _) _ _ eq_refl eq_refl eq_refl) as Hver. fold metas in Hver.
  unfold process_remove_liquidity in H. cbn [args rl_lst_value_calc_accs rl_lst_index rl_lp_token_amount rl_min_lst_out] in H.
  apply guard_ok in H as (_ & H). rewrite Hver in H. clear Hver.
  destruct (verify_not_rebalancing_and_not_disabled ps) as [[]|] eqn:Hact; [|discriminate H]. cbn [bind] in H.
  split; [exact (active_back ps Hp Hact)|].
  rewrite (kn_cpi_eq _ _ _ _ _ _ _ _ _ F1 : mkCpi (ro (sol_value_calculator ols)) (skipn 1 sacc) = _) in H.
  unfold sync_liq, liq_accounts in H.
  cbn [la_signer la_lst_mint la_lst_acc la_lp_acc la_lp_token_mint la_protocol_fee_accumulator la_lst_token_program la_lp_token_program
    la_pool_state la_lst_state_list la_pool_reserves mk sg wr ro is_signer] in H.
  apply bind_ok in H as (w1 & S1 & H).
  pose proof (lu_nth _ _ _ _ _ _ _ _ _ L1 _ Hl) as N1.
  destruct (sync_back _ _ _ _ _ _ _ _ _ eq_refl Hp Hl N1 F1 S1) as (v1 & ls1 & A1 & Ew1).
  assert (P1 : the_pool w1 = Some (set_total ps v1)) by (subst w1; unfold the_pool; cbn [put_list put_pool w_pool]; apply upd_same).
  assert (M1 : w_mint w1 = w_mint w) by (subst w1; reflexivity).
  assert (T1 : w_tok w1 = w_tok w) by (subst w1; reflexivity).
  unfold pool_field in H. rewrite (ClientProofs.pool_ok w1 _ P1) in H. cbn [bind] in H.
  apply bind_ok in H as (sup & Hsup & H). unfold mint_supply in Hsup. rewrite M1 in Hsup. fold lpm in Hsup, Hmi, Hsu. rewrite Hmi in Hsup. cbn [of_option bind] in Hsup.
  assert (sup = supply w lpm) as -> by congruence.
  apply bind_ok in H as (before & Hbef & H). apply bind_ok in H as (after & I2 & H).
  unfold invoke_price_lp_to_redeem in I2. cbn [cpi_prog cpi_accs mk ro] in I2. apply Inversion.decode_u64_ok in I2 as (I2 & Uaft).
  rewrite Hprog in I2. change (skipn 1 pacc) with [ro (ff_state (dp_flat dp))] in I2.
  apply (proj1 (price_redeem_iff R dp pw other pp _ HS w1 dm (p_in_amount p) before after)) in I2.
  apply guard_ok in H as (Hle & H). apply bind_ok in H as ((tu & tu_hi) & I3 & H). pose proof I3 as I3'.
  apply (back_s2l _ _ _ _ _ _ _ F1) in I3.
  unfold invoke_sol_to_lst in I3'. apply decode_range_ok in I3' as (_ & Utu & _).
  apply bind_ok in H as (fee & Hfee & H). apply guard_ok in H as (Hz & H). apply guard_ok in H as (Hmin & H).
  apply bind_ok in H as (w2 & B & H). apply burn_balance in B as (B2 & _). apply bind_ok in H as (w3 & X1 & H).
  apply transfer_balance in X1 as (B3 & _ & _ & X1 & _). apply bind_ok in H as (w4 & X2 & _).
  apply transfer_balance in X2 as (_ & _ & _ & X2 & _).
  assert (HB : balance w1 (reserves_of D w dm) = balance w (reserves_of D w dm)) by (unfold balance; now rewrite T1).
  assert (0 <= on (reserves_of D w dm) sa (p_in_amount p)) by (destruct Uin as (Uin1 & _); unfold on; destruct (reserves_of D w dm =? sa); [exact Uin1|apply Z.le_refl]).
  assert (Hliq : tu + fee <= balance w (reserves_of D w dm)).
  { rewrite B3, on_same, (on_other (reserves_of D w dm) da), B2, HB in X2 by (apply not_eq_sym; exact Hda). unfold lpm in *. lia. }
  assert (Hmax : balance w (reserves_of D w dm) <= U64_MAX).
  { unfold balance. destruct (w_tok w _) as [tk|] eqn:Etk; [|unfold U64_MAX; lia].
    apply (proj1 (base_u64 w (proj1 (reachable_inv D HD w Hreach))) _ _ Etk). }
  assert (JS : jp_lp_supply SP = Some (supply w lpm)) by (apply (is_supply _ _ _ _ _ Hsync ps Hp)).
  unfold quote_remove_liquidity. rewrite Hps, (is_epoch _ _ _ _ _ Hsync), Hpp0, JS, Ho. cbn [bind of_option].
  rewrite A1. cbn [bind]. rewrite Hbef. cbn [bind]. rewrite I2. cbn [bind]. rewrite Hle. cbn [guard]. rewrite I3. cbn [bind fst].
  rewrite Hfee. cbn [bind]. unfold checked_add. destruct (Z.leb_spec (tu + fee) U64_MAX); [|lia]. cbn [bind].
  destruct (Z.leb_spec (tu + fee) (balance w (reserves_of D w dm))); [|lia]. cbn [guard].
  unfold calc_quote_fees. rewrite Hle. cbn [guard]. apply Z.leb_le in Hle.
  assert (TV : trade_values R SP ExactIn sm dm (p_in_amount p) before after old).
  { unfold trade_values. exists ps, pp. split; [exact Hjp|]. split; [exact Hpp|].
    destruct (Z.eqb_spec sm (lp_token_mint ps)); [|contradiction].
    exists ols, (set_total ps v1), ls1, (balance w (reserves_of D w dm)), (supply w lpm). rewrite (is_epoch _ _ _ _ _ Hsync). auto. }
  destruct (negb (before =? 0)) eqn:Hbz; cbn [guard].
  2:{ apply negb_false_iff, Z.eqb_eq in Hbz. subst before. assert (after = 0) as -> by (unfold U64 in Uaft; lia).
      exists 0, 0, old. split; [exact TV|]. right; right; right. split; [reflexivity|]. split; [reflexivity|]. split.
      - rewrite (is_epoch _ _ _ _ _ Hsync). pose proof I3 as I3''. unfold kn_sol_to_lst in I3''. apply bind_ok in I3'' as (c & Ec & I3'').
        exists c. split; [exact Ec|]. intros Hlive. apply negb_true_iff, Z.eqb_neq in Hz. apply Hz.
        assert (Hct : calc_typed c) by (eapply kn_calc_typed; eauto; apply (ef_sync _ _ _ _ _ _ _ _ _ F1)).
        destruct (calc_sol_to_lst_bracket R c 0 tu tu_hi HR Hct Hlive ltac:(vm_compute; split; discriminate) I3'') as (_ & _ & _ & Hlo & _).
        specialize (Hlo 0 (Z.le_refl 0)). rewrite worth_zero in Hlo. specialize (Hlo (Z.le_refl 0)). unfold U64 in Utu. lia.
      - intros ps' Hp'. assert (ps' = ps) as -> by congruence. exact Es. }
  destruct (kn_sol_to_lst R (pw_epoch pw) (ld_calc old) (before - after)) as [r|e] eqn:Hq; cbn [bind].
  - cbn [accepts q_in_amount q_out_amount]. split; [reflexivity|]. apply Z.leb_le in Hmin. unfold U64 in Uout. lia.
  - exists before, after, old. split; [exact TV|]. right; left. rewrite (is_epoch _ _ _ _ _ Hsync). auto.
Qed.
End Trade.
End Back.
