(** C34: instructions built by the client library from a view that is still good are never refused by the
    program because of their accounts, list positions or encoding; they carry exactly the arguments asked
    for, and hand to the calculators and the pricing program exactly the accounts the caller supplied. *)
From Coq Require Import ZArith List Bool Lia.
From Verif Require Concrete ConcreteReach.
From Verif Require Import Base Ratio Calc State Controller Inversion ProcInv Spec CalcProofs InvProofs
  TokProofs AccessProofs ShapeProofs Serde SerdeProofs Client ClientSpec ClientProofs.
Import ListNotations.
Open Scope Z_scope.

Lemma in_skipn {A} n (x : A) l : In x (skipn n l) -> In x l.
Proof. revert l. induction n; destruct l; cbn; auto. Qed.
Lemma u64b_ok x : U64 x -> u64b x = true.
Proof. unfold U64, u64b. rewrite andb_true_iff, !Z.leb_le. tauto. Qed.

Ltac asks := let m := fresh "m" in let Hm := fresh "Hm" in let Hs := fresh "Hs" in
  intros m Hm Hs; cbn [ti_accs built] in Hm;
  repeat rewrite in_app_iff in Hm; cbn [In] in Hm;
  repeat match goal with
  | H : _ \/ _ |- _ => destruct H
  | H : False |- _ => destruct H
  | H : ?x = m |- _ => subst m; try (cbn in Hs; discriminate Hs); left; cbn; auto
  | H : In m (skipn _ _) |- _ => apply in_skipn in H; right; repeat rewrite in_app_iff; auto
  end.

Section Client.
Context (D : Derive) (HD : derive_ok D) (V w : World).
Hypothesis HR : reachable D w.
Hypothesis HF : fresh V w.

Lemma fresh_pool ps : the_pool w = Some ps ->
  exists pv, the_pool V = Some pv /\ pool_id pv = pool_id ps.
Proof. intros H. destruct HF as ((pv & ps' & Hv & Hw & He) & _). assert (ps' = ps) by congruence. subst. eauto. Qed.
Lemma fresh_pool_ok : exists pv ps, try_pool_state V POOL_STATE_ID = Ok pv /\ the_pool V = Some pv /\
  the_pool w = Some ps /\ pool_id pv = pool_id ps.
Proof.
  destruct HF as ((pv & ps & Hv & Hw & He) & _). exists pv, ps. split; auto.
  unfold try_pool_state, the_pool in *. rewrite Hv. reflexivity.
Qed.
Lemma fresh_list_ok : exists lv l, try_lst_state_list V LST_STATE_LIST_ID = Ok lv /\ the_list V = Some lv /\
  the_list w = Some l.
Proof.
  destruct HF as (_ & (lv & l & Hv & Hw & _) & _). exists lv, l. split; auto.
  unfold try_lst_state_list, the_list in *. rewrite Hv. reflexivity.
Qed.
Lemma lp_mint_ok ps : the_pool w = Some ps -> w_mint w (lp_token_mint ps) <> None.
Proof.
  intros H. pose proof (reachable_ata D HD w HR) as (_ & _ & Hp). destruct (Hp ps H) as (_ & i & Hi & _). congruence.
Qed.
Lemma looked_listed m i lsv ls r f : looked_up D V w m i lsv ls r f -> listed_at w i m (sol_value_calculator ls).
Proof.
  intros L. destruct fresh_list_ok as (_ & l & _ & _ & Hl). exists l, ls.
  split; auto. split; [apply (lu_nth _ _ _ _ _ _ _ _ _ L l Hl)|]. split; auto. apply (lu_mint _ _ _ _ _ _ _ _ _ L).
Qed.
Lemma u32_idx m i lsv ls r f : looked_up D V w m i lsv ls r f -> index_to_u32 i = Ok i.
Proof. intros L. unfold index_to_u32. rewrite (lu_range _ _ _ _ _ _ _ _ _ L). reflexivity. Qed.

Lemma good_built metas ix signers supplied :
  ix_wfb ix = true -> asks_only (built metas ix) signers supplied ->
  (forall E C, accepted (process D E C w metas ix)) ->
  good_build D w (Ok (built metas ix)) ix signers supplied.
Proof.
  intros Hwf Ha Hp. eexists. split; [reflexivity|]. split; [reflexivity|]. split; [apply decode_built, Hwf|].
  split; auto. intros E C. rewrite run_built; auto.
Qed.

Ltac wfb := cbn [ix_wfb si_src_lst_value_calc_accs si_dst_lst_value_calc_accs si_src_lst_index si_dst_lst_index
  si_min_amount_out si_amount so_src_lst_value_calc_accs so_dst_lst_value_calc_accs so_src_lst_index
  so_dst_lst_index so_max_amount_in so_amount al_lst_value_calc_accs al_lst_index al_lst_amount al_min_lp_out
  rl_lst_value_calc_accs rl_lst_index rl_lp_token_amount rl_min_lst_out sr_src_lst_calc_accs sr_src_lst_index
  sr_dst_lst_index sr_amount sr_min_starting_src_lst sr_max_starting_dst_lst];
  rewrite ?andb_true_iff; repeat match goal with |- _ /\ _ => split end; auto using u64b_ok;
  try (match goal with L : looked_up _ _ _ _ ?i _ _ _ _ |- u32b ?i = true => apply (lu_range _ _ _ _ _ _ _ _ _ L) end).
Ltac look H L := destruct (look_up D HD V w _ HR HF H) as (? & ? & ? & ? & ? & L).

(* ------------------------------------------------------------------ *)
(** ** SyncSolValue *)
Theorem C34_sync mint calc_accs :
  listed w mint -> suffix_ok 1 calc_accs ->
  exists i calc, listed_at w i mint calc /\
    good_build D w (client_sync D V LST_STATE_LIST_ID mint calc_accs) (SyncSolValue i) [] calc_accs /\
    (forall t E E' C, client_sync D V LST_STATE_LIST_ID mint calc_accs = Ok t ->
       same_calc E E' calc mint (tl calc_accs) -> run D E C w t = run D E' C w t).
Proof.
  intros Hm Hs. destruct (look_up D HD V w _ HR HF Hm) as (i & lsv & ls & r & f & L).
  destruct fresh_list_ok as (lv & l & Hv & Hv' & Hl). destruct fresh_pool_ok as (pv & ps & _ & _ & Hp & _).
  destruct (suffix_group 0 calc_accs (sol_value_calculator ls) Hs) as (Hg & Hlen & Hu8).
  exists i, (sol_value_calculator ls). split; [eapply looked_listed, L|].
  assert (Hb : client_sync D V LST_STATE_LIST_ID mint calc_accs =
    Ok (built ([ro mint; wr POOL_STATE_ID; wr LST_STATE_LIST_ID; ro r] ++ ro (sol_value_calculator ls) :: skipn 1 calc_accs)
          (SyncSolValue i))).
  { unfold client_sync. rewrite Hv. cbn [bind]. rewrite (lu_find _ _ _ _ _ _ _ _ _ L lv Hv'). cbn [bind].
    rewrite (lu_resv _ _ _ _ _ _ _ _ _ L). cbn [bind]. rewrite (u32_idx _ _ _ _ _ _ L). cbn [bind].
    rewrite (lu_calc _ _ _ _ _ _ _ _ _ L), Hg. reflexivity. }
  assert (Hpr : forall E C, process D E C w ([ro mint; wr POOL_STATE_ID; wr LST_STATE_LIST_ID; ro r] ++
      ro (sol_value_calculator ls) :: skipn 1 calc_accs) (SyncSolValue i) =
    (_ <- verify_not_rebalancing_and_not_disabled ps ;;
     sync_sol_value_unchecked E w POOL_STATE_ID LST_STATE_LIST_ID r
       (mkCpi (ro (sol_value_calculator ls)) (skipn 1 calc_accs)) mint i)).
  { intros E C. unfold process. cbn [ix_wfb]. rewrite (lu_range _ _ _ _ _ _ _ _ _ L). cbn [guard app].
    unfold process_sync_sol_value. cbn [mk ro wr]. unfold resolve_sync_sol_value, check_list_key.
    rewrite Z.eqb_refl. cbn [guard]. rewrite (list_ok w l Hl). cbn [bind].
    rewrite (match_on _ _ _ _ (lu_nth _ _ _ _ _ _ _ _ _ L l Hl) (lu_mint _ _ _ _ _ _ _ _ _ L)). cbn [bind].
    rewrite (lu_res _ _ _ _ _ _ _ _ _ L). cbn [bind]. unfold verify_keys_privs.
    rewrite (lu_mint _ _ _ _ _ _ _ _ _ L). cbn [keys_match mk]. rewrite !Z.eqb_refl. cbn [andb guard]. privs.
    rewrite (pool_ok w ps Hp). cbn [bind].
    rewrite (calc_cpi w l i ls _ (skipn 1 calc_accs) Hl (lu_nth _ _ _ _ _ _ _ _ _ L l Hl) eq_refl).
    cbn [bind]. reflexivity. }
  rewrite Hb. split.
  - apply good_built.
    + cbn [ix_wfb]. apply (lu_range _ _ _ _ _ _ _ _ _ L).
    + asks.
    + intros E C. rewrite Hpr. apply acc_bind; [apply acc_active|intros _ _].
      eapply sync_acc; [eapply (good_liq D V w ps l Hp Hl mint r f i _ _ L []); intros ? []|cbn; auto|cbn; auto].
  - intros t E E' C [= <-] Hsame. rewrite !run_built by (cbn [ix_wfb]; apply (lu_range _ _ _ _ _ _ _ _ _ L)).
    rewrite !Hpr. apply bind_ext; [reflexivity|intros _]. apply sync_same. destruct calc_accs; exact Hsame.
Qed.

(* ------------------------------------------------------------------ *)
(** ** Swaps *)
Lemma swap_keys_ok signer sa da sm dm i lsv ls r f j ldv ld r' f' :
  looked_up D V w sm i lsv ls r f -> looked_up D V w dm j ldv ld r' f' ->
  client_swap_keys D V signer sa da sm dm LST_STATE_LIST_ID =
  Ok (swap_metas w signer sa da sm dm f' r r', (i, j), (sol_value_calculator ls, sol_value_calculator ld)).
Proof.
  intros L L'. destruct fresh_list_ok as (lv & l & Hv & Hv' & Hl).
  unfold client_swap_keys. rewrite Hv. cbn [bind]. rewrite (lu_find _ _ _ _ _ _ _ _ _ L lv Hv'). cbn [bind].
  rewrite (lu_resv _ _ _ _ _ _ _ _ _ L). cbn [bind]. rewrite (lu_find _ _ _ _ _ _ _ _ _ L' lv Hv'). cbn [bind].
  rewrite (lu_resv _ _ _ _ _ _ _ _ _ L'), (lu_pfav _ _ _ _ _ _ _ _ _ L'). cbn [bind].
  rewrite (lu_own _ _ _ _ _ _ _ _ _ L), (lu_own _ _ _ _ _ _ _ _ _ L'),
    (lu_calc _ _ _ _ _ _ _ _ _ L), (lu_calc _ _ _ _ _ _ _ _ _ L'). reflexivity.
Qed.
Lemma src_dst_ok src_accs dst_accs p q : suffix_ok 1 src_accs -> suffix_ok 1 dst_accs ->
  extend_with_src_dst src_accs dst_accs (p, q) =
  Ok ((ro p :: skipn 1 src_accs) ++ (ro q :: skipn 1 dst_accs), (len src_accs, len dst_accs)).
Proof.
  intros H1 H2. unfold extend_with_src_dst; cbn [fst snd]. destruct (suffix_group 0 src_accs p H1) as (-> & _).
  cbn [bind]. destruct (suffix_group 0 dst_accs q H2) as (-> & _). reflexivity.
Qed.
Lemma len_nonneg a : 0 <= len a. Proof. unfold len. lia. Qed.


Theorem C34_swap_exact_in signer src_acc dst_acc src_mint dst_mint min_out amount src_accs dst_accs
  price_accs ps :
  listed w src_mint -> listed w dst_mint -> the_pool w = Some ps ->
  suffix_ok 1 src_accs -> suffix_ok 1 dst_accs -> pricing_accounts_ok price_accs ->
  U64 min_out -> U64 amount ->
  let b := client_swap_exact_in D V signer src_acc dst_acc src_mint dst_mint LST_STATE_LIST_ID min_out
             amount src_accs dst_accs price_accs (pricing_program ps) in
  exists i j calc_s calc_d, listed_at w i src_mint calc_s /\ listed_at w j dst_mint calc_d /\
    good_build D w b (SwapExactIn (mkSwapIn (len src_accs) (len dst_accs) i j min_out amount)) [signer]
      (src_accs ++ dst_accs ++ price_accs) /\
    (forall t E E' C, b = Ok t ->
       same_calc E E' calc_s src_mint (skipn 1 src_accs) -> same_calc E E' calc_d dst_mint (skipn 1 dst_accs) ->
       same_price_swap E E' (pricing_program ps) src_mint dst_mint (skipn 2 price_accs) ->
       run D E C w t = run D E' C w t).
Proof.
  intros Hm Hm' Hp Hs Hs' (Hq1 & Hq2) Hmin Ham b.
  destruct (look_up D HD V w _ HR HF Hm) as (i & lsv & ls & r & f & L).
  destruct (look_up D HD V w _ HR HF Hm') as (j & ldv & ld & r' & f' & L').
  destruct fresh_list_ok as (lv & l & Hv & Hv' & Hl).
  destruct (suffix_group 0 src_accs (sol_value_calculator ls) Hs) as (_ & Hlen & Hu8).
  destruct (suffix_group 0 dst_accs (sol_value_calculator ld) Hs') as (_ & Hlen' & Hu8').
  exists i, j, (sol_value_calculator ls), (sol_value_calculator ld).
  split; [eapply looked_listed, L|]. split; [eapply looked_listed, L'|].
  set (args := mkSwapIn (len src_accs) (len dst_accs) i j min_out amount).
  set (metas := swap_metas w signer src_acc dst_acc src_mint dst_mint f' r r' ++
         ((ro (sol_value_calculator ls) :: skipn 1 src_accs) ++ (ro (sol_value_calculator ld) :: skipn 1 dst_accs)) ++
         (ro (pricing_program ps) :: skipn 2 price_accs)).
  assert (Hb : b = Ok (built metas (SwapExactIn args))).
  { unfold b, client_swap_exact_in. rewrite (swap_keys_ok _ _ _ _ _ _ _ _ _ _ _ _ _ _ _ L L'). cbn [bind].
    rewrite (u32_idx _ _ _ _ _ _ L). cbn [bind]. rewrite (u32_idx _ _ _ _ _ _ L'). cbn [bind].
    rewrite src_dst_ok by assumption. cbn [bind]. rewrite suffix_group2 by assumption. reflexivity. }
  assert (Hwf : ix_wfb (SwapExactIn args) = true) by (unfold args; wfb).
  pose proof (verify_swap_built D V w ps l Hp Hl _ _ _ _ _ _ _ _ _ _ _ _ signer src_acc dst_acc _ _
    (ro (pricing_program ps) :: skipn 2 price_accs) _ _ _ L L'
    Hlen (len_nonneg _) Hlen' (len_nonneg _) _ _ _ eq_refl eq_refl eq_refl eq_refl) as Hver.
  fold metas in Hver.
  rewrite Hb. split.
  - apply good_built; auto.
    + unfold metas, swap_metas. asks.
    + intros E C. unfold process. rewrite Hwf. cbn [guard].
      eapply (swap_in_acc D V w ps l Hp Hl src_mint dst_mint); [exact L|exact L'|exact Hver|reflexivity|reflexivity].
  - intros t E E' C [= <-] S1 S2 S3. rewrite !run_built by exact Hwf. unfold process. rewrite Hwf. cbn [guard].
    eapply swap_in_same; [exact S1|exact S2|exact S3|exact Hver|reflexivity|reflexivity].
Qed.

Theorem C34_swap_exact_out signer src_acc dst_acc src_mint dst_mint max_in amount src_accs dst_accs
  price_accs ps :
  listed w src_mint -> listed w dst_mint -> the_pool w = Some ps ->
  suffix_ok 1 src_accs -> suffix_ok 1 dst_accs -> pricing_accounts_ok price_accs ->
  U64 max_in -> U64 amount ->
  let b := client_swap_exact_out D V signer src_acc dst_acc src_mint dst_mint LST_STATE_LIST_ID max_in
             amount src_accs dst_accs price_accs (pricing_program ps) in
  exists i j calc_s calc_d, listed_at w i src_mint calc_s /\ listed_at w j dst_mint calc_d /\
    good_build D w b (SwapExactOut (mkSwapOut (len src_accs) (len dst_accs) i j max_in amount)) [signer]
      (src_accs ++ dst_accs ++ price_accs) /\
    (forall t E E' C, b = Ok t ->
       same_calc E E' calc_s src_mint (skipn 1 src_accs) -> same_calc E E' calc_d dst_mint (skipn 1 dst_accs) ->
       same_price_swap E E' (pricing_program ps) src_mint dst_mint (skipn 2 price_accs) ->
       run D E C w t = run D E' C w t).
Proof.
  intros Hm Hm' Hp Hs Hs' (Hq1 & Hq2) Hmin Ham b.
  destruct (look_up D HD V w _ HR HF Hm) as (i & lsv & ls & r & f & L).
  destruct (look_up D HD V w _ HR HF Hm') as (j & ldv & ld & r' & f' & L').
  destruct fresh_list_ok as (lv & l & Hv & Hv' & Hl).
  destruct (suffix_group 0 src_accs (sol_value_calculator ls) Hs) as (_ & Hlen & Hu8).
  destruct (suffix_group 0 dst_accs (sol_value_calculator ld) Hs') as (_ & Hlen' & Hu8').
  exists i, j, (sol_value_calculator ls), (sol_value_calculator ld).
  split; [eapply looked_listed, L|]. split; [eapply looked_listed, L'|].
  set (args := mkSwapOut (len src_accs) (len dst_accs) i j max_in amount).
  set (metas := swap_metas w signer src_acc dst_acc src_mint dst_mint f' r r' ++
         ((ro (sol_value_calculator ls) :: skipn 1 src_accs) ++ (ro (sol_value_calculator ld) :: skipn 1 dst_accs)) ++
         (ro (pricing_program ps) :: skipn 2 price_accs)).
  assert (Hb : b = Ok (built metas (SwapExactOut args))).
  { unfold b, client_swap_exact_out. rewrite (swap_keys_ok _ _ _ _ _ _ _ _ _ _ _ _ _ _ _ L L'). cbn [bind].
    rewrite (u32_idx _ _ _ _ _ _ L). cbn [bind]. rewrite (u32_idx _ _ _ _ _ _ L'). cbn [bind].
    rewrite src_dst_ok by assumption. cbn [bind]. rewrite suffix_group2 by assumption. reflexivity. }
  assert (Hwf : ix_wfb (SwapExactOut args) = true) by (unfold args; wfb).
  pose proof (verify_swap_built D V w ps l Hp Hl _ _ _ _ _ _ _ _ _ _ _ _ signer src_acc dst_acc _ _
    (ro (pricing_program ps) :: skipn 2 price_accs) _ _ _ L L'
    Hlen (len_nonneg _) Hlen' (len_nonneg _) _ _ _ eq_refl eq_refl eq_refl eq_refl) as Hver.
  fold metas in Hver.
  rewrite Hb. split.
  - apply good_built; auto.
    + unfold metas, swap_metas. asks.
    + intros E C. unfold process. rewrite Hwf. cbn [guard].
      eapply (swap_out_acc D V w ps l Hp Hl src_mint dst_mint); [exact L|exact L'|exact Hver|reflexivity|reflexivity].
  - intros t E E' C [= <-] S1 S2 S3. rewrite !run_built by exact Hwf. unfold process. rewrite Hwf. cbn [guard].
    eapply swap_out_same; [exact S1|exact S2|exact S3|exact Hver|reflexivity|reflexivity].
Qed.

(* ------------------------------------------------------------------ *)
(** ** Liquidity *)
Lemma liquidity_ok signer la lp m calc_accs price_accs mkix i lsv ls r f ps :
  looked_up D V w m i lsv ls r f -> the_pool w = Some ps -> suffix_ok 1 calc_accs -> suffix_ok 1 price_accs ->
  client_liquidity D V signer la lp POOL_STATE_ID LST_STATE_LIST_ID m calc_accs price_accs mkix =
  Ok (built (liq_metas w ps signer la lp m f r ++ (ro (sol_value_calculator ls) :: skipn 1 calc_accs) ++
        (ro (pricing_program ps) :: skipn 1 price_accs)) (mkix (len calc_accs) i)).
Proof.
  intros L Hp Hs Hq. destruct fresh_list_ok as (lv & l & Hv & Hv' & Hl).
  destruct (fresh_pool ps Hp) as (pv & Hpv & Hid). unfold pool_id in Hid. injection Hid as I1 I2 I3 I4 I5.
  unfold client_liquidity. rewrite Hv. cbn [bind]. rewrite (lu_find _ _ _ _ _ _ _ _ _ L lv Hv'). cbn [bind].
  rewrite (lu_resv _ _ _ _ _ _ _ _ _ L), (lu_pfav _ _ _ _ _ _ _ _ _ L). cbn [bind].
  rewrite (pool_ok V pv Hpv). cbn [bind]. rewrite (u32_idx _ _ _ _ _ _ L). cbn [bind].
  rewrite (lu_calc _ _ _ _ _ _ _ _ _ L), I4.
  destruct (suffix_group 0 calc_accs (sol_value_calculator ls) Hs) as (-> & _). cbn [bind].
  destruct (suffix_group 0 price_accs (pricing_program ps) Hq) as (-> & _). cbn [bind].
  rewrite I5, (lu_own _ _ _ _ _ _ _ _ _ L). reflexivity.
Qed.

Theorem C34_add_liquidity signer src_lst_acc dst_lp_acc mint lst_amount min_lp_out calc_accs price_accs ps :
  listed w mint -> the_pool w = Some ps -> suffix_ok 1 calc_accs -> suffix_ok 1 price_accs ->
  U64 lst_amount -> U64 min_lp_out ->
  let b := client_add_liquidity D V signer src_lst_acc dst_lp_acc POOL_STATE_ID LST_STATE_LIST_ID mint
             lst_amount min_lp_out calc_accs price_accs in
  exists i calc, listed_at w i mint calc /\
    good_build D w b (AddLiquidity (mkAddLiq (len calc_accs) i lst_amount min_lp_out)) [signer]
      (calc_accs ++ price_accs) /\
    (forall t E E' C, b = Ok t -> same_calc E E' calc mint (skipn 1 calc_accs) ->
       same_price_lp E E' (pricing_program ps) mint (skipn 1 price_accs) -> run D E C w t = run D E' C w t).
Proof.
  intros Hm Hp Hs Hq Ha Hmin b. destruct (look_up D HD V w _ HR HF Hm) as (i & lsv & ls & r & f & L).
  destruct fresh_list_ok as (lv & l & Hv & Hv' & Hl).
  destruct (suffix_group 0 calc_accs (sol_value_calculator ls) Hs) as (_ & Hlen & Hu8).
  exists i, (sol_value_calculator ls). split; [eapply looked_listed, L|].
  assert (Hwf : ix_wfb (AddLiquidity (mkAddLiq (len calc_accs) i lst_amount min_lp_out)) = true) by wfb.
  pose proof (liquidity_ok signer src_lst_acc dst_lp_acc mint calc_accs price_accs
    (fun n i => AddLiquidity (mkAddLiq n i lst_amount min_lp_out)) _ _ _ _ _ ps L Hp Hs Hq) as Hb.
  fold (client_add_liquidity D V signer src_lst_acc dst_lp_acc POOL_STATE_ID LST_STATE_LIST_ID mint
             lst_amount min_lp_out calc_accs price_accs) in Hb. fold b in Hb.
  set (metas := _ ++ _ ++ _) in Hb.
  pose proof (verify_liq_built D V w ps l Hp Hl _ _ _ _ _ _ signer src_lst_acc dst_lp_acc _
    (ro (pricing_program ps) :: skipn 1 price_accs) _ _ true L
    Hlen (len_nonneg _) _ _ eq_refl eq_refl eq_refl) as Hver. fold metas in Hver.
  rewrite Hb. split.
  - apply good_built; auto.
    + unfold metas, liq_metas. asks.
    + intros E C. unfold process. rewrite Hwf. cbn [guard].
      eapply (add_acc D V w ps l Hp Hl mint); [exact L|apply lp_mint_ok, Hp|exact Hver|reflexivity].
  - intros t E E' C [= <-] S1 S2. rewrite !run_built by exact Hwf. unfold process. rewrite Hwf. cbn [guard].
    eapply add_same; [exact S1|exact S2|exact Hver|reflexivity].
Qed.

Theorem C34_remove_liquidity signer dst_lst_acc src_lp_acc mint lp_amount min_lst_out calc_accs price_accs ps :
  listed w mint -> the_pool w = Some ps -> suffix_ok 1 calc_accs -> suffix_ok 1 price_accs ->
  U64 lp_amount -> U64 min_lst_out ->
  let b := client_remove_liquidity D V signer dst_lst_acc src_lp_acc POOL_STATE_ID LST_STATE_LIST_ID mint
             lp_amount min_lst_out calc_accs price_accs in
  exists i calc, listed_at w i mint calc /\
    good_build D w b (RemoveLiquidity (mkRemLiq (len calc_accs) i lp_amount min_lst_out)) [signer]
      (calc_accs ++ price_accs) /\
    (forall t E E' C, b = Ok t -> same_calc E E' calc mint (skipn 1 calc_accs) ->
       same_price_lp E E' (pricing_program ps) mint (skipn 1 price_accs) -> run D E C w t = run D E' C w t).
Proof.
  intros Hm Hp Hs Hq Ha Hmin b. destruct (look_up D HD V w _ HR HF Hm) as (i & lsv & ls & r & f & L).
  destruct fresh_list_ok as (lv & l & Hv & Hv' & Hl).
  destruct (suffix_group 0 calc_accs (sol_value_calculator ls) Hs) as (_ & Hlen & Hu8).
  exists i, (sol_value_calculator ls). split; [eapply looked_listed, L|].
  assert (Hwf : ix_wfb (RemoveLiquidity (mkRemLiq (len calc_accs) i lp_amount min_lst_out)) = true) by wfb.
  pose proof (liquidity_ok signer dst_lst_acc src_lp_acc mint calc_accs price_accs
    (fun n i => RemoveLiquidity (mkRemLiq n i lp_amount min_lst_out)) _ _ _ _ _ ps L Hp Hs Hq) as Hb.
  fold (client_remove_liquidity D V signer dst_lst_acc src_lp_acc POOL_STATE_ID LST_STATE_LIST_ID mint
             lp_amount min_lst_out calc_accs price_accs) in Hb. fold b in Hb.
  set (metas := _ ++ _ ++ _) in Hb.
  pose proof (verify_liq_built D V w ps l Hp Hl _ _ _ _ _ _ signer dst_lst_acc src_lp_acc _
    (ro (pricing_program ps) :: skipn 1 price_accs) _ _ false L
    Hlen (len_nonneg _) _ _ eq_refl eq_refl eq_refl) as Hver. fold metas in Hver.
  rewrite Hb. split.
  - apply good_built; auto.
    + unfold metas, liq_metas. asks.
    + intros E C. unfold process. rewrite Hwf. cbn [guard].
      eapply (rem_acc D V w ps l Hp Hl mint); [exact L|apply lp_mint_ok, Hp|exact Hver|reflexivity].
  - intros t E E' C [= <-] S1 S2. rewrite !run_built by exact Hwf. unfold process. rewrite Hwf. cbn [guard].
    eapply rem_same; [exact S1|exact S2|exact Hver|reflexivity].
Qed.

(* ------------------------------------------------------------------ *)
(** ** The mint is not on the list: the client says so *)
Theorem C34_unlisted mint : ~ listed w mint ->
  let no (r : res TopIx) := r = Err (Ctl InvalidLstIndex) in
  (forall ca, no (client_sync D V LST_STATE_LIST_ID mint ca)) /\
  (forall s a b m mn am sa da pa pp, no (client_swap_exact_in D V s a b mint m LST_STATE_LIST_ID mn am sa da pa pp)) /\
  (forall s a b m mn am sa da pa pp, no (client_swap_exact_out D V s a b mint m LST_STATE_LIST_ID mn am sa da pa pp)) /\
  (forall s a b am mn ca pa, no (client_add_liquidity D V s a b POOL_STATE_ID LST_STATE_LIST_ID mint am mn ca pa)) /\
  (forall s a b am mn ca pa, no (client_remove_liquidity D V s a b POOL_STATE_ID LST_STATE_LIST_ID mint am mn ca pa)) /\
  no (client_disable_lst_input V POOL_STATE_ID LST_STATE_LIST_ID mint) /\
  no (client_enable_lst_input V POOL_STATE_ID LST_STATE_LIST_ID mint) /\
  (forall rf, no (client_remove_lst D V rf POOL_STATE_ID LST_STATE_LIST_ID mint)) /\
  (forall ca c, no (client_set_sol_value_calculator D V POOL_STATE_ID LST_STATE_LIST_ID mint ca c)) /\
  (forall wt m a mn mx sa da, no (client_start_rebalance D V wt LST_STATE_LIST_ID POOL_STATE_ID mint m a mn mx sa da)).
Proof.
  intros Hn no. destruct HF as (_ & (lv & l & Hv & Hl & He & _) & _).
  assert (Hmv : map ls_mint lv = map ls_mint l).
  { pose proof (f_equal (map (fun x => fst (fst (fst x)))) He) as H. rewrite !map_map in H. exact H. }
  assert (Hf : try_find_lst_mint_on_list mint lv = Err (Ctl InvalidLstIndex)).
  { unfold try_find_lst_mint_on_list. generalize 0. intros k.
    assert (Hin : ~ In mint (map ls_mint lv)).
    { rewrite Hmv, in_map_iff. intros (ls & ? & ?). apply Hn. exists l, ls. auto. }
    clear -Hin. revert k. induction lv as [|x t IH]; intros k; [reflexivity|]. cbn [find_lst_from].
    cbn [map In] in Hin. destruct (Z.eqb_spec (ls_mint x) mint); [tauto|]. apply IH. tauto. }
  assert (HL : try_lst_state_list V LST_STATE_LIST_ID = Ok lv).
  { unfold try_lst_state_list, the_list in *. rewrite Hv. reflexivity. }
  repeat split; intros; unfold no, client_sync, client_swap_exact_in, client_swap_exact_out, client_swap_keys,
    client_add_liquidity, client_remove_liquidity, client_liquidity, client_disable_lst_input,
    client_enable_lst_input, client_set_lst_input, client_remove_lst, client_set_sol_value_calculator,
    client_start_rebalance; rewrite HL; cbn [bind]; rewrite Hf; reflexivity.
Qed.

(* ------------------------------------------------------------------ *)
(** ** List management *)
Lemma active_ok ps : the_pool w = Some ps -> pool_active w -> verify_not_rebalancing_and_not_disabled ps = Ok tt.
Proof.
  intros Hp (ps' & Hp' & H1 & H2). assert (ps' = ps) as -> by congruence.
  unfold verify_not_rebalancing_and_not_disabled. rewrite H1, H2. reflexivity.
Qed.
Lemma succeeds_built metas ix : ix_wfb ix = true ->
  (forall E C, exists w', process D E C w metas ix = Ok w') -> succeeds D w (Ok (built metas ix)).
Proof.
  intros Hwf H. eexists. split; [reflexivity|]. intros E C. rewrite run_built by exact Hwf. auto.
Qed.

Section Input.
Variables (mint : key) (ps : PoolState) (flag : bool).
Let ixf i := if flag then DisableLstInput i else EnableLstInput i.
Let b := if flag then client_disable_lst_input V POOL_STATE_ID LST_STATE_LIST_ID mint
         else client_enable_lst_input V POOL_STATE_ID LST_STATE_LIST_ID mint.
Lemma lst_input_built : listed w mint -> the_pool w = Some ps ->
  exists i calc, listed_at w i mint calc /\ good_build D w b (ixf i) [admin ps] [] /\
    (pool_active w -> succeeds D w b).
Proof.
  intros Hm Hp. destruct (look_up D HD V w _ HR HF Hm) as (i & lsv & ls & r & f & L).
  destruct fresh_list_ok as (lv & l & Hv & Hv' & Hl).
  destruct (fresh_pool ps Hp) as (pv & Hpv & Hid). unfold pool_id in Hid. injection Hid as I1 I2 I3 I4 I5.
  exists i, (sol_value_calculator ls). split; [eapply looked_listed, L|].
  set (metas := [sg (admin ps); ro mint; wr POOL_STATE_ID; wr LST_STATE_LIST_ID]).
  assert (Hb : b = Ok (built metas (ixf i))).
  { unfold b, ixf, client_disable_lst_input, client_enable_lst_input, client_set_lst_input, metas.
    rewrite Hv. cbn [bind]. rewrite (lu_find _ _ _ _ _ _ _ _ _ L lv Hv'). cbn [bind].
    rewrite (ClientProofs.pool_ok V pv Hpv). cbn [bind]. rewrite (u32_idx _ _ _ _ _ _ L). cbn [bind].
    rewrite (lu_mintv _ _ _ _ _ _ _ _ _ L), I1. destruct flag; reflexivity. }
  assert (Hwf : ix_wfb (ixf i) = true) by (unfold ixf; destruct flag; apply (lu_range _ _ _ _ _ _ _ _ _ L)).
  assert (Hpr : exists w', forall E C, process D E C w metas (ixf i) =
            (_ <- verify_not_rebalancing_and_not_disabled ps ;; Ok w')).
  { eexists. intros E C. unfold process. rewrite Hwf. cbn [guard].
    transitivity (process_set_lst_input w metas i (if flag then 1 else 0)); [unfold ixf; destruct flag; reflexivity|].
    unfold process_set_lst_input, metas, resolve_disable_enable_lst_input, check_pool_key, check_list_key.
    cbn [mk sg ro wr]. rewrite !Z.eqb_refl. cbn [guard]. rewrite (list_ok w l Hl). cbn [bind].
    rewrite (lu_nth _ _ _ _ _ _ _ _ _ L l Hl). cbn [of_option bind]. rewrite (pool_ok w ps Hp). cbn [bind].
    rewrite (lu_mint _ _ _ _ _ _ _ _ _ L). unfold verify_keys_privs. cbn [keys_match mk].
    rewrite !Z.eqb_refl. cbn [andb guard]. privs. reflexivity. }
  destruct Hpr as (w' & Hpr). rewrite Hb. split.
  - apply good_built; auto. { unfold metas. asks. }
    intros E C. rewrite Hpr. apply acc_bind; [apply acc_active|intros _ _]. exact I.
  - intros Ha. apply succeeds_built; auto. intros E C. exists w'. rewrite Hpr, (active_ok ps Hp Ha). reflexivity.
Qed.
End Input.
Theorem C34_disable_lst_input mint ps : listed w mint -> the_pool w = Some ps ->
  let b := client_disable_lst_input V POOL_STATE_ID LST_STATE_LIST_ID mint in
  exists i calc, listed_at w i mint calc /\ good_build D w b (DisableLstInput i) [admin ps] [] /\
    (pool_active w -> succeeds D w b).
Proof. exact (lst_input_built mint ps true). Qed.
Theorem C34_enable_lst_input mint ps : listed w mint -> the_pool w = Some ps ->
  let b := client_enable_lst_input V POOL_STATE_ID LST_STATE_LIST_ID mint in
  exists i calc, listed_at w i mint calc /\ good_build D w b (EnableLstInput i) [admin ps] [] /\
    (pool_active w -> succeeds D w b).
Proof. exact (lst_input_built mint ps false). Qed.

Lemma create_ata_acc w0 wallet prog m b k :
  ata_ok D w0 -> wallet = POOL_STATE_ID \/ wallet = PROTOCOL_FEE_ID -> d_create D wallet prog m b = Some k ->
  accepted (create_ata_if_not_exist w0 k wallet m prog) /\
  (is_token_program prog = true -> w_mint w0 m <> None -> w_owner w0 m = prog ->
   exists w1, create_ata_if_not_exist w0 k wallet m prog = Ok w1 /\ w_mint w1 = w_mint w0 /\ 
     w_list w1 = w_list w0 /\ (forall x, x <> k -> w_owner w1 x = w_owner w0 x)).
Proof.
  intros Ha Hw Hd. destruct (Ha wallet prog m b k Hw Hd) as (Hm & Ht). unfold create_ata_if_not_exist. split.
  - destruct (w_tok w0 k) as [t|] eqn:E.
    + destruct (Ht t eq_refl) as (_ & -> & _). rewrite Z.eqb_refl. exact I.
    + unfold create_ata_account. apply acc_guard; [intros _; reflexivity|intros _]. rewrite E.
      destruct (w_mint w0 m); [|reflexivity]. accr.
  - intros Hp Hmi Ho. destruct (w_tok w0 k) as [t|] eqn:E.
    + destruct (Ht t eq_refl) as (_ & -> & _). rewrite Z.eqb_refl. exists w0. auto.
    + unfold create_ata_account. rewrite Hp, E. cbn [guard]. destruct (w_mint w0 m); [|congruence].
      rewrite Ho, Z.eqb_refl. cbn [guard]. eexists. split; [reflexivity|].
      unfold put_owner, put_tok; cbn [w_mint w_list w_owner]. split; auto. split; auto.
      intros x Hx. unfold upd. destruct (Z.eqb_spec x k); congruence.
Qed.

Theorem C34_add_lst payer calculator mint ps :
  the_pool w = Some ps -> w_mint w mint <> None -> is_token_program (w_owner w mint) = true ->
  w_owner V mint = w_owner w mint ->
  let b := client_add_lst D V payer calculator POOL_STATE_ID mint in
  good_build D w b AddLst [admin ps; payer] [] /\
  (pool_active w -> ~ listed w mint -> w_exec w calculator = true -> succeeds D w b).
Proof.
  intros Hp Hmi Htp Ho b. destruct fresh_list_ok as (lv & l & Hv & Hv' & Hl).
  destruct (fresh_pool ps Hp) as (pv & Hpv & Hid). unfold pool_id in Hid. injection Hid as I1 I2 I3 I4 I5.
  destruct (d_find D POOL_STATE_ID (w_owner w mint) mint) as (r & br) eqn:F1.
  destruct (d_find D PROTOCOL_FEE_ID (w_owner w mint) mint) as (f & bf) eqn:F2.
  pose proof (proj1 HD POOL_STATE_ID (w_owner w mint) mint) as C1. rewrite F1 in C1. cbn [fst snd] in C1.
  pose proof (proj1 HD PROTOCOL_FEE_ID (w_owner w mint) mint) as C2. rewrite F2 in C2. cbn [fst snd] in C2.
  set (metas := [sg (admin ps); sgw payer; ro mint; wr r; wr f; wr PROTOCOL_FEE_ID; ro calculator;
    ro POOL_STATE_ID; wr LST_STATE_LIST_ID; ro ATA_PROGRAM_ID; ro SYSTEM_PROGRAM_ID; ro (w_owner w mint)]).
  assert (Hb : b = Ok (built metas AddLst)).
  { unfold b, client_add_lst, metas. rewrite Z.eqb_refl. cbn [guard]. rewrite (ClientProofs.pool_ok V pv Hpv). cbn [bind].
    rewrite I1, Ho. unfold find_pool_reserves_address, find_protocol_fee_accumulator_address.
    rewrite F1, F2. reflexivity. }
  pose proof (reachable_ata D HD w HR) as (Hata & _).
  pose proof (create_ata_acc w POOL_STATE_ID _ _ _ _ Hata (or_introl eq_refl) C1) as (A1 & B1).
  destruct (B1 Htp Hmi eq_refl) as (w1 & Hw1 & Em1 & El1 & Eo1).
  assert (Hata1 : ata_ok D w1) by (eapply create_ata_ok; [exact HD|left; reflexivity|exact C1|exact Hw1|exact Hata]).
  pose proof (create_ata_acc w1 PROTOCOL_FEE_ID _ _ _ _ Hata1 (or_intror eq_refl) C2) as (A2 & B2).
  assert (Hnr : mint <> r).
  { intros ->. destruct (Hata POOL_STATE_ID _ _ _ _ (or_introl eq_refl) C1) as (Hn & _). congruence. }
  destruct (B2 Htp ltac:(rewrite Em1; exact Hmi) ltac:(apply Eo1, Hnr)) as (w2 & Hw2 & Em2 & El2 & _).
  assert (Hpr : exists w', forall E C, process D E C w metas AddLst =
    (_ <- verify_is_program w calculator FaultySolValueCalculator ;;
     guard (negb (existsb (fun ls => ls_mint ls =? mint) l)) (Ctl DuplicateLst) (
     _ <- verify_not_rebalancing_and_not_disabled ps ;; Ok w'))).
  { eexists. intros E C. unfold process. cbn [ix_wfb guard]. unfold process_add_lst, metas, resolve_add_lst, check_pool_key.
    cbn [mk sg ro wr sgw]. rewrite Z.eqb_refl. cbn [guard]. rewrite (pool_ok w ps Hp). cbn [bind].
    unfold find_pool_reserves_address, find_protocol_fee_accumulator_address. rewrite F1, F2. cbn [bind].
    unfold verify_keys_privs. cbn [keys_match mk]. rewrite !Z.eqb_refl. cbn [andb guard]. privs.
    unfold verify_tokenkeg_or_22_mint, mint_supply. rewrite Htp. cbn [guard].
    destruct (w_mint w mint); [cbn [of_option bind]|congruence].
    destruct (verify_is_program w calculator FaultySolValueCalculator); [cbn [bind]|reflexivity].
    rewrite (list_ok w l Hl). cbn [bind]. apply guard_ext. apply bind_ext; [reflexivity|intros _].
    rewrite Hw1. cbn [bind]. rewrite Hw2. cbn [bind]. unfold try_lst_state_list. rewrite El2, El1.
    unfold the_list in Hl. rewrite Hl. cbn [of_option bind]. reflexivity. }
  destruct Hpr as (w' & Hpr). rewrite Hb. split.
  - apply good_built; auto. { unfold metas. asks. }
    intros E C. rewrite Hpr. apply acc_bind; [unfold verify_is_program; accr|intros _ _].
    apply acc_guard; [reflexivity|intros _]. apply acc_bind; [apply acc_active|intros _ _]. exact I.
  - intros Ha Hnl Hx. apply succeeds_built; auto. intros E C. exists w'. rewrite Hpr, (active_ok ps Hp Ha).
    unfold verify_is_program. rewrite Hx. cbn [guard bind].
    destruct (existsb _ l) eqn:Ex; [|reflexivity]. exfalso. apply existsb_exists in Ex as (ls & Hin & Heq).
    apply Z.eqb_eq in Heq. apply Hnl. exists l, ls. auto.
Qed.

Theorem C34_remove_lst refund_rent_to mint ps : listed w mint -> the_pool w = Some ps ->
  let b := client_remove_lst D V refund_rent_to POOL_STATE_ID LST_STATE_LIST_ID mint in
  exists i calc, listed_at w i mint calc /\ good_build D w b (RemoveLst i) [admin ps] [].
Proof.
  intros Hm Hp b. destruct (look_up D HD V w _ HR HF Hm) as (i & lsv & ls & r & f & L).
  destruct fresh_list_ok as (lv & l & Hv & Hv' & Hl).
  destruct (fresh_pool ps Hp) as (pv & Hpv & Hid). unfold pool_id in Hid. injection Hid as I1 I2 I3 I4 I5.
  exists i, (sol_value_calculator ls). split; [eapply looked_listed, L|].
  set (metas := [sg (admin ps); wr refund_rent_to; ro mint; wr r; wr f; wr PROTOCOL_FEE_ID;
             ro POOL_STATE_ID; wr LST_STATE_LIST_ID; ro (w_owner w mint)]).
  assert (Hb : b = Ok (built metas (RemoveLst i))).
  { unfold b, client_remove_lst, metas.
    rewrite Hv. cbn [bind]. rewrite (lu_find _ _ _ _ _ _ _ _ _ L lv Hv'). cbn [bind].
    rewrite (lu_resv _ _ _ _ _ _ _ _ _ L), (lu_pfav _ _ _ _ _ _ _ _ _ L). cbn [bind].
    rewrite (ClientProofs.pool_ok V pv Hpv). cbn [bind]. rewrite (lu_range _ _ _ _ _ _ _ _ _ L). cbn [guard].
    rewrite I1, (lu_own _ _ _ _ _ _ _ _ _ L). reflexivity. }
  assert (Hwf : ix_wfb (RemoveLst i) = true) by (apply (lu_range _ _ _ _ _ _ _ _ _ L)).
  rewrite Hb. apply good_built; auto. { unfold metas. asks. }
  intros E C. unfold process. rewrite Hwf. cbn [guard]. unfold process_remove_lst, metas, resolve_remove_lst, check_pool_key, check_list_key.
  cbn [mk sg ro wr]. rewrite !Z.eqb_refl. cbn [guard]. rewrite (list_ok w l Hl). cbn [bind].
  rewrite (match_on _ _ _ _ (lu_nth _ _ _ _ _ _ _ _ _ L l Hl) (lu_mint _ _ _ _ _ _ _ _ _ L)). cbn [bind].
  rewrite (lu_res _ _ _ _ _ _ _ _ _ L), (lu_pfa _ _ _ _ _ _ _ _ _ L), (pool_ok w ps Hp). cbn [bind].
  unfold verify_keys_privs. cbn [keys_match mk]. rewrite !Z.eqb_refl. cbn [andb guard]. privs.
  apply acc_bind; [apply acc_active|intros _ _].
  rewrite (lu_nth _ _ _ _ _ _ _ _ _ L l Hl). cbn [of_option bind].
  pose proof (lu_tok _ _ _ _ _ _ _ _ _ L) as T1. pose proof (lu_tokf _ _ _ _ _ _ _ _ _ L) as T2.
  unfold token_account_balance. destruct (w_tok w r); [cbn [of_option bind]|congruence].
  destruct (w_tok w f); [cbn [of_option bind]|congruence].
  apply acc_guard; [reflexivity|intros _].
  apply acc_bind; [apply acc_close|intros w1 H1]. apply acc_bind; [apply acc_close|intros w2 H2].
  assert (El : w_list w2 = w_list w).
  { unfold close_token_account in H1, H2.
    repeat (apply guard_ok in H1 as (_ & H1) || apply bind_ok in H1 as (? & _ & H1)).
    repeat (apply guard_ok in H2 as (_ & H2) || apply bind_ok in H2 as (? & _ & H2)).
    injection H1 as <-. injection H2 as <-. reflexivity. }
  unfold try_lst_state_list. rewrite El. unfold the_list in Hl. rewrite Hl. exact I.
Qed.

Theorem C34_set_sol_value_calculator mint calc_accs calculator ps :
  listed w mint -> the_pool w = Some ps -> suffix_ok 1 calc_accs ->
  let b := client_set_sol_value_calculator D V POOL_STATE_ID LST_STATE_LIST_ID mint calc_accs calculator in
  exists i calc, listed_at w i mint calc /\
    good_build D w b (SetSolValueCalculator i) [admin ps] calc_accs /\
    (forall t E E' C, b = Ok t -> same_calc E E' calculator mint (skipn 1 calc_accs) ->
       run D E C w t = run D E' C w t).
Proof.
  intros Hm Hp Hs b. destruct (look_up D HD V w _ HR HF Hm) as (i & lsv & ls & r & f & L).
  destruct fresh_list_ok as (lv & l & Hv & Hv' & Hl).
  destruct (fresh_pool ps Hp) as (pv & Hpv & Hid). unfold pool_id in Hid. injection Hid as I1 I2 I3 I4 I5.
  exists i, (sol_value_calculator ls). split; [eapply looked_listed, L|].
  set (metas := [sg (admin ps); ro mint; wr POOL_STATE_ID; ro r; wr LST_STATE_LIST_ID] ++ ro calculator :: skipn 1 calc_accs).
  assert (Hb : b = Ok (built metas (SetSolValueCalculator i))).
  { unfold b, client_set_sol_value_calculator, metas.
    rewrite Hv. cbn [bind]. rewrite (lu_find _ _ _ _ _ _ _ _ _ L lv Hv'). cbn [bind].
    rewrite (lu_resv _ _ _ _ _ _ _ _ _ L), (ClientProofs.pool_ok V pv Hpv). cbn [bind].
    rewrite (u32_idx _ _ _ _ _ _ L). cbn [bind].
    destruct (suffix_group 0 calc_accs calculator Hs) as (-> & _). cbn [bind].
    rewrite (lu_mintv _ _ _ _ _ _ _ _ _ L), I1. reflexivity. }
  assert (Hwf : ix_wfb (SetSolValueCalculator i) = true) by (apply (lu_range _ _ _ _ _ _ _ _ _ L)).
  assert (Hpr : forall E C, process D E C w metas (SetSolValueCalculator i) =
    (_ <- verify_not_rebalancing_and_not_disabled ps ;;
     _ <- verify_is_program w calculator FaultySolValueCalculator ;;
     sync_sol_value_unchecked E (put_list w LST_STATE_LIST_ID
                (Some (replace_nth l (Z.to_nat i) (set_calculator ls calculator)))) POOL_STATE_ID LST_STATE_LIST_ID r
       (mkCpi (ro calculator) (skipn 1 calc_accs)) mint i)).
  { intros E C. unfold process. rewrite Hwf. cbn [guard]. unfold metas. cbn [app].
    unfold process_set_sol_value_calculator, resolve_set_sol_value_calculator, check_pool_key, check_list_key.
    cbn [mk sg ro wr]. rewrite !Z.eqb_refl. cbn [guard]. rewrite (list_ok w l Hl). cbn [bind].
    rewrite (match_on _ _ _ _ (lu_nth _ _ _ _ _ _ _ _ _ L l Hl) (lu_mint _ _ _ _ _ _ _ _ _ L)). cbn [bind].
    rewrite (lu_res _ _ _ _ _ _ _ _ _ L), (pool_ok w ps Hp). cbn [bind]. rewrite (lu_mint _ _ _ _ _ _ _ _ _ L).
    unfold verify_keys_privs. cbn [keys_match mk]. rewrite !Z.eqb_refl. cbn [andb guard]. privs.
    apply bind_ext; [reflexivity|intros _]. cbn [cpi_from_suffix bind cpi_prog mk ro].
    apply bind_ext; [reflexivity|intros _].
    rewrite (lu_nth _ _ _ _ _ _ _ _ _ L l Hl). cbn [of_option bind]. reflexivity. }
  rewrite Hb. split.
  - apply good_built; auto. { unfold metas. asks. }
    intros E C. rewrite Hpr. apply acc_bind; [apply acc_active|intros _ _].
    apply acc_bind; [unfold verify_is_program; accr|intros _ _].
    pose proof (good_liq D V w ps l Hp Hl mint r f i _ _ L [] ltac:(intros ? [])) as (G1 & _ & G3 & G4).
    eapply sync_acc with (rs := [r]) (is := [i]) (ms := []); [|cbn; auto|cbn; auto].
    unfold good, put_list; cbn [w_pool w_list w_tok w_mint]. split; auto. split; [|split; auto].
    rewrite upd_same. eexists. split; [reflexivity|]. intros x [<-|[]]. apply nth_lst_replace.
    rewrite (lu_nth _ _ _ _ _ _ _ _ _ L l Hl). discriminate.
  - intros t E E' C [= <-] S1. rewrite !run_built by exact Hwf. rewrite !Hpr.
    apply bind_ext; [reflexivity|intros _]. apply bind_ext; [reflexivity|intros _]. apply sync_same, S1.
Qed.

(* ------------------------------------------------------------------ *)
(** ** Pool settings *)
Ltac admin_build := 
  let Hb := fresh "Hb" in
  match goal with
  | Hp : the_pool w = Some ?ps |- _ =>
    destruct (fresh_pool ps Hp) as (pv & Hpv & Hid); unfold pool_id in Hid; injection Hid as I1 I2 I3 I4 I5
  end.
Ltac run_settings Hp ps :=
  cbn [mk sg ro wr sgw]; unfold check_pool_key; rewrite ?Z.eqb_refl; cbn [guard];
  rewrite (ClientProofs.pool_ok w ps Hp); cbn [bind]; unfold verify_keys_privs; cbn [keys_match mk];
  rewrite ?Z.eqb_refl; cbn [andb guard]; privs.

Theorem C34_set_admin new_admin ps : the_pool w = Some ps ->
  let b := client_set_admin V new_admin POOL_STATE_ID in
  good_build D w b SetAdmin [admin ps] [] /\ succeeds D w b.
Proof.
  intros Hp b. admin_build.
  assert (Hb : b = Ok (built [sg (admin ps); ro new_admin; wr POOL_STATE_ID] SetAdmin)).
  { unfold b, client_set_admin. rewrite Z.eqb_refl. cbn [guard]. rewrite (ClientProofs.pool_ok V pv Hpv). cbn [bind].
    rewrite I1. reflexivity. }
  assert (Hpr : exists w', forall E C, process D E C w [sg (admin ps); ro new_admin; wr POOL_STATE_ID] SetAdmin = Ok w').
  { eexists. intros E C. unfold process; cbn [ix_wfb guard]. unfold process_set_admin. run_settings Hp ps. reflexivity. }
  destruct Hpr as (w' & Hpr). rewrite Hb. split.
  - apply good_built; [reflexivity|asks|]. intros E C. rewrite Hpr. exact I.
  - apply succeeds_built; [reflexivity|]. eauto.
Qed.

Theorem C34_set_protocol_fee trading lp ps : the_pool w = Some ps ->
  opt_u16b trading = true -> opt_u16b lp = true ->
  let b := client_set_protocol_fee V POOL_STATE_ID trading lp in
  good_build D w b (SetProtocolFee trading lp) [admin ps] [] /\
  (pool_active w -> (forall x, trading = Some x \/ lp = Some x -> x <= 10000) -> succeeds D w b).
Proof.
  intros Hp Ht Hlp b. admin_build.
  set (metas := [sg (admin ps); wr POOL_STATE_ID]).
  assert (Hb : b = Ok (built metas (SetProtocolFee trading lp))).
  { unfold b, client_set_protocol_fee. rewrite Z.eqb_refl. cbn [guard]. rewrite (ClientProofs.pool_ok V pv Hpv). cbn [bind].
    rewrite I1. reflexivity. }
  assert (Hwf : ix_wfb (SetProtocolFee trading lp) = true) by (cbn [ix_wfb]; rewrite Ht, Hlp; reflexivity).
  assert (Hpr : exists w', forall E C, process D E C w metas (SetProtocolFee trading lp) =
    (_ <- verify_not_rebalancing_and_not_disabled ps ;; guard (fee_ok lp && fee_ok trading) (Ctl FeeTooHigh) (Ok w'))).
  { eexists. intros E C. unfold process; rewrite Hwf; cbn [guard]. unfold process_set_protocol_fee, metas.
    run_settings Hp ps. reflexivity. }
  destruct Hpr as (w' & Hpr). rewrite Hb. split.
  - apply good_built; [exact Hwf|unfold metas; asks|]. intros E C. rewrite Hpr.
    apply acc_bind; [apply acc_active|intros _ _]. apply acc_guard; [reflexivity|intros _; exact I].
  - intros Ha Hle. apply succeeds_built; [exact Hwf|]. intros E C. exists w'. rewrite Hpr, (active_ok ps Hp Ha). cbn [bind].
    assert (fee_ok lp = true) as ->. { destruct lp as [x|]; auto. apply Z.leb_le, Hle. auto. }
    assert (fee_ok trading = true) as ->. { destruct trading as [x|]; auto. apply Z.leb_le, Hle. auto. }
    reflexivity.
Qed.

Theorem C34_set_protocol_fee_beneficiary new_beneficiary ps : the_pool w = Some ps ->
  let b := client_set_protocol_fee_beneficiary V new_beneficiary POOL_STATE_ID in
  good_build D w b SetProtocolFeeBeneficiary [protocol_fee_beneficiary ps] [] /\ (pool_active w -> succeeds D w b).
Proof.
  intros Hp b. admin_build.
  set (metas := [sg (protocol_fee_beneficiary ps); ro new_beneficiary; wr POOL_STATE_ID]).
  assert (Hb : b = Ok (built metas SetProtocolFeeBeneficiary)).
  { unfold b, client_set_protocol_fee_beneficiary. rewrite Z.eqb_refl. cbn [guard]. rewrite (ClientProofs.pool_ok V pv Hpv). cbn [bind].
    rewrite I3. reflexivity. }
  assert (Hpr : exists w', forall E C, process D E C w metas SetProtocolFeeBeneficiary =
    (_ <- verify_not_rebalancing_and_not_disabled ps ;; Ok w')).
  { eexists. intros E C. unfold process; cbn [ix_wfb guard]. unfold process_set_protocol_fee_beneficiary, metas.
    run_settings Hp ps. reflexivity. }
  destruct Hpr as (w' & Hpr). rewrite Hb. split.
  - apply good_built; [reflexivity|unfold metas; asks|]. intros E C. rewrite Hpr.
    apply acc_bind; [apply acc_active|intros _ _; exact I].
  - intros Ha. apply succeeds_built; [reflexivity|]. intros E C. exists w'. rewrite Hpr, (active_ok ps Hp Ha). reflexivity.
Qed.

Theorem C34_set_pricing_program new_program ps : the_pool w = Some ps ->
  let b := client_set_pricing_program V new_program POOL_STATE_ID in
  good_build D w b SetPricingProgram [admin ps] [] /\
  (pool_active w -> w_exec w new_program = true -> succeeds D w b).
Proof.
  intros Hp b. admin_build.
  set (metas := [sg (admin ps); ro new_program; wr POOL_STATE_ID]).
  assert (Hb : b = Ok (built metas SetPricingProgram)).
  { unfold b, client_set_pricing_program. rewrite Z.eqb_refl. cbn [guard]. rewrite (ClientProofs.pool_ok V pv Hpv). cbn [bind].
    rewrite I1. reflexivity. }
  assert (Hpr : exists w', forall E C, process D E C w metas SetPricingProgram =
    (_ <- verify_is_program w new_program FaultyPricingProgram ;;
     _ <- verify_not_rebalancing_and_not_disabled ps ;; Ok w')).
  { eexists. intros E C. unfold process; cbn [ix_wfb guard]. unfold process_set_pricing_program, metas.
    run_settings Hp ps. reflexivity. }
  destruct Hpr as (w' & Hpr). rewrite Hb. split.
  - apply good_built; [reflexivity|unfold metas; asks|]. intros E C. rewrite Hpr.
    apply acc_bind; [unfold verify_is_program; accr|intros _ _].
    apply acc_bind; [apply acc_active|intros _ _; exact I].
  - intros Ha Hx. apply succeeds_built; [reflexivity|]. intros E C. exists w'. rewrite Hpr, (active_ok ps Hp Ha).
    unfold verify_is_program. rewrite Hx. reflexivity.
Qed.

(** Withdrawing fees to a token account of a listed mint: both the resolver that reads the destination and
    the one that is told the mint. *)
Theorem C34_withdraw_protocol_fees withdraw_to mint amount t0 ps : the_pool w = Some ps -> listed w mint ->
  w_tok w withdraw_to = Some t0 -> ta_mint t0 = mint -> w_owner w withdraw_to = w_owner w mint ->
  w_tok V withdraw_to = Some t0 -> w_owner V withdraw_to = w_owner w withdraw_to -> U64 amount ->
  let b := client_withdraw_protocol_fees D V POOL_STATE_ID withdraw_to amount in
  client_withdraw_protocol_fees_by_mint D V POOL_STATE_ID withdraw_to mint amount = b /\
  good_build D w b (WithdrawProtocolFees amount) [protocol_fee_beneficiary ps] [].
Proof.
  intros Hp Hm Ht Htm Hto HtV HoV Hu b. admin_build.
  destruct (look_up D HD V w _ HR HF Hm) as (i & lsv & ls & r & f & L).
  pose proof (reachable_ata D HD w HR) as (_ & Hat & _).
  destruct fresh_list_ok as (lv & l & Hv & Hv' & Hl).
  specialize (Hat l Hl). rewrite Forall_forall in Hat.
  destruct (Hat ls (nth_error_In _ _ (lu_nth _ _ _ _ _ _ _ _ _ L l Hl))) as (_ & _ & r2 & f2 & _ & F2 & _ & T2).
  rewrite (lu_mint _ _ _ _ _ _ _ _ _ L) in F2.
  set (metas := withdraw_metas ps withdraw_to f2 (w_owner w mint) mint).
  assert (Hb : b = Ok (built metas (WithdrawProtocolFees amount))).
  { unfold b, client_withdraw_protocol_fees. rewrite Z.eqb_refl. cbn [guard]. unfold token_account_mint.
    rewrite HtV. cbn [of_option bind]. rewrite (ClientProofs.pool_ok V pv Hpv). cbn [bind]. rewrite Htm, HoV, Hto.
    unfold find_protocol_fee_accumulator_address. rewrite F2. unfold metas, withdraw_metas. rewrite I3. reflexivity. }
  split.
  { rewrite Hb. unfold client_withdraw_protocol_fees_by_mint. rewrite (ClientProofs.pool_ok V pv Hpv). cbn [bind].
    rewrite (lu_own _ _ _ _ _ _ _ _ _ L). unfold find_protocol_fee_accumulator_address. rewrite F2.
    unfold metas, withdraw_metas. rewrite I3. reflexivity. }
  assert (Hwf : ix_wfb (WithdrawProtocolFees amount) = true) by (apply u64b_ok, Hu).
  rewrite Hb. apply good_built; [exact Hwf|unfold metas, withdraw_metas; asks|].
  intros E C. unfold process; rewrite Hwf; cbn [guard]. unfold process_withdraw_protocol_fees, metas, withdraw_metas.
  cbn [mk sg ro wr]. unfold resolve_withdraw_protocol_fees, check_pool_key. rewrite Z.eqb_refl. cbn [guard].
  unfold token_account_mint. rewrite Ht. cbn [of_option bind].
  unfold find_protocol_fee_accumulator_address. rewrite Htm, Hto, F2.
  rewrite (ClientProofs.pool_ok w ps Hp). cbn [bind]. unfold verify_keys_privs; cbn [keys_match mk];
  rewrite ?Z.eqb_refl; cbn [andb guard]; privs.
  apply acc_bind; [apply acc_active|intros _ _]. unfold token_account_balance.
  destruct (w_tok w f2) eqn:Ef2; [cbn [of_option bind]|congruence]. apply acc_guard; [reflexivity|intros _]. apply acc_transfer.
Qed.

Lemma auth_list_ok : exists au, the_authorities w = Some au /\ the_authorities V = Some au /\
  try_disable_pool_authority_list w DISABLE_POOL_AUTHORITY_LIST_ID = Ok au /\
  try_disable_pool_authority_list V DISABLE_POOL_AUTHORITY_LIST_ID = Ok au.
Proof.
  destruct (reachable_inv D HD w HR) as ((l & au & _ & Hau & _) & _). destruct HF as (_ & _ & Hv & _).
  exists au. split; auto. split; [congruence|]. unfold try_disable_pool_authority_list, the_authorities in *.
  rewrite Hv, Hau. auto.
Qed.

Theorem C34_add_disable_pool_authority payer new_authority ps : the_pool w = Some ps ->
  let b := client_add_disable_pool_authority V payer new_authority POOL_STATE_ID in
  good_build D w b AddDisablePoolAuthority [payer; admin ps] [] /\
  (forall au, the_authorities w = Some au -> ~ In new_authority au -> succeeds D w b).
Proof.
  intros Hp b. admin_build. destruct auth_list_ok as (au & Hau & _ & Hok & _).
  set (metas := [sgw payer; sg (admin ps); ro POOL_STATE_ID; ro new_authority;
             wr DISABLE_POOL_AUTHORITY_LIST_ID; ro SYSTEM_PROGRAM_ID]).
  assert (Hb : b = Ok (built metas AddDisablePoolAuthority)).
  { unfold b, client_add_disable_pool_authority. rewrite Z.eqb_refl. cbn [guard]. rewrite (ClientProofs.pool_ok V pv Hpv). cbn [bind].
    rewrite I1. reflexivity. }
  assert (Hpr : exists w', forall E C, process D E C w metas AddDisablePoolAuthority =
    guard (negb (existsb (fun k => k =? new_authority) au)) (Ctl DuplicateDisablePoolAuthority) (Ok w')).
  { eexists. intros E C. unfold process; cbn [ix_wfb guard]. unfold process_add_disable_pool_authority, metas.
    run_settings Hp ps. rewrite Hok. cbn [bind]. reflexivity. }
  destruct Hpr as (w' & Hpr). rewrite Hb. split.
  - apply good_built; [reflexivity|unfold metas; asks|]. intros E C. rewrite Hpr.
    apply acc_guard; [reflexivity|intros _; exact I].
  - intros au' Hau' Hn. assert (au' = au) as -> by congruence. apply succeeds_built; [reflexivity|]. intros E C. exists w'. rewrite Hpr.
    destruct (existsb (fun k => k =? new_authority) au) eqn:Ex; [|reflexivity]. apply existsb_exists in Ex as (k & Hin & Hk).
    apply Z.eqb_eq in Hk. subst. tauto.
Qed.

Lemma find_key_nth k l n : find_key k l = Some n -> nth_error l n = Some k.
Proof.
  revert n. induction l as [|x t IH]; cbn [find_key]; intros n H; [discriminate|].
  destruct (Z.eqb_spec x k).
  - injection H as <-. subst. reflexivity.
  - destruct (find_key k t); [|discriminate]. injection H as <-. cbn. auto.
Qed.
Lemma find_key_in k l : In k l -> exists n, find_key k l = Some n.
Proof.
  induction l as [|x t IH]; cbn [find_key In]; [tauto|]. destruct (Z.eqb_spec x k); [eauto|].
  intros [?|Hin]; [congruence|]. destruct (IH Hin) as (n0 & ->). eauto.
Qed.

Theorem C34_remove_disable_pool_authority refund_rent_to signer authority au ps : the_pool w = Some ps ->
  the_authorities w = Some au -> In authority au -> Z.of_nat (length au) <= U32_MAX ->
  let b := client_remove_disable_pool_authority V refund_rent_to signer authority DISABLE_POOL_AUTHORITY_LIST_ID in
  exists i, nth_error au (Z.to_nat i) = Some authority /\
    good_build D w b (RemoveDisablePoolAuthority i) [signer] [] /\
    (signer = admin ps \/ signer = authority -> succeeds D w b).
Proof.
  intros Hp Hau Hin Hlen b. destruct auth_list_ok as (au' & Hau' & _ & Hok & HokV).
  assert (au' = au) as -> by congruence. destruct (find_key_in _ _ Hin) as (n & Hn).
  pose proof (find_key_nth _ _ _ Hn) as Hnth.
  assert (n < length au)%nat by (apply nth_error_Some; congruence).
  exists (Z.of_nat n). rewrite Nat2Z.id. split; auto.
  set (metas := [wr refund_rent_to; sg signer; ro authority; ro POOL_STATE_ID; wr DISABLE_POOL_AUTHORITY_LIST_ID]).
  assert (Hu : u32b (Z.of_nat n) = true) by (unfold u32b; rewrite andb_true_iff, !Z.leb_le; lia).
  assert (Hb : b = Ok (built metas (RemoveDisablePoolAuthority (Z.of_nat n)))).
  { unfold b, client_remove_disable_pool_authority. rewrite HokV. cbn [bind]. rewrite Hn. cbn [of_option bind].
    unfold index_to_u32. rewrite Hu. reflexivity. }
  assert (Hpr : exists w', forall E C, process D E C w metas (RemoveDisablePoolAuthority (Z.of_nat n)) =
    (_ <- verify_admin_or_disable_pool_authority w signer ps DISABLE_POOL_AUTHORITY_LIST_ID ;;
     guard ((signer =? admin ps) || (signer =? authority)) (Ctl UnauthorizedDisablePoolAuthoritySigner) (Ok w'))).
  { eexists. intros E C. unfold process; cbn [ix_wfb]; rewrite Hu; cbn [guard].
    unfold process_remove_disable_pool_authority, metas. cbn [mk sg ro wr].
    unfold resolve_remove_disable_pool_authority, check_pool_key. rewrite !Z.eqb_refl. cbn [guard].
    rewrite Hok. cbn [bind]. rewrite Nat2Z.id, Hnth. cbn [of_option bind].
    unfold verify_keys_privs; cbn [keys_match mk]; rewrite ?Z.eqb_refl; cbn [andb guard]; privs.
    rewrite (ClientProofs.pool_ok w ps Hp). cbn [bind]. reflexivity. }
  destruct Hpr as (w' & Hpr). rewrite Hb. split.
  - apply good_built; [exact Hu|unfold metas; asks|]. intros E C. rewrite Hpr.
    apply acc_bind.
    { unfold verify_admin_or_disable_pool_authority. destruct (_ =? _); [exact I|]. rewrite Hok. cbn [bind]. accr. }
    intros _ _. apply acc_guard; [reflexivity|intros _; exact I].
  - intros Hs. apply succeeds_built; [exact Hu|]. intros E C. exists w'. rewrite Hpr.
    unfold verify_admin_or_disable_pool_authority. destruct (Z.eqb_spec signer (admin ps)) as [|Hne]; [reflexivity|].
    destruct Hs as [?| ->]; [congruence|]. rewrite Hok. cbn [bind]. rewrite Hn. cbn [guard bind orb].
    rewrite Z.eqb_refl. reflexivity.
Qed.

Theorem C34_disable_pool signer ps : the_pool w = Some ps ->
  good_build D w (Ok (client_disable_pool signer)) DisablePool [signer] [] /\
  (pool_active w -> (signer = admin ps \/ exists au, the_authorities w = Some au /\ In signer au) ->
   succeeds D w (Ok (client_disable_pool signer))).
Proof.
  intros Hp. destruct auth_list_ok as (au & Hau & _ & Hok & _). unfold client_disable_pool.
  set (metas := [sg signer; wr POOL_STATE_ID; ro DISABLE_POOL_AUTHORITY_LIST_ID]).
  assert (Hpr : exists w', forall E C, process D E C w metas DisablePool =
    (_ <- verify_not_rebalancing_and_not_disabled ps ;;
     _ <- verify_admin_or_disable_pool_authority w signer ps DISABLE_POOL_AUTHORITY_LIST_ID ;; Ok w')).
  { eexists. intros E C. unfold process; cbn [ix_wfb guard]. unfold process_disable_pool, metas.
    run_settings Hp ps. reflexivity. }
  destruct Hpr as (w' & Hpr). split.
  - apply good_built; [reflexivity|unfold metas; asks|]. intros E C. rewrite Hpr.
    apply acc_bind; [apply acc_active|intros _ _]. apply acc_bind; [|intros _ _; exact I].
    unfold verify_admin_or_disable_pool_authority. destruct (_ =? _); [exact I|]. rewrite Hok. cbn [bind]. accr.
  - intros Ha Hs. apply succeeds_built; [reflexivity|]. intros E C. exists w'. rewrite Hpr, (active_ok ps Hp Ha). cbn [bind].
    unfold verify_admin_or_disable_pool_authority. destruct (Z.eqb_spec signer (admin ps)); [reflexivity|].
    destruct Hs as [?|(au' & Hau' & Hin)]; [congruence|]. assert (au' = au) as -> by congruence.
    rewrite Hok. cbn [bind]. destruct (find_key_in _ _ Hin) as (n1 & ->). reflexivity.
Qed.

Theorem C34_enable_pool ps : the_pool w = Some ps ->
  let b := client_enable_pool V POOL_STATE_ID in
  good_build D w b EnablePool [admin ps] [] /\ (is_disabled ps <> 0 -> succeeds D w b).
Proof.
  intros Hp b. admin_build. set (metas := [sg (admin ps); wr POOL_STATE_ID]).
  assert (Hb : b = Ok (built metas EnablePool)).
  { unfold b, client_enable_pool. rewrite Z.eqb_refl. cbn [guard]. rewrite (ClientProofs.pool_ok V pv Hpv). cbn [bind].
    rewrite I1. reflexivity. }
  assert (Hpr : exists w', forall E C, process D E C w metas EnablePool =
    guard (negb (u8bool_is_false (is_disabled ps))) (Ctl PoolEnabled) (Ok w')).
  { eexists. intros E C. unfold process; cbn [ix_wfb guard]. unfold process_enable_pool, metas.
    run_settings Hp ps. reflexivity. }
  destruct Hpr as (w' & Hpr). rewrite Hb. split.
  - apply good_built; [reflexivity|unfold metas; asks|]. intros E C. rewrite Hpr.
    apply acc_guard; [reflexivity|intros _; exact I].
  - intros Hd. apply succeeds_built; [reflexivity|]. intros E C. exists w'. rewrite Hpr.
    unfold u8bool_is_false. destruct (Z.eqb_spec (is_disabled ps) 0); [congruence|reflexivity].
Qed.

Theorem C34_set_rebalance_authority new_authority (by_admin : bool) ps : the_pool w = Some ps ->
  let b := client_set_rebalance_authority V new_authority POOL_STATE_ID by_admin in
  good_build D w b SetRebalanceAuthority [if by_admin then admin ps else rebalance_authority ps] [] /\
  (pool_active w -> succeeds D w b).
Proof.
  intros Hp b. admin_build. set (s := if by_admin then admin ps else rebalance_authority ps).
  set (metas := [sg s; ro new_authority; wr POOL_STATE_ID]).
  assert (Hb : b = Ok (built metas SetRebalanceAuthority)).
  { unfold b, client_set_rebalance_authority. rewrite (ClientProofs.pool_ok V pv Hpv). cbn [bind].
    rewrite I1, I2. reflexivity. }
  assert (Hpr : exists w', forall E C, process D E C w metas SetRebalanceAuthority =
    (_ <- verify_not_rebalancing_and_not_disabled ps ;; 
     guard ((s =? admin ps) || (s =? rebalance_authority ps)) (Ctl UnauthorizedSetRebalanceAuthoritySigner) (Ok w'))).
  { eexists. intros E C. unfold process; cbn [ix_wfb guard]. unfold process_set_rebalance_authority, metas.
    run_settings Hp ps. reflexivity. }
  destruct Hpr as (w' & Hpr). rewrite Hb. split.
  - apply good_built; [reflexivity|unfold metas; asks|]. intros E C. rewrite Hpr.
    apply acc_bind; [apply acc_active|intros _ _]. apply acc_guard; [reflexivity|intros _; exact I].
  - intros Ha. apply succeeds_built; [reflexivity|]. intros E C. exists w'. rewrite Hpr, (active_ok ps Hp Ha). cbn [bind].
    unfold s. destruct by_admin; rewrite Z.eqb_refl, ?orb_true_r; reflexivity.
Qed.

(* ------------------------------------------------------------------ *)
(** ** Rebalancing *)
Lemma start_built withdraw_to sm dm amount min_src max_dst src_accs dst_accs ps i lsv ls r f j ldv ld r' f' :
  looked_up D V w sm i lsv ls r f -> looked_up D V w dm j ldv ld r' f' -> the_pool w = Some ps ->
  suffix_ok 1 src_accs -> suffix_ok 1 dst_accs ->
  client_start_rebalance D V withdraw_to LST_STATE_LIST_ID POOL_STATE_ID sm dm amount min_src max_dst src_accs dst_accs =
  Ok (built ([sg (rebalance_authority ps); wr POOL_STATE_ID; wr LST_STATE_LIST_ID; wr REBALANCE_RECORD_ID; ro sm; ro dm;
              wr r; wr r'; wr withdraw_to; ro INSTRUCTIONS_SYSVAR_ID; ro SYSTEM_PROGRAM_ID; ro (w_owner w sm)] ++
              (ro (sol_value_calculator ls) :: skipn 1 src_accs) ++ (ro (sol_value_calculator ld) :: skipn 1 dst_accs))
        (StartRebalance (mkStartReb (len src_accs) i j amount min_src max_dst))).
Proof.
  intros L L' Hp Hs Hs'. admin_build. destruct fresh_list_ok as (lv & l & Hv & Hv' & Hl).
  unfold client_start_rebalance. rewrite Hv. cbn [bind]. rewrite (lu_find _ _ _ _ _ _ _ _ _ L lv Hv'). cbn [bind].
  rewrite (lu_resv _ _ _ _ _ _ _ _ _ L). cbn [bind]. rewrite (lu_find _ _ _ _ _ _ _ _ _ L' lv Hv'). cbn [bind].
  rewrite (lu_resv _ _ _ _ _ _ _ _ _ L'). cbn [bind]. rewrite (ClientProofs.pool_ok V pv Hpv). cbn [bind].
  rewrite (u32_idx _ _ _ _ _ _ L), (u32_idx _ _ _ _ _ _ L'). cbn [bind].
  rewrite src_dst_ok by assumption. cbn [bind].
  rewrite (lu_mintv _ _ _ _ _ _ _ _ _ L), (lu_mintv _ _ _ _ _ _ _ _ _ L'), (lu_own _ _ _ _ _ _ _ _ _ L),
    (lu_calc _ _ _ _ _ _ _ _ _ L), (lu_calc _ _ _ _ _ _ _ _ _ L'), I2. reflexivity.
Qed.

Lemma acc_scan ixs m : accepted (scan_end_rebalance ixs m).
Proof. induction ixs as [|x t IH]; cbn [scan_end_rebalance]; [reflexivity|]. destruct (is_end_rebalance_ix x m); [exact I|auto]. Qed.
Lemma scan_in ixs x m : In x ixs -> is_end_rebalance_ix x m = true -> scan_end_rebalance ixs m = Ok tt.
Proof.
  induction ixs as [|y t IH]; cbn [scan_end_rebalance In]; [tauto|]. intros [->|Hin] He; [rewrite He; reflexivity|].
  destruct (is_end_rebalance_ix y m); auto.
Qed.

Lemma start_eq withdraw_to src_mint dst_mint amount min_src max_dst src_accs dst_accs ps i lsv ls r f j ldv ld r' f' :
  looked_up D V w src_mint i lsv ls r f -> looked_up D V w dst_mint j ldv ld r' f' -> the_pool w = Some ps ->
  suffix_ok 1 src_accs -> suffix_ok 1 dst_accs -> U64 amount -> U64 min_src -> U64 max_dst ->
  let metas := [sg (rebalance_authority ps); wr POOL_STATE_ID; wr LST_STATE_LIST_ID; wr REBALANCE_RECORD_ID; ro src_mint;
              ro dst_mint; wr r; wr r'; wr withdraw_to; ro INSTRUCTIONS_SYSVAR_ID; ro SYSTEM_PROGRAM_ID;
              ro (w_owner w src_mint)] ++
              (ro (sol_value_calculator ls) :: skipn 1 src_accs) ++ (ro (sol_value_calculator ld) :: skipn 1 dst_accs) in
  let args := mkStartReb (len src_accs) i j amount min_src max_dst in
  let c1 := mkCpi (ro (sol_value_calculator ls)) (skipn 1 src_accs) in
  let c2 := mkCpi (ro (sol_value_calculator ld)) (skipn 1 dst_accs) in
  ix_wfb (StartRebalance args) = true /\
  forall E C, process D E C w metas (StartRebalance args) =
    (src_bal <- token_account_balance w r ;;
    guard (min_src <=? src_bal) (Ctl SlippageToleranceExceeded) (
    dst_bal <- token_account_balance w r' ;;
    guard (dst_bal <=? max_dst) (Ctl SlippageToleranceExceeded) (
    _ <- verify_not_rebalancing_and_not_disabled ps ;;
    _ <- verify_lst_input_not_disabled ld ;;
    _ <- verify_has_succeeding_end_rebalance_ix C dst_mint ;;
    w1 <- sync_sol_value_unchecked E w POOL_STATE_ID LST_STATE_LIST_ID r c1 src_mint i ;;
    w2 <- sync_sol_value_unchecked E w1 POOL_STATE_ID LST_STATE_LIST_ID r' c2 dst_mint j ;;
    old_total <- pool_field w2 POOL_STATE_ID total_sol_value ;;
    w3 <- transfer_checked w2 (w_owner w src_mint) r withdraw_to src_mint POOL_STATE_ID true amount ;;
    w4 <- sync_sol_value_unchecked E w3 POOL_STATE_ID LST_STATE_LIST_ID r c1 src_mint i ;;
    guard (match w_rec w4 REBALANCE_RECORD_ID with None => true | Some _ => false end) SystemErr (
    let w5 := put_rec w4 REBALANCE_RECORD_ID (Some (mkRec old_total j)) in
    ps5 <- try_pool_state w5 POOL_STATE_ID ;;
    Ok (put_pool w5 POOL_STATE_ID (Some (set_rebalancing ps5 1))))))).
Proof.
  intros L L' Hp Hs Hs' Ha Hmin Hmax metas args c1 c2. destruct fresh_list_ok as (lv & l & Hv & Hv' & Hl).
  destruct (suffix_group 0 src_accs (sol_value_calculator ls) Hs) as (_ & Hlen & Hu8).
  assert (Hwf : ix_wfb (StartRebalance args) = true) by (unfold args; wfb). split; auto.
  intros E C. unfold process. rewrite Hwf. cbn [guard]. unfold metas. cbn [app].
    unfold process_start_rebalance, resolve_start_rebalance, check_pool_key, check_list_key.
    cbn [mk sg ro wr]. rewrite !Z.eqb_refl. cbn [guard]. rewrite (list_ok w l Hl). cbn [bind].
    cbn [sr_src_lst_index sr_dst_lst_index sr_src_lst_calc_accs sr_amount sr_min_starting_src_lst
      sr_max_starting_dst_lst args].
    rewrite (match_on _ _ _ _ (lu_nth _ _ _ _ _ _ _ _ _ L l Hl) (lu_mint _ _ _ _ _ _ _ _ _ L)). cbn [bind].
    rewrite (lu_res _ _ _ _ _ _ _ _ _ L). cbn [bind].
    rewrite (match_on _ _ _ _ (lu_nth _ _ _ _ _ _ _ _ _ L' l Hl) (lu_mint _ _ _ _ _ _ _ _ _ L')). cbn [bind].
    rewrite (lu_res _ _ _ _ _ _ _ _ _ L'), (ClientProofs.pool_ok w ps Hp). cbn [bind].
    rewrite (lu_mint _ _ _ _ _ _ _ _ _ L), (lu_mint _ _ _ _ _ _ _ _ _ L').
    unfold verify_keys_privs. cbn [keys_match mk]. rewrite !Z.eqb_refl. cbn [andb guard]. privs.
    apply bind_ext; [reflexivity|intros sb]. apply guard_ext. apply bind_ext; [reflexivity|intros db]. apply guard_ext.
    apply bind_ext; [reflexivity|intros _]. rewrite (lu_nth _ _ _ _ _ _ _ _ _ L' l Hl). cbn [of_option bind].
    apply bind_ext; [reflexivity|intros _].
    assert (Hc : verify_src_dst_lst_sol_val_calc_cpis w LST_STATE_LIST_ID
       (ro (sol_value_calculator ls) :: skipn 1 src_accs ++ ro (sol_value_calculator ld) :: skipn 1 dst_accs)
       (len src_accs) i j = Ok (c1, c2)).
    { change (ro (sol_value_calculator ls) :: skipn 1 src_accs ++ ro (sol_value_calculator ld) :: skipn 1 dst_accs)
        with ((ro (sol_value_calculator ls) :: skipn 1 src_accs) ++ (ro (sol_value_calculator ld) :: skipn 1 dst_accs)).
      unfold verify_src_dst_lst_sol_val_calc_cpis. rewrite slice_to_app; [cbn [bind]|exact Hlen|apply len_nonneg].
      rewrite (calc_cpi w l i ls _ _ Hl (lu_nth _ _ _ _ _ _ _ _ _ L l Hl) eq_refl). cbn [bind].
      rewrite slice_from_app; [cbn [bind]|exact Hlen|apply len_nonneg].
      rewrite (calc_cpi w l j ld _ _ Hl (lu_nth _ _ _ _ _ _ _ _ _ L' l Hl) eq_refl). reflexivity. }
    change (skipn 1 (ro (sol_value_calculator ls) :: skipn 1 src_accs)) with (skipn 1 src_accs) in *.
    rewrite Hc. cbn [bind]. reflexivity.
Qed.

Theorem C34_start_rebalance withdraw_to src_mint dst_mint amount min_src max_dst src_accs dst_accs ps :
  listed w src_mint -> listed w dst_mint -> the_pool w = Some ps ->
  suffix_ok 1 src_accs -> suffix_ok 1 dst_accs -> U64 amount -> U64 min_src -> U64 max_dst ->
  let b := client_start_rebalance D V withdraw_to LST_STATE_LIST_ID POOL_STATE_ID src_mint dst_mint amount
             min_src max_dst src_accs dst_accs in
  exists i j calc_s calc_d, listed_at w i src_mint calc_s /\ listed_at w j dst_mint calc_d /\
    good_build D w b (StartRebalance (mkStartReb (len src_accs) i j amount min_src max_dst))
      [rebalance_authority ps] (src_accs ++ dst_accs) /\
    (forall t E E' C, b = Ok t -> same_calc E E' calc_s src_mint (skipn 1 src_accs) ->
       same_calc E E' calc_d dst_mint (skipn 1 dst_accs) -> run D E C w t = run D E' C w t).
Proof.
  intros Hm Hm' Hp Hs Hs' Ha Hmin Hmax b.
  destruct (look_up D HD V w _ HR HF Hm) as (i & lsv & ls & r & f & L).
  destruct (look_up D HD V w _ HR HF Hm') as (j & ldv & ld & r' & f' & L').
  destruct fresh_list_ok as (lv & l & Hv & Hv' & Hl).
  destruct (suffix_group 0 src_accs (sol_value_calculator ls) Hs) as (_ & Hlen & Hu8).
  destruct (suffix_group 0 dst_accs (sol_value_calculator ld) Hs') as (_ & Hlen' & Hu8').
  exists i, j, (sol_value_calculator ls), (sol_value_calculator ld).
  split; [eapply looked_listed, L|]. split; [eapply looked_listed, L'|].
  pose proof (start_built withdraw_to src_mint dst_mint amount min_src max_dst src_accs dst_accs ps _ _ _ _ _ _ _ _ _ _
    L L' Hp Hs Hs') as Hb. fold b in Hb. set (metas := _ ++ _) in Hb.
  set (args := mkStartReb (len src_accs) i j amount min_src max_dst) in *.
  assert (Hwf : ix_wfb (StartRebalance args) = true) by (unfold args; wfb).
  destruct (start_eq withdraw_to src_mint dst_mint amount min_src max_dst src_accs dst_accs ps _ _ _ _ _ _ _ _ _ _
    L L' Hp Hs Hs' Ha Hmin Hmax) as (_ & Hpr). fold metas args in Hpr.
  rewrite Hb. split.
  - apply good_built; [exact Hwf|unfold metas; asks|]. intros E C. rewrite Hpr.
    pose proof (good_swap D V w ps l Hp Hl src_mint dst_mint r f r' f' i j _ _ _ _ L L' [] ltac:(intros ? [])) as G.
    apply acc_bind; [eapply acc_balance; [exact G|cbn; auto]|intros sb _].
    apply acc_guard; [reflexivity|intros _].
    apply acc_bind; [eapply acc_balance; [exact G|cbn; auto]|intros db _].
    apply acc_guard; [reflexivity|intros _].
    apply acc_bind; [apply acc_active|intros _ _]. apply acc_bind; [apply acc_input|intros _ _].
    apply acc_bind; [apply acc_scan|intros _ _].
    apply acc_bind; [eapply sync_acc; [exact G|cbn; auto|cbn; auto]|intros w1 H1].
    pose proof (sync_good _ _ _ _ _ _ _ _ _ _ H1 G) as G1.
    apply acc_bind; [eapply sync_acc; [exact G1|cbn; auto|cbn; auto]|intros w2 H2].
    pose proof (sync_good _ _ _ _ _ _ _ _ _ _ H2 G1) as G2.
    apply acc_bind; [eapply acc_field; exact G2|intros ot _].
    apply acc_bind; [apply acc_transfer|intros w3 H3]. pose proof (transfer_good _ _ _ _ _ _ _ _ _ _ _ _ H3 G2) as G3.
    apply acc_bind; [eapply sync_acc; [exact G3|cbn; auto|cbn; auto]|intros w4 H4].
    pose proof (sync_good _ _ _ _ _ _ _ _ _ _ H4 G3) as G4.
    apply acc_guard; [reflexivity|intros _]. cbv zeta.
    destruct G4 as (G4 & _). unfold try_pool_state, put_rec; cbn [w_pool].
    destruct (w_pool w4 POOL_STATE_ID); [exact I|congruence].
  - intros t E E' C [= <-] S1 S2. rewrite !run_built by exact Hwf. rewrite !Hpr.
    apply bind_ext; [reflexivity|intros sb]. apply guard_ext. apply bind_ext; [reflexivity|intros db]. apply guard_ext.
    do 3 (apply bind_ext; [reflexivity|intros ?]).
    apply bind_ext; [apply sync_same, S1|intros w1]. apply bind_ext; [apply sync_same, S2|intros w2].
    do 2 (apply bind_ext; [reflexivity|intros ?]). apply bind_ext; [apply sync_same, S1|intros w4]. reflexivity.
Qed.

Lemma is_end_built reb dm r' suffix :
  is_end_rebalance_ix (mkTop S_CONTROLLER_ID ([sg reb; wr POOL_STATE_ID; wr LST_STATE_LIST_ID; wr REBALANCE_RECORD_ID;
     ro dm; ro r'] ++ suffix) (enc_ix EndRebalance)) dm = true.
Proof. unfold is_end_rebalance_ix. cbn. rewrite Z.eqb_refl. reflexivity. Qed.
End Client.

Lemma sync_err E w r c m i rs is ms : good w rs is ms -> In r rs -> In i is ->
  match sync_sol_value_unchecked E w POOL_STATE_ID LST_STATE_LIST_ID r c m i with
  | Ok _ => True | Err e => In e [ExternalErr; Ctl FaultySolValueCalculator; Ctl MathError]
  end.
Proof.
  intros (Gp & (l & Hl & Gi) & Gr & Gm) Hr Hi. unfold sync_sol_value_unchecked, token_account_balance.
  destruct (w_tok w r) eqn:Et; [cbn [of_option bind]|exfalso; eapply Gr; eauto].
  unfold invoke_lst_to_sol, decode_range. destruct (e_lst_to_sol _ _ _ _ _ _) as [(lo & hi)|e]; cbn [of_ext bind]; [|cbn; auto].
  destruct (u64b lo && u64b hi); cbn [guard bind]; [|cbn; auto].
  unfold try_pool_state. destruct (w_pool w POOL_STATE_ID); [cbn [of_option bind]|congruence].
  unfold try_lst_state_list. rewrite Hl. cbn [of_option bind].
  destruct (nth_lst l i) eqn:En; [cbn [of_option bind]|exfalso; eapply Gi; eauto].
  unfold sync_sol_value_with_retval, checked_sub, checked_add. destruct (_ <=? _); cbn [bind]; [|cbn; auto].
  destruct (_ <=? _); cbn [bind]; [exact I|cbn; auto].
Qed.

Lemma strip_entry l l' : map strip l' = map strip l -> map entry_id l' = map entry_id l.
Proof.
  intros H. pose proof (f_equal (map entry_id) H) as H1. rewrite !map_map in H1. exact H1.
Qed.
Lemma others_ctl D w w' : others D w w' ->
  the_pool w' = the_pool w /\ the_list w' = the_list w /\ the_authorities w' = the_authorities w /\
  the_record w' = the_record w.
Proof.
  intros H. induction H as [w|w1 w2 w3 H12 IH H23]; [auto|]. destruct IH as (A & B & C & Dd).
  destruct H23 as [X1 X2 X3 X4 _ _ _ _]. rewrite X1, X2, X3, X4. auto.
Qed.
Lemma others_reach D w w' : reachable D w -> others D w w' -> reachable D w'.
Proof.
  intros Hr H. revert Hr. induction H as [w|w1 w2 w3 H12 IH H23]; [auto|]. intros Hr. specialize (IH Hr).
  destruct IH as (w0 & Hg & Hs). exists w0. split; auto. eapply steps_cons; [exact Hs|]. now apply step_external.
Qed.
Lemma others_mints D w w' m : others D w w' -> w_mint w m <> None -> w_mint w' m <> None /\ w_owner w' m = w_owner w m.
Proof.
  intros H. induction H as [w|w1 w2 w3 H12 IH H23]; [auto|]. intros Hm. destruct (IH Hm) as (A & B).
  destruct (w_mint w2 m) as [i|] eqn:Ei; [|congruence]. destruct (x_mint _ _ _ H23 m i Ei) as (C & i' & Hi' & _).
  split; congruence.
Qed.

(** Starting and ending a rebalance: the instruction the client library derives from the start instruction
    is the EndRebalance the start looks for, and once the start went through it can only fail because the
    calculator refuses, arithmetic overflows or the pool would lose value — never because of its accounts. *)
Definition end_failures : list err :=
  [ExternalErr; Ctl FaultySolValueCalculator; Ctl MathError; Ctl PoolWouldLoseSolValue].
Theorem C34_rebalance_pair D (HD : derive_ok D) V w withdraw_to src_mint dst_mint amount min_src max_dst
  src_accs dst_accs ts :
  reachable D w -> fresh V w -> listed w src_mint -> listed w dst_mint ->
  suffix_ok 1 src_accs -> suffix_ok 1 dst_accs -> U64 amount -> U64 min_src -> U64 max_dst ->
  client_start_rebalance D V withdraw_to LST_STATE_LIST_ID POOL_STATE_ID src_mint dst_mint amount
    min_src max_dst src_accs dst_accs = Ok ts ->
  pdas_do_not_sign (ti_accs ts) ->
  exists te, client_end_rebalance ts = Ok te /\
    ti_prog te = S_CONTROLLER_ID /\ dec_ix (ti_data te) = Some EndRebalance /\
    (forall E C, In te (skipn (S (cx_cur C)) (cx_ixs C)) ->
       run D E C w ts <> Err (Ctl NoSucceedingEndRebalance)) /\
    (forall E C w1 w2, run D E C w ts = Ok w1 -> others D w1 w2 ->
       forall E' C', match run D E' C' w2 te with Ok _ => True | Err e => In e end_failures end).
Proof.
  intros HR HF Hm Hm' Hs Hs' Ha Hmin Hmax Hts Hsig.
  destruct (look_up D HD V w _ HR HF Hm) as (i & lsv & ls & r & f & L).
  destruct (look_up D HD V w _ HR HF Hm') as (j & ldv & ld & r' & f' & L').
  destruct (fresh_pool_ok V w HF) as (pv & ps & _ & Hpv & Hp & Hid).
  destruct (fresh_list_ok V w HF) as (lv & l & Hv & Hv' & Hl).
  destruct (suffix_group 0 src_accs (sol_value_calculator ls) Hs) as (_ & Hlen & Hu8).
  pose proof (start_built D V w HF withdraw_to src_mint dst_mint amount min_src max_dst src_accs dst_accs ps
    _ _ _ _ _ _ _ _ _ _ L L' Hp Hs Hs') as Hb. rewrite Hts in Hb. injection Hb as Hb.
  destruct (start_eq D V w HF withdraw_to src_mint dst_mint amount min_src max_dst src_accs dst_accs ps
    _ _ _ _ _ _ _ _ _ _ L L' Hp Hs Hs' Ha Hmin Hmax) as (Hwf & Hpr).
  set (args := mkStartReb (len src_accs) i j amount min_src max_dst) in *.
  set (te := mkTop S_CONTROLLER_ID ([sg (rebalance_authority ps); wr POOL_STATE_ID; wr LST_STATE_LIST_ID;
     wr REBALANCE_RECORD_ID; ro dst_mint; ro r'] ++ (ro (sol_value_calculator ld) :: skipn 1 dst_accs)) (enc_ix EndRebalance)).
  assert (Hte : client_end_rebalance ts = Ok te).
  { subst ts. unfold client_end_rebalance. rewrite decode_built by exact Hwf. cbn [of_option bind].
    unfold built; cbn [ti_accs ti_prog sr_src_lst_calc_accs args].
    match goal with |- context [slice_from ?m ?n] =>
      assert (Hsl : slice_from m n = Ok (ro (sol_value_calculator ld) :: skipn 1 dst_accs)) end.
    { set (g := ro (sol_value_calculator ls) :: skipn 1 src_accs) in *.
      match goal with |- slice_from ?m _ = _ => change m with
        (([sg (rebalance_authority ps); wr POOL_STATE_ID; wr LST_STATE_LIST_ID; wr REBALANCE_RECORD_ID; ro src_mint; ro dst_mint;
              wr r; wr r'; wr withdraw_to; ro INSTRUCTIONS_SYSVAR_ID; ro SYSTEM_PROGRAM_ID; ro (w_owner w src_mint)] ++
              g) ++ (ro (sol_value_calculator ld) :: skipn 1 dst_accs)) end.
      apply slice_from_app; [|unfold len; lia].
      rewrite app_length, Hlen. cbn [length]. unfold len. lia. }
    rewrite Hsl. reflexivity. }
  exists te. split; [exact Hte|]. split; [reflexivity|]. split; [apply (decode_built [] EndRebalance eq_refl)|].
  split.
  - intros E C Hin Hr. rewrite Hb, run_built in Hr by exact Hwf. rewrite Hpr in Hr.
    assert (Hsc : verify_has_succeeding_end_rebalance_ix C dst_mint = Ok tt).
    { unfold verify_has_succeeding_end_rebalance_ix. eapply scan_in; [exact Hin|]. apply is_end_built. }
    revert Hr. rewrite Hsc.
    pose proof (good_swap D V w ps l Hp Hl src_mint dst_mint r f r' f' i j _ _ _ _ L L' [] ltac:(intros ? [])) as G.
    destruct G as (Gp & Gl & Gr & Gm). unfold token_account_balance.
    destruct (w_tok w r) eqn:E1; [cbn [of_option bind]|exfalso; apply (Gr r); cbn; auto].
    destruct (_ <=? _); cbn [guard]; [|discriminate].
    destruct (w_tok w r') eqn:E2; [cbn [of_option bind]|exfalso; apply (Gr r'); cbn; auto].
    destruct (_ <=? _); cbn [guard]; [|discriminate].
    unfold verify_not_rebalancing_and_not_disabled. destruct (negb _); cbn [guard bind]; [|discriminate].
    destruct (negb _); cbn [guard bind]; [|discriminate].
    unfold verify_lst_input_not_disabled. destruct (negb _); cbn [guard bind]; [|discriminate].
    assert (G : good w [r; r'] [i; j] []) by (repeat split; auto).
    assert (HSE : forall w0 rr c m k, good w0 [r; r'] [i; j] [] -> In rr [r; r'] -> In k [i; j] ->
      sync_sol_value_unchecked E w0 POOL_STATE_ID LST_STATE_LIST_ID rr c m k <> Err (Ctl NoSucceedingEndRebalance)).
    { intros w0 rr c m k G0 Hr0 Hk0 He. pose proof (sync_err E w0 rr c m k _ _ _ G0 Hr0 Hk0) as Hse. rewrite He in Hse.
      cbn in Hse. intuition discriminate. }
    destruct (sync_sol_value_unchecked E w _ _ r _ _ i) as [w1|e] eqn:S1; [cbn [bind]|].
    2:{ cbn [bind]. intros [= ->]. eapply HSE; [exact G| | |exact S1]; cbn; auto. }
    pose proof (sync_good _ _ _ _ _ _ _ _ _ _ S1 G) as G1.
    destruct (sync_sol_value_unchecked E w1 _ _ r' _ _ j) as [w2|e] eqn:S2; [cbn [bind]|].
    2:{ cbn [bind]. intros [= ->]. eapply HSE; [exact G1| | |exact S2]; cbn; auto. }
    pose proof (sync_good _ _ _ _ _ _ _ _ _ _ S2 G1) as G2.
    unfold pool_field, try_pool_state. destruct (w_pool w2 POOL_STATE_ID) eqn:P2; [cbn [of_option bind]|discriminate].
    destruct (transfer_checked w2 _ r _ _ _ _ _) as [w3|e] eqn:T; [cbn [bind]|].
    2:{ cbn [bind]. intros [= ->]. revert T. unfold transfer_checked.
        repeat match goal with
        | |- guard ?b _ _ = _ -> _ => destruct b; cbn [guard]; [|discriminate]
        | |- bind (of_option _ ?o) _ = _ -> _ => destruct o; cbn [of_option bind]; [|discriminate]
        | |- (if ?b then _ else _) = _ -> _ => destruct b; [discriminate|]
        end. discriminate. }
    pose proof (transfer_good _ _ _ _ _ _ _ _ _ _ _ _ T G2) as G3.
    destruct (sync_sol_value_unchecked E w3 _ _ r _ _ i) as [w4|e] eqn:S4; [cbn [bind]|].
    2:{ cbn [bind]. intros [= ->]. eapply HSE; [exact G3| | |exact S4]; cbn; auto. }
    destruct (w_rec w4 _); cbn [guard]; [discriminate|]. cbv zeta.
    unfold put_rec; cbn [w_pool]. destruct (w_pool w4 POOL_STATE_ID); cbn [of_option bind]; discriminate.
  - intros E C w1 w2 Hrun Hoth E' C'.
    rewrite Hb, run_built in Hrun by exact Hwf.
    assert (HR1 : reachable D w1).
    { destruct HR as (w0 & Hg & Hst). exists w0. split; auto. eapply steps_cons; [exact Hst|].
      eapply step_controller; [|exact Hrun]. subst ts. exact Hsig. }
    pose proof (others_reach _ _ _ HR1 Hoth) as HR2.
    pose proof (others_ctl _ _ _ Hoth) as (Op & Ol & Oa & Or).
    pose proof Hrun as Hrun0. unfold process in Hrun. rewrite Hwf in Hrun. cbn [guard] in Hrun.
    apply start_rebalance_inv in Hrun.
    destruct Hrun as (x1 & x2 & x3 & x4 & x5 & x6 & x7 & x8 & x9 & x10 & x11 & x12 & cs & cd & ps0 & l0 & lsrc & ldst &
      t1 & t2 & y1 & y2 & ps2 & y3 & y4 & ps4 & Hacc & _ & _ & _ & _ & _ & _ & _ & _ & Hp0 & _ & Hl0 & _ & _ & _ & _ & _ & _ & _ &
      _ & _ & _ & _ & _ & _ & _ & S1 & S2 & P2 & T & S4 & R4 & P4 & ->).
    assert (HV : vals_only w y4).
    { eapply vals_trans; [eapply sync_vals, S1|]. eapply vals_trans; [eapply sync_vals, S2|].
      eapply vals_trans; [eapply ctl_vals, transfer_ctl, T|]. eapply sync_vals, S4. }
    destruct (vals_pool _ _ _ HV Hp) as (v & Hv4). destruct (vals_list _ _ _ HV Hl) as (l4 & Hl4 & He4).
    destruct HV as (Ha4 & _).
    unfold the_pool, the_list, the_authorities, the_record, put_pool, put_rec in *; cbn [w_pool w_list w_auth w_rec] in *.
    rewrite ?upd_same in *. cbn [sr_dst_lst_index args] in Or.
    assert (ps4 = set_total ps v) as -> by congruence.
    rewrite Hl4 in Ol. rewrite Ha4 in Oa.
    assert (Hsh : w_owner y4 = w_owner w /\ (forall m, w_mint w m <> None -> w_mint y4 m <> None)).
    { pose proof (sync_shape _ _ _ _ _ _ _ _ _ S1) as (A1 & _ & B1). pose proof (sync_shape _ _ _ _ _ _ _ _ _ S2) as (A2 & _ & B2).
      pose proof (transfer_shape _ _ _ _ _ _ _ _ _ T) as (A3 & _ & B3). pose proof (sync_shape _ _ _ _ _ _ _ _ _ S4) as (A4 & _ & B4).
      split; [congruence|]. intros m Hm0. specialize (B1 m). specialize (B2 m). specialize (B3 m). specialize (B4 m).
      destruct (w_mint w m), (w_mint y1 m), (w_mint y2 m), (w_mint y3 m), (w_mint y4 m); congruence || tauto. }
    destruct Hsh as (Ho4 & Hm4).
    assert (Hlm : forall m, listed w2 m -> listed w m).
    { intros m (la & lsa & A & B & Cc). unfold the_list in A. rewrite A in Ol. injection Ol as ->.
      apply strip_entry in He4. apply (in_map entry_id) in B. rewrite He4, in_map_iff in B.
      destruct B as (lsb & Eid & Hin). exists l, lsb. split; [exact Hl|]. split; auto. unfold entry_id in Eid. congruence. }
    assert (HF2 : fresh V w2).
    { destruct HF as (_ & (lv0 & l00 & B1 & B2 & B3 & B4) & Bc & Bd).
      unfold fresh. csplit.
      - exists pv, (set_rebalancing (set_total ps v) 1). unfold the_pool. csplit; auto.
      - exists lv0, l4. assert (l00 = l) as -> by (unfold the_list in B2; congruence). csplit; auto.
        + rewrite B3. symmetry. apply strip_entry, He4.
        + pose proof (f_equal (@length _) He4) as Hle. rewrite !map_length in Hle. rewrite Hle. exact B4.
      - unfold the_authorities in *. congruence.
      - intros m Hlw. specialize (Hlm m Hlw). rewrite (Bd m Hlm).
        destruct (look_up D HD V w m HR) as (? & ? & ls5 & ? & ? & L5).
        { unfold fresh. csplit; [exists pv, ps; auto|exists lv0, l00; csplit; auto|auto|auto]. }
        { exact Hlm. }
        pose proof (reachable_ata D HD w HR) as (_ & Hat & _). specialize (Hat l Hl). rewrite Forall_forall in Hat.
        destruct (Hat ls5 (nth_error_In _ _ (lu_nth _ _ _ _ _ _ _ _ _ L5 l Hl))) as (_ & Hmi & _).
        rewrite (lu_mint _ _ _ _ _ _ _ _ _ L5) in Hmi. 
        destruct (others_mints _ _ _ m Hoth (Hm4 m Hmi)) as (_ & ->). cbn [w_owner]. rewrite Ho4. reflexivity. }
    assert (Hld : listed w2 dst_mint).
    { pose proof (lu_nth _ _ _ _ _ _ _ _ _ L' l Hl) as Hn. apply nth_error_In in Hn.
      pose proof (strip_entry _ _ He4) as He5. apply (in_map entry_id) in Hn. rewrite <- He5, in_map_iff in Hn.
      destruct Hn as (lsb & Eid & Hin). exists l4, lsb. split; [exact Ol|]. split; auto.
      unfold entry_id in Eid. pose proof (lu_mint _ _ _ _ _ _ _ _ _ L'). congruence. }
    destruct (look_up D HD V w2 _ HR2 HF2 Hld) as (k & ldv2 & ld2 & r2 & f2 & L2).
    assert (Hk : k = j /\ ldv2 = ldv).
    { pose proof (lu_find _ _ _ _ _ _ _ _ _ L2 lv Hv') as A. rewrite (lu_find _ _ _ _ _ _ _ _ _ L' lv Hv') in A.
      injection A as -> ->. auto. }
    destruct Hk as (-> & ->).
    assert (r2 = r').
    { pose proof (lu_resv _ _ _ _ _ _ _ _ _ L2) as A. rewrite (lu_resv _ _ _ _ _ _ _ _ _ L') in A. congruence. }
    subst r2.
    assert (Hcalc : sol_value_calculator ld2 = sol_value_calculator ld).
    { rewrite <- (lu_calc _ _ _ _ _ _ _ _ _ L2). apply (lu_calc _ _ _ _ _ _ _ _ _ L'). }
    assert (Hrn : run D E' C' w2 te = process D E' C' w2 (ti_accs te) EndRebalance) by (apply (run_built D E' C' w2 (ti_accs te) EndRebalance eq_refl)).
    rewrite Hrn. unfold te; cbn [ti_accs app]. unfold process; cbn [ix_wfb guard]. unfold process_end_rebalance, resolve_end_rebalance,
      check_pool_key, check_list_key. cbn [mk sg ro wr]. rewrite !Z.eqb_refl. cbn [guard].
    unfold try_pool_state at 1. rewrite Op. cbn [of_option bind]. rewrite (list_ok w2 l4 Ol). cbn [bind].
    unfold try_rebalance_record at 1. rewrite Or. cbn [of_option bind dst_lst_index].
    rewrite (match_on _ _ _ _ (lu_nth _ _ _ _ _ _ _ _ _ L2 l4 Ol) (lu_mint _ _ _ _ _ _ _ _ _ L2)). cbn [bind].
    rewrite (lu_res _ _ _ _ _ _ _ _ _ L2). cbn [bind]. rewrite (lu_mint _ _ _ _ _ _ _ _ _ L2).
    unfold verify_keys_privs. cbn [keys_match mk]. cbn [rebalance_authority set_rebalancing set_total].
    rewrite !Z.eqb_refl. cbn [andb guard]. privs. unfold try_pool_state at 1. rewrite Op. cbn [of_option bind].
    cbn [is_rebalancing set_rebalancing]. cbn [u8bool_is_true u8bool_is_false negb Z.eqb guard].
    rewrite (calc_cpi w2 l4 j ld2 _ _ Ol (lu_nth _ _ _ _ _ _ _ _ _ L2 l4 Ol) (eq_sym Hcalc)). cbn [bind].
    unfold try_rebalance_record, put_pool; cbn [w_rec]. rewrite Or. cbn [of_option bind].
    assert (G2 : good {| w_pool := upd (w_pool w2) POOL_STATE_ID (Some (set_rebalancing (set_rebalancing (set_total ps v) 1) 0));
      w_list := w_list w2; w_auth := w_auth w2; w_rec := w_rec w2; w_tok := w_tok w2; w_mint := w_mint w2;
      w_owner := w_owner w2; w_exec := w_exec w2 |} [r'] [j] []).
    { unfold good; cbn [w_pool w_list w_tok w_mint]. rewrite upd_same. split; [discriminate|]. split; [|split].
      - exists l4. split; [exact Ol|]. intros x [<-|[]]. rewrite (lu_nth _ _ _ _ _ _ _ _ _ L2 l4 Ol). discriminate.
      - intros x [<-|[]]. apply (lu_tok _ _ _ _ _ _ _ _ _ L2).
      - intros ? []. }
    match goal with |- context [sync_sol_value_unchecked ?e ?a ?b ?c ?d ?g ?h ?q] =>
      pose proof (sync_err e a d g h q [r'] [j] [] G2 ltac:(cbn; auto) ltac:(cbn; auto)) as HS;
      pose proof (fun w' => sync_good e a d g h q w' [r'] [j] []) as HG;
      destruct (sync_sol_value_unchecked e a b c d g h q) as [w5|e5] end.
    2:{ cbn [bind]. cbn in HS. unfold end_failures. cbn. intuition auto. }
    cbn [bind]. destruct (HG w5 eq_refl G2) as (Gp & _). unfold pool_field, try_pool_state.
    destruct (w_pool w5 POOL_STATE_ID); [cbn [of_option bind]|congruence].
    destruct (_ <=? _); cbn [guard]; [exact I|]. unfold end_failures; cbn; auto.
Qed.

(** ** Initialize *)
Theorem C34_initialize D w payer lp_mint : w_mint w lp_mint <> None ->
  good_build D w (Ok (client_initialize payer lp_mint)) Initialize [payer; INITIAL_AUTHORITY_ID] [] /\
  (forall m, the_pool w = None -> w_owner w lp_mint = SPL_TOKEN_ID -> w_mint w lp_mint = Some m ->
     m_supply m = 0 -> m_decimals m = 9 -> m_auth m = Some INITIAL_AUTHORITY_ID ->
     m_freeze m = Some INITIAL_AUTHORITY_ID -> succeeds D w (Ok (client_initialize payer lp_mint))).
Proof.
  intros Hm. unfold client_initialize.
  set (metas := [sgw payer; sg INITIAL_AUTHORITY_ID; wr POOL_STATE_ID; wr lp_mint; ro SPL_TOKEN_ID; ro SYSTEM_PROGRAM_ID]).
  assert (Hv : forall E C, process D E C w metas Initialize =
    guard (w_owner w lp_mint =? SPL_TOKEN_ID) (Ctl IncorrectLpMintInitialization) (
    m <- of_option InvalidData (w_mint w lp_mint) ;;
    guard (m_supply m =? 0) (Ctl IncorrectLpMintInitialization) (
    guard (m_decimals m =? 9) (Ctl IncorrectLpMintInitialization) (
    guard (match w_pool w POOL_STATE_ID with None => true | Some _ => false end) SystemErr (
    let w1 := put_pool w POOL_STATE_ID
                (Some (mkPool 0 1000 1000 1 0 0 INITIAL_AUTHORITY_ID INITIAL_AUTHORITY_ID INITIAL_AUTHORITY_ID
                         DEFAULT_PRICING_PROGRAM lp_mint)) in
    w2 <- set_mint_authority w1 SPL_TOKEN_ID lp_mint INITIAL_AUTHORITY_ID true POOL_STATE_ID ;;
    set_freeze_authority w2 SPL_TOKEN_ID lp_mint INITIAL_AUTHORITY_ID true POOL_STATE_ID))))).
  { intros E C. unfold process; cbn [ix_wfb guard]. unfold process_initialize, metas. cbn [mk sg ro wr sgw].
    unfold verify_keys_privs; cbn [keys_match mk]; rewrite ?Z.eqb_refl; cbn [andb guard]; privs. reflexivity. }
  split.
  - eexists. split; [reflexivity|]. split; [reflexivity|]. split; [apply decode_built; reflexivity|]. split.
    + unfold metas. asks.
    + intros E C. rewrite run_built by reflexivity. rewrite Hv. apply acc_guard; [reflexivity|intros _].
      destruct (w_mint w lp_mint) eqn:Em; [cbn [of_option bind]|congruence].
      do 3 (apply acc_guard; [reflexivity|intros _]). cbv zeta.
      apply acc_bind; [unfold set_mint_authority; accr|intros w2 _]. unfold set_freeze_authority; accr.
  - intros m Hp Ho Hmi Hs Hd Ha Hf. eexists. split; [reflexivity|]. intros E C.
    rewrite run_built by reflexivity. rewrite Hv, Ho, Hmi. unfold the_pool in Hp. rewrite Hp. cbn [of_option bind].
    rewrite Hs, Hd. cbn [guard Z.eqb]. rewrite Z.eqb_refl. rewrite Pos.eqb_refl. cbn [guard]. cbv zeta.
    unfold set_mint_authority, is_token_program. rewrite Z.eqb_refl. cbn [orb guard].
    unfold put_pool; cbn [w_mint w_owner]. rewrite Hmi, Ho. cbn [of_option bind]. rewrite Z.eqb_refl. cbn [guard].
    rewrite Ha, Z.eqb_refl. cbn [andb guard bind].
    unfold set_freeze_authority, is_token_program. rewrite Z.eqb_refl. cbn [orb guard].
    unfold put_mint; cbn [w_mint w_owner]. rewrite upd_same, Ho. cbn [of_option bind]. rewrite Z.eqb_refl. cbn [guard m_freeze].
    rewrite Hf, Z.eqb_refl. cbn [andb guard]. eauto.
Qed.

(* ------------------------------------------------------------------ *)
(** ** Cases: the two-LST pool of Concrete.v. The client's view is the state before two swaps and a
    liquidity removal: stale in every recorded value, but still good. *)
Section Cases.
Import Concrete ConcreteReach.

Example fresh_case : fresh W5 W8 /\ the_pool W5 <> the_pool W8 /\ the_list W5 <> the_list W8.
Proof.
  split; [|split; vm_compute; discriminate].
  split; [|split; [|split]].
  - eexists _, _. split; [vm_compute; reflexivity|]. split; vm_compute; reflexivity.
  - eexists _, _. split; [vm_compute; reflexivity|]. split; [vm_compute; reflexivity|].
    split; [vm_compute; reflexivity|]. vm_compute. discriminate.
  - vm_compute. reflexivity.
  - intros m (l & ls & Hl & Hin & <-). vm_compute in Hl. injection Hl as <-.
    destruct Hin as [<-|[<-|[]]]; vm_compute; reflexivity.
Qed.
Example listed_case : listed W8 MA /\ listed W8 MB /\ ~ listed W8 LP.
Proof.
  assert (Hl : exists a b, the_list W8 = Some [a; b] /\ ls_mint a = MA /\ ls_mint b = MB)
    by (eexists _, _; split; [vm_compute; reflexivity|split; vm_compute; reflexivity]).
  destruct Hl as (a & b & Hl & Ha & Hb). split; [|split].
  - exists [a; b], a. cbn; auto.
  - exists [a; b], b. cbn; auto.
  - intros (l & ls & Hl' & Hin & Hm). rewrite Hl in Hl'. injection Hl' as <-.
    destruct Hin as [<-|[<-|[]]]; [rewrite Ha in Hm|rewrite Hb in Hm]; discriminate.
Qed.
(** The accounts the interfaces ask for: the mint(s), then nothing (these calculators need none). *)
Example suffix_case : suffix_ok 1 [Client.ro MA] /\ pricing_accounts_ok [Client.ro MA; Client.ro MB].
Proof. repeat split; cbn; unfold len, U8_MAX; cbn; lia. Qed.

(** The built instructions exist and go through in the later state. *)
Definition goes (b : res TopIx) : bool := match b with Ok t => okb (run D0 E0 C0 W8 t) | Err _ => false end.
Definition pp8 : key := match the_pool W8 with Some ps => pricing_program ps | None => 0 end.
Example builds_case :
  forallb goes
    [client_sync D0 W5 LST_STATE_LIST_ID MB [Client.ro MB];
     client_swap_exact_in D0 W5 USER UA UB MA MB LST_STATE_LIST_ID 1 10001 [Client.ro MA] [Client.ro MB]
       [Client.ro MA; Client.ro MB] pp8;
     client_swap_exact_out D0 W5 USER UA UB MA MB LST_STATE_LIST_ID 9000 3001 [Client.ro MA] [Client.ro MB]
       [Client.ro MA; Client.ro MB] pp8;
     client_add_liquidity D0 W5 USER UA UL POOL_STATE_ID LST_STATE_LIST_ID MA 1000 1 [Client.ro MA] [Client.ro MA];
     client_remove_liquidity D0 W5 USER UB UL POOL_STATE_ID LST_STATE_LIST_ID MB 1000 1 [Client.ro MB] [Client.ro MB];
     client_disable_lst_input W5 POOL_STATE_ID LST_STATE_LIST_ID MB;
     client_set_sol_value_calculator D0 W5 POOL_STATE_ID LST_STATE_LIST_ID MB [Client.ro MB] CA;
     client_set_admin W5 USER POOL_STATE_ID;
     client_set_protocol_fee W5 POOL_STATE_ID (Some 5) None;
     client_set_protocol_fee_beneficiary W5 USER POOL_STATE_ID;
     client_set_pricing_program W5 CA POOL_STATE_ID;
     client_withdraw_protocol_fees D0 W5 POOL_STATE_ID BF 5;
     client_add_disable_pool_authority W5 PAYER USER POOL_STATE_ID;
     Ok (client_disable_pool ADMIN);
     client_set_rebalance_authority W5 USER POOL_STATE_ID false] = true.
Proof. vm_compute. reflexivity. Qed.

(** Starting and ending a rebalance with the two built instructions. *)
Definition built_start : res TopIx := client_start_rebalance D0 W5 UA LST_STATE_LIST_ID POOL_STATE_ID MA MB 10000 0
  U64_MAX [Client.ro MA] [Client.ro MB].
Definition built_end : res TopIx := s <- built_start ;; client_end_rebalance s.
Definition pair_ctx : Ctx := match built_start, built_end with Ok s, Ok e => mkCtx [s; e] 0 | _, _ => C0 end.
Definition started : res World := s <- built_start ;; run D0 E0 pair_ctx W8 s.
(** in between, the user pays 10000 units of MB into the reserves *)
Definition repaid : res World := w <- started ;; transfer_checked w SPL_TOKEN_2022_ID UB RB MB USER true 10000.
Definition ended : res World := e <- built_end ;; w <- repaid ;; run D0 E0 pair_ctx w e.
Example rebalance_pair_case :
  okb started = true /\ okb ended = true /\
  (forall s, built_start = Ok s -> pdas_do_not_signb (ti_accs s) = true).
Proof.
  split; [vm_compute; reflexivity|]. split; [vm_compute; reflexivity|].
  intros s Hs. vm_compute in Hs. injection Hs as <-. vm_compute. reflexivity.
Qed.
Example initialize_case : match run D0 E0 C0 W0 (client_initialize PAYER LP) with Ok _ => True | Err _ => False end.
Proof. vm_compute. exact I. Qed.
Example add_lst_case : match (b <- client_add_lst D0 W1 PAYER CA POOL_STATE_ID MA ;; run D0 E0 C0 W1 b) with
  Ok _ => True | Err _ => False end.
Proof. vm_compute. exact I. Qed.
Example enable_pool_case : match (b <- client_enable_pool W13 POOL_STATE_ID ;; run D0 E0 C0 W13 b) with
  Ok _ => True | Err _ => False end.
Proof. vm_compute. exact I. Qed.
End Cases.
