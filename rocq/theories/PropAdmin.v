(** C48: every administrative instruction is accepted exactly when the rules of AdminSpec say so, and then
    changes exactly what they say. *)
From Coq Require Import ZArith List Bool Lia.
From Verif Require Import Base Ratio Calc State Controller Inversion ProcInv Spec CalcProofs InvProofs
  TokProofs AccessProofs ShapeProofs MoneyProofs Concrete ConcreteReach PropState PropAccess PropSync AdminSpec.
Import ListNotations.
Open Scope Z_scope.

(* ------------------------------------------------------------------ *)
(** * Lists by position *)
Lemma nth_split_at {A} (l : list A) i x : 0 <= i -> nth_error l (Z.to_nat i) = Some x ->
  exists before after, l = before ++ x :: after /\ Z.of_nat (length before) = i.
Proof.
  intros Hi H. destruct (nth_error_split l (Z.to_nat i) H) as (a & b & -> & L). exists a, b. split; auto. lia.
Qed.
Lemma nth_here {A} (a b : list A) x : nth_error (a ++ x :: b) (length a) = Some x.
Proof. rewrite nth_error_app2 by lia. rewrite Nat.sub_diag. reflexivity. Qed.
Lemma replace_here {A} (a b : list A) x y : replace_nth (a ++ x :: b) (length a) y = a ++ y :: b.
Proof. induction a; cbn; [reflexivity|]. now rewrite IHa. Qed.
Lemma remove_here {A} (a b : list A) x : remove_nth (a ++ x :: b) (length a) = a ++ b.
Proof. induction a; cbn; [reflexivity|]. now rewrite IHa. Qed.

(* ------------------------------------------------------------------ *)
(** * Tactics *)
Ltac keep := repeat match goal with
  | H : true = true -> ?P |- _ => specialize (H eq_refl)
  | H : false = true -> _ |- _ => clear H
  | H : meets _ _ |- _ => unfold meets, reads, writes, signs, pays in H;
      cbn [ask_key ask_signs ask_writes] in H; destruct H as (? & ? & ?)
  end.
Ltac take := match goal with H : passes _ _ _ |- _ => destruct H as (? & -> & H) end;
  repeat match goal with
  | H : Forall2 meets _ (_ :: _) |- _ => inversion H; clear H; subst
  | H : Forall2 meets _ [] |- _ => inversion H; clear H; subst
  end; keep; cbn [app].
Ltac hand := unfold passes;
  match goal with |- exists used, ?accs = used ++ ?more /\ _ =>
    let rec pre l := match l with ?a :: ?t => let r := pre t in constr:(a :: r) | _ => constr:(@nil Meta) end in
    let u := pre accs in exists u end;
  split; [cbn [app]; reflexivity|];
  repeat (apply Forall2_cons || apply Forall2_nil);
  (split; [cbn; congruence|split; cbn; intros; congruence]).
Ltac drive := repeat match goal with
  | H : mk ?a = _ |- context [mk ?a] => rewrite H
  | H : is_signer ?a = true |- context [is_signer ?a] => rewrite H
  | H : is_writable ?a = true |- context [is_writable ?a] => rewrite H
  | H : w_pool ?w ?k = Some _ |- context [w_pool ?w ?k] => rewrite H
  | H : w_list ?w ?k = Some _ |- context [w_list ?w ?k] => rewrite H
  | H : w_auth ?w ?k = Some _ |- context [w_auth ?w ?k] => rewrite H
  | H : w_exec ?w ?k = true |- context [w_exec ?w ?k] => rewrite H
  | |- context [?x =? ?x] => rewrite Z.eqb_refl
  | |- context [Z.to_nat (Z.of_nat _)] => rewrite Nat2Z.id
  | |- context [nth_error (?a ++ _ :: _) (length ?a)] => rewrite nth_here
  | |- context [replace_nth (?a ++ _ :: _) (length ?a)] => rewrite replace_here
  | |- context [remove_nth (?a ++ _ :: _) (length ?a)] => rewrite remove_here
  | |- _ => progress unfold verify_keys_privs, privileges_ok, check_pool_key, check_list_key, try_pool_state,
      try_lst_state_list, try_disable_pool_authority_list, verify_is_program, nth_lst, token_account_balance,
      token_account_mint, mint_supply
  | |- _ => progress cbn [keys_match forallb andb orb negb guard bind of_option cpi_prog cpi_accs]
  end.
Ltac start := unfold process; match goal with H : ix_wfb _ = true |- _ => rewrite H end; cbn [guard].
Ltac on_ ps := match goal with H : running ps |- _ =>
  rewrite (proj2 (verify_active ps) H); cbn [bind guard] end.
Ltac setmap := intros; unfold over, upd; cbn [find fst snd];
  repeat match goal with |- context [?a =? ?b] => destruct (Z.eqb_spec a b); subst end; try congruence; try reflexivity.
Ltac app1 := constructor; unfold the_pool, the_list, the_authorities, over; cbn;
  rewrite ?upd_same; auto; try (intros k Hk; now apply upd_other).

Lemma ix_index i ix : ix_wfb ix = true ->
  ix = DisableLstInput i \/ ix = EnableLstInput i \/ ix = RemoveLst i \/ ix = SetSolValueCalculator i \/
  ix = RemoveDisablePoolAuthority i -> 0 <= i.
Proof.
  intros H D. destruct D as [->|[->|[->|[->| ->]]]]; cbn in H; unfold u32b in H;
  apply andb_true_iff in H as (H & _); now apply Z.leb_le in H.
Qed.

Lemma token_prog_cases p : is_token_program p = true <-> p = SPL_TOKEN_ID \/ p = SPL_TOKEN_2022_ID.
Proof. unfold is_token_program. rewrite orb_true_iff, !Z.eqb_eq. reflexivity. Qed.
Lemma not_existsb l k : ~ In k l -> existsb (fun x => x =? k) l = false.
Proof.
  intros H. apply Bool.not_true_iff_false. intros X. apply existsb_exists in X as (x & Hx & E).
  apply Z.eqb_eq in E. subst. auto.
Qed.
Lemma not_listed l m : ~ In m (map ls_mint l) -> existsb (fun ls => ls_mint ls =? m) l = false.
Proof.
  intros H. apply Bool.not_true_iff_false. intros X. apply existsb_exists in X as (x & Hx & E).
  apply Z.eqb_eq in E. subst. apply H, in_map, Hx.
Qed.

Lemma admin_or_auth_ok w who ps k au : w_auth w k = Some au -> who = admin ps \/ In who au ->
  verify_admin_or_disable_pool_authority w who ps k = Ok tt.
Proof.
  intros Ha H. unfold verify_admin_or_disable_pool_authority. destruct (Z.eqb_spec who (admin ps)); [reflexivity|].
  destruct H as [?|H]; [congruence|]. unfold try_disable_pool_authority_list. rewrite Ha. cbn [of_option bind].
  rewrite (proj2 (find_key_spec who au) H). reflexivity.
Qed.

Section WithDerive.
Variable D : Derive.
Hypothesis HD : derive_ok D.
Variable E : Env.
Variable C : Ctx.
Variable w : World.
Hypothesis HR : reachable D w.

(* ------------------------------------------------------------------ *)
(** * What is permitted succeeds *)
Lemma may_run ix accs asked more ch : ix_wfb ix = true ->
  admin_rule D E w ix asked more ch -> passes accs asked more ->
  exists w', process D E C w accs ix = Ok w' /\ applied w ch w'.
Proof.
  intros Hwf R HP. destruct R; unfold the_pool, the_list, the_authorities in *; take; start.
  - eexists. split; [unfold process_set_admin; drive; reflexivity|]. app1.
  - eexists. split.
    { unfold process_set_protocol_fee. drive. on_ ps.
      assert (fee_ok l = true) as ->. { destruct l; cbn; auto. apply Z.leb_le. auto. }
      assert (fee_ok t = true) as ->. { destruct t; cbn; auto. apply Z.leb_le. auto. }
      cbn [andb guard]. reflexivity. }
    destruct t, l; app1. destruct ps; reflexivity.
  - eexists. split; [unfold process_set_protocol_fee_beneficiary; drive; on_ ps; reflexivity|]. app1.
  - eexists. split; [unfold process_set_pricing_program; drive; on_ ps; reflexivity|]. app1.
  - eexists. split.
    { unfold process_set_rebalance_authority. drive. on_ ps.
      assert ((who =? admin ps) || (who =? rebalance_authority ps) = true) as ->.
      { rewrite orb_true_iff, !Z.eqb_eq. auto. }
      cbn [guard]. reflexivity. }
    app1.
  - eexists. split.
    { unfold process_add_disable_pool_authority. drive.
      rewrite not_existsb by assumption. cbn [negb guard]. reflexivity. }
    app1.
  - eexists. split.
    { unfold process_remove_disable_pool_authority, resolve_remove_disable_pool_authority. drive.
      assert (verify_admin_or_disable_pool_authority w who ps DISABLE_POOL_AUTHORITY_LIST_ID = Ok tt) as ->.
      { eapply admin_or_auth_ok; [eassumption|]. destruct H2 as [->| ->]; [left; reflexivity|right].
        apply in_or_app. right. left. reflexivity. }
      cbn [bind].
      assert ((who =? admin ps) || (who =? it) = true) as ->.
      { rewrite orb_true_iff, !Z.eqb_eq. auto. }
      cbn [guard]. drive. reflexivity. }
    app1.
  - eexists. split.
    { unfold process_disable_pool. drive. on_ ps.
      assert (verify_admin_or_disable_pool_authority w who ps DISABLE_POOL_AUTHORITY_LIST_ID = Ok tt) as ->.
      { eapply admin_or_auth_ok; eassumption. }
      cbn [bind]. reflexivity. }
    app1.
  - eexists. split.
    { unfold process_enable_pool. drive. unfold u8bool_is_false.
      rewrite (proj2 (Z.eqb_neq _ _)) by assumption. cbn [negb guard]. reflexivity. }
    app1.
  - eexists. split.
    { unfold process_set_lst_input, resolve_disable_enable_lst_input. drive.
      on_ ps.
      drive. reflexivity. }
    app1.
  - eexists. split.
    { unfold process_set_lst_input, resolve_disable_enable_lst_input. drive.
      on_ ps.
      drive. reflexivity. }
    app1.
  - (* AddLst *)
    destruct (reachable_ata D HD w HR) as (Ha & _ & _).
    unfold reserves_key, accumulator_key in *.
    destruct (d_find D POOL_STATE_ID (w_owner w m) m) as [r br] eqn:Fr.
    destruct (d_find D PROTOCOL_FEE_ID (w_owner w m) m) as [f bf] eqn:Ff. cbn [fst snd] in *.
    pose proof (find_create D HD _ _ _ _ _ Fr) as Cr. pose proof (find_create D HD _ _ _ _ _ Ff) as Cf.
    destruct (Ha _ _ _ _ _ (or_introl eq_refl) Cr) as (Mr & Tr).
    destruct (Ha _ _ _ _ _ (or_intror eq_refl) Cf) as (Mf & Tf).
    assert (Hrf : r <> f).
    { intros ->. destruct HD as (_ & HD2 & _). destruct (HD2 _ _ _ _ _ _ _ _ _ Cr Cf) as (X & _). discriminate X. }
    assert (Hrm : m <> r) by congruence. assert (Hfm : m <> f) by congruence.
    apply token_prog_cases in H3.
    unfold process_add_lst, resolve_add_lst, find_pool_reserves_address, find_protocol_fee_accumulator_address,
      verify_tokenkeg_or_22_mint.
    drive. rewrite ?Fr, ?Ff. drive. rewrite H3. cbn [guard]. drive. rewrite H4. cbn [of_option bind]. drive.
    rewrite not_listed by assumption. cbn [negb guard]. on_ ps.
    unfold create_ata_if_not_exist, create_ata_account, created, created_owner. rewrite H3, H4.
    destruct (w_tok w r) as [tr|] eqn:Hr.
    + destruct (Tr _ eq_refl) as (_ & -> & _). rewrite Z.eqb_refl. cbn [guard bind].
      destruct (w_tok w f) as [tf|] eqn:Hf.
      * destruct (Tf _ eq_refl) as (_ & -> & _). rewrite Z.eqb_refl. cbn [guard bind]. drive.
        eexists. split; [reflexivity|]. app1.
      * rewrite ?H3, ?H4. cbn [guard bind]. drive. cbn [w_list put_owner put_tok]. drive.
        eexists. split; [reflexivity|]. app1; intros k; unfold upd; rewrite (Z.eqb_sym k f); destruct (f =? k); reflexivity.
    + cbn [guard bind]. drive. cbn [w_tok w_mint w_owner put_owner put_tok]. rewrite !upd_other by congruence.
      rewrite ?H4. destruct (w_tok w f) as [tf|] eqn:Hf.
      * destruct (Tf _ eq_refl) as (_ & -> & _). rewrite Z.eqb_refl. cbn [guard bind w_list put_owner put_tok]. drive.
        eexists. split; [reflexivity|]. app1; intros k; unfold upd; rewrite (Z.eqb_sym k r); destruct (r =? k); reflexivity.
      * rewrite ?H3. cbn [guard]. rewrite ?upd_other by congruence. drive. cbn [w_list put_owner put_tok]. drive.
        eexists. split; [reflexivity|].
        app1; intros k; unfold upd; rewrite (Z.eqb_sym k r), (Z.eqb_sym k f);
          destruct (Z.eqb_spec r k), (Z.eqb_spec f k); try reflexivity; congruence.
  - (* RemoveLst *)
    destruct (C39_listed_accounts_exist D w _ ls HD HR H1 (nth_error_In _ _ (nth_here before after ls)))
      as (Tp & Mm & r & f & tr & tf & Fr & Cr & Ff & Cf & Hr & _ & Or & Pr & Hf & _ & Of & Pf & Hrf).
    unfold reserves_key, accumulator_key, balance in *. rewrite Fr, Ff in *. cbn [fst] in *.
    rewrite Hr in H4. rewrite Hf in H5.
    unfold process_remove_lst, resolve_remove_lst, try_match_lst_mint_on_list, create_pool_reserves_address,
      create_protocol_fee_accumulator_address.
    drive. rewrite Cr, Cf. drive. on_ ps. drive.
    rewrite Hr, Hf. cbn [of_option bind]. rewrite H3, H4, H5. cbn [Z.eqb andb guard].
    unfold close_token_account at 1. rewrite Tp, Hf. cbn [guard of_option bind]. rewrite Pf, Of, H5. drive.
    unfold close_token_account. rewrite Tp. cbn [guard w_tok w_owner put_owner put_tok]. rewrite upd_other by congruence.
    rewrite Hr. cbn [of_option bind]. rewrite upd_other by congruence. rewrite Pr, Or, H4. drive.
    cbn [w_list put_owner put_tok]. drive.
    eexists. split; [reflexivity|].
    app1; intros k; unfold upd; rewrite (Z.eqb_sym k r), (Z.eqb_sym k f);
          destruct (Z.eqb_spec r k), (Z.eqb_spec f k); try reflexivity; congruence.
  - (* SetSolValueCalculator *)
    destruct (C39_listed_accounts_exist D w _ ls HD HR H1 (nth_error_In _ _ (nth_here before after ls)))
      as (Tp & Mm & r & f & tr & tf & Fr & Cr & Ff & Cf & Hr & _ & Or & Pr & Hf & _ & Of & Pf & Hrf).
    pose proof (entry_le_total D HD w ps _ _ ls HR H H1 (nth_here before after ls)) as Hle.
    unfold reserves_key, balance in *. rewrite Fr in *. cbn [fst] in *. rewrite Hr in H4.
    unfold process_set_sol_value_calculator, resolve_set_sol_value_calculator, try_match_lst_mint_on_list,
      create_pool_reserves_address, cpi_from_suffix.
    drive. rewrite Cr. drive. on_ ps. drive.
    unfold set_calculator.
    unfold sync_sol_value_unchecked, token_account_balance. cbn [w_tok put_list]. rewrite Hr. cbn [of_option bind].
    unfold invoke_lst_to_sol. cbn [cpi_prog cpi_accs]. rewrite ?H13, ?H16.
    eexists. split.
    { drive. rewrite (proj2 (decode_range_ok _ v hi) (conj H4 (conj H5 H6))). cbn [bind]. unfold try_pool_state, try_lst_state_list.
      cbn [w_pool w_list put_list]. drive. rewrite upd_same. cbn [of_option bind]. drive.
      unfold sync_sol_value_with_retval, checked_sub, checked_add. cbn [sol_value].
      rewrite (proj2 (Z.leb_le _ _)) by lia. cbn [bind]. rewrite (proj2 (Z.leb_le _ _)) by lia. cbn [bind].
      drive. reflexivity. }
    app1. intros k Hk. rewrite !upd_other by assumption. reflexivity.
  - (* Withdraw *)
    destruct (reachable_ata D HD w HR) as (Ha & _ & _). unfold accumulator_key in *. rewrite H2 in *.
    destruct (d_find D PROTOCOL_FEE_ID (w_owner w to) (ta_mint t)) as [f bf] eqn:Ff. cbn [fst] in *.
    pose proof (find_create D HD _ _ _ _ _ Ff) as Cf. destruct (Ha _ _ _ _ _ (or_intror eq_refl) Cf) as (Mf & Tf).
    destruct (Tf _ H6) as (T1 & T2 & T3). apply token_prog_cases in H3.
    unfold process_withdraw_protocol_fees, resolve_withdraw_protocol_fees, find_protocol_fee_accumulator_address.
    drive. rewrite H1. cbn [of_option bind]. rewrite Ff. drive. on_ ps. rewrite H6. cbn [of_option bind].
    rewrite (proj2 (Z.leb_le _ _)) by assumption. cbn [guard].
    unfold transfer_checked. rewrite H3, H6, H1, H4. cbn [guard of_option bind]. rewrite T3, H2, T1, T2. drive.
    rewrite (proj2 (Z.leb_le _ _)) by assumption. cbn [guard].
    destruct (Z.eqb_spec f to) as [->|Hne].
    + eexists. split; [reflexivity|]. app1.
    + destruct H8 as [?|H8]; [congruence|]. rewrite (proj2 (Z.leb_le _ _)) by assumption. cbn [guard].
      eexists. split; [reflexivity|].
      app1; intros k; unfold upd; rewrite (Z.eqb_sym k to), (Z.eqb_sym k f);
          destruct (Z.eqb_spec f k), (Z.eqb_spec to k); try reflexivity; congruence.
  - (* Initialize *)
    unfold process_initialize. drive. rewrite H0. drive. rewrite H1. cbn [of_option bind]. rewrite H2, H3, H.
    cbn [Z.eqb Pos.eqb guard].
    unfold set_mint_authority. cbn [w_mint w_owner put_pool]. rewrite H0, H1. cbn [of_option bind guard]. drive. rewrite H4. drive.
    change (is_token_program SPL_TOKEN_ID) with true. cbn [guard bind].
    unfold set_freeze_authority. change (is_token_program SPL_TOKEN_ID) with true. cbn [w_mint w_owner put_pool put_mint]. rewrite upd_same. cbn [of_option bind guard]. rewrite H0. drive.
    cbn [m_freeze m_supply m_decimals m_auth]. rewrite H5. drive.
    eexists. split; [rewrite H2, H3; reflexivity|].
    app1; intros k; unfold upd; rewrite (Z.eqb_sym k lp); destruct (Z.eqb_spec lp k); reflexivity.
Qed.

(* ------------------------------------------------------------------ *)
(** * What succeeds was permitted *)
Ltac fields := repeat match goal with
  | H : Forall _ [] |- _ => clear H
  | H : _ && _ = true |- _ => apply andb_true_iff in H; destruct H
  end.
Lemma fee_ok_le o : fee_ok o = true -> forall x, o = Some x -> x <= 10000.
Proof. intros H x ->. cbn in H. now apply Z.leb_le in H. Qed.

Lemma run_may ix accs w' : is_admin_ix ix = true -> process D E C w accs ix = Ok w' ->
  exists asked more ch, admin_rule D E w ix asked more ch /\ passes accs asked more.
Proof.
  intros Ha H. unfold process in H. apply guard_ok in H as (Hwf & H).
  destruct (reachable_inv D HD w HR) as ((_ & au & _ & Hau & _) & _).
  destruct ix; try discriminate Ha; clear Ha.
  - (* DisableLstInput *)
    pose proof (ix_index _ _ Hwf ltac:(auto)) as Hi.
    unfold process_set_lst_input in H. do 4 split_accs H. unfold resolve_disable_enable_lst_input in H. go.
    match goal with N : nth_lst _ _ = Some _ |- _ => apply nth_split_at in N as (b & a & -> & Hb); [|exact Hi] end.
    do 3 eexists. split; [eapply may_disable_input; eauto|]. hand.
  - pose proof (ix_index _ _ Hwf ltac:(auto)) as Hi.
    unfold process_set_lst_input in H. do 4 split_accs H. unfold resolve_disable_enable_lst_input in H. go.
    match goal with N : nth_lst _ _ = Some _ |- _ => apply nth_split_at in N as (b & a & -> & Hb); [|exact Hi] end.
    do 3 eexists. split; [eapply may_enable_input; eauto|]. hand.
  - (* AddLst *)
    assert (Hw : exists rest, skipn 12 accs = rest) by eauto.
    unfold process_add_lst in H. do 12 split_accs H.
    unfold resolve_add_lst, find_pool_reserves_address, find_protocol_fee_accumulator_address in H.
    destruct (d_find D POOL_STATE_ID (w_owner w (mk acc1)) (mk acc1)) as [pr prb] eqn:E1.
    destruct (d_find D PROTOCOL_FEE_ID (w_owner w (mk acc1)) (mk acc1)) as [pf pfb] eqn:E2.
    unfold verify_tokenkeg_or_22_mint in *. go.
    do 3 eexists. split.
    { eapply (may_add_lst D E w _ _ (mk acc1) (mk acc5) (mk acc0)); eauto.
      - intros Hin. apply in_map_iff in Hin as (x & Hx1 & Hx2).
        match goal with N : negb (existsb _ ?l) = true |- _ =>
          assert (existsb (fun ls => ls_mint ls =? mk acc1) l = true) as Hc;
          [apply existsb_exists; exists x; split; auto; now apply Z.eqb_eq|rewrite Hc in N; discriminate N] end.
      - apply token_prog_cases. assumption. }
    unfold reserves_key, accumulator_key. rewrite E1, E2. cbn [fst]. hand.
  - (* RemoveLst *)
    pose proof (ix_index _ _ Hwf ltac:(auto)) as Hi.
    unfold process_remove_lst in H. do 9 split_accs H. unfold resolve_remove_lst in H. go.
    match goal with N : nth_lst _ _ = Some _ |- _ => apply nth_split_at in N as (b & a & -> & Hb); [|exact Hi] end.
    match goal with N : w_list w LST_STATE_LIST_ID = Some (_ ++ ?x :: _), M : ls_mint ?x = _ |- _ =>
      destruct (C39_listed_accounts_exist D w _ x HD HR N (nth_error_In _ _ (nth_here _ _ x)))
      as (_ & _ & r & f & tr & tf & Fr & Cr & Ff & Cf & Hr & _ & _ & _ & Hf & _);
      rewrite M in * end.
    assert (r = mk acc2) by congruence. assert (f = mk acc3) by congruence. subst r f. dedup.
    do 3 eexists. split.
    { eapply (may_remove_lst D E w _ _ _ _ _ (mk acc0)); eauto.
      - unfold balance, reserves_key. match goal with M : ls_mint _ = mk acc1 |- _ => rewrite M end.
        rewrite Fr. cbn [fst]. match goal with T : w_tok w (mk acc2) = Some _ |- _ => rewrite T end. assumption.
      - unfold balance, accumulator_key. match goal with M : ls_mint _ = mk acc1 |- _ => rewrite M end.
        rewrite Ff. cbn [fst]. match goal with T : w_tok w (mk acc3) = Some _ |- _ => rewrite T end. assumption. }
    unfold reserves_key, accumulator_key. match goal with M : ls_mint _ = mk acc1 |- _ => rewrite M end. rewrite Fr, Ff. cbn [fst]. hand.
  - (* SetSolValueCalculator *)
    pose proof (ix_index _ _ Hwf ltac:(auto)) as Hi.
    unfold process_set_sol_value_calculator in H. do 5 split_accs H.
    unfold resolve_set_sol_value_calculator, cpi_from_suffix in H.
    destruct rest as [|p rest]; go. cbn [cpi_prog cpi_accs] in *.
    match goal with N : nth_lst _ _ = Some _ |- _ => pose proof N as N0; apply nth_split_at in N as (b & a & -> & Hb); [|exact Hi] end.
    match goal with N : w_list w LST_STATE_LIST_ID = Some (_ ++ ?x :: _), M : ls_mint ?x = _ |- _ =>
      destruct (C39_listed_accounts_exist D w _ x HD HR N (nth_error_In _ _ (nth_here _ _ x)))
      as (_ & _ & r & f & tr & tf & Fr & Cr & _ & _ & Hr & _); rename x into ls; rename M into Hm end.
    rewrite <- Hm in *. assert (r = mk acc2) by congruence. subst r.
    apply sync_inv in H. destruct H as (tk & ps0 & l1 & ls0 & lo & hi & Tk & An & U1 & U2 & P0 & L0 & N1 & Hle & Hmax & _).
    cbn [w_tok w_pool w_list put_list cpi_prog cpi_accs] in *. rewrite upd_same in L0. injection L0 as <-.
    assert (ls0 = set_calculator ls (mk p)).
    { unfold nth_lst in *. rewrite (nth_error_replace_same _ _ _ ls N0) in N1. congruence. }
    subst ls0. dedup. try subst lst_index. rewrite Nat2Z.id, replace_here in An. unfold set_calculator in *. cbn [sol_value] in *.
    do 3 eexists. split.
    { eapply (may_set_calculator D E w _ _ b ls a (mk p) lo hi rest); eauto.
      unfold balance, reserves_key. rewrite Fr. cbn [fst]. rewrite Tk. exact An. }
    unfold reserves_key. rewrite Fr. cbn [fst]. hand.
  - unfold process_set_admin in H. do 3 split_accs H. go.
    do 3 eexists. split; [eapply (may_set_admin D E w _ (mk acc0)); eauto|]. hand.
  - unfold process_set_protocol_fee in H. do 2 split_accs H. go.
    do 3 eexists. split; [eapply may_set_fee; eauto using fee_ok_le|]. hand.
  - unfold process_set_protocol_fee_beneficiary in H. do 3 split_accs H. go.
    do 3 eexists. split; [eapply (may_set_beneficiary D E w _ (mk acc0)); eauto|]. hand.
  - unfold process_set_pricing_program in H. do 3 split_accs H. go.
    do 3 eexists. split; [eapply (may_set_pricing D E w _ (mk acc0)); eauto|]. hand.
  - (* Withdraw *)
    unfold process_withdraw_protocol_fees in H. do 7 split_accs H.
    unfold resolve_withdraw_protocol_fees, find_protocol_fee_accumulator_address in H.
    unf. apply bind_ok in H as (exp & He & H).
    apply guard_ok in He as (_ & He). apply bind_ok in He as (tm & Ht & He).
    destruct (d_find D PROTOCOL_FEE_ID (w_owner w (mk acc0)) tm) as [pf pfb] eqn:E2.
    go.
    match goal with T : transfer_checked _ _ _ _ _ _ _ _ = Ok _ |- _ =>
      apply transfer_inv in T; destruct T as (f & t & m & T1 & T2 & T3 & T4 & T5 & T6 & T7 & T8 & T9 & T10 & _ & T11 & T12) end.
    dedup.
    do 3 eexists. split.
    { eapply (may_withdraw D E w _ (mk acc0) t (mk acc1) f m); eauto.
      - congruence.
      - apply token_prog_cases. congruence.
      - congruence.
      - unfold accumulator_key. rewrite T9 in *. rewrite T6 in E2. rewrite T7, E2. reflexivity.
      - destruct T12 as [(? & _)|(_ & ? & _)]; auto. }
    hand.
  - clear au Hau. unfold process_add_disable_pool_authority in H. do 6 split_accs H. go.
    do 3 eexists. split; [eapply (may_add_authority D E w _ (mk acc) (mk acc2)); eauto|hand].
    intros Hin. match goal with N : negb (existsb _ ?l) = true |- _ =>
          assert (existsb (fun k => k =? mk acc2) l = true) as Hc;
          [apply existsb_exists; exists (mk acc2); split; auto; now apply Z.eqb_eq|rewrite Hc in N; discriminate N] end.
  - pose proof (ix_index _ _ Hwf ltac:(auto 6)) as Hi.
    unfold process_remove_disable_pool_authority in H. do 5 split_accs H.
    unfold resolve_remove_disable_pool_authority in H. go.
    match goal with H : (_ || _) = true |- _ => apply orb_true_iff in H; rewrite !Z.eqb_eq in H; rename H into Hw end.
    match goal with N : nth_error _ _ = Some _ |- _ => apply nth_split_at in N as (b & a & -> & Hb); [|exact Hi] end.
    do 3 eexists. split; [eapply (may_remove_authority D E w _ _ (mk acc) (mk acc0) (mk acc1)); eauto|hand].
  - unfold process_disable_pool in H. do 3 split_accs H. go.
    do 3 eexists. split; [eapply (may_disable D E w _ (mk acc)); eauto|hand].
    destruct Hv1 as [?|(l & Hl & ?)]; auto. right. unfold the_authorities in Hau. assert (l = au) by congruence. subst. auto.
  - unfold process_enable_pool in H. do 2 split_accs H. unfold u8bool_is_false in *. go.
    do 3 eexists. split; [eapply may_enable; eauto|hand].
  - unfold process_set_rebalance_authority in H. do 3 split_accs H. go.
    match goal with H : (_ || _) = true |- _ => apply orb_true_iff in H; rewrite !Z.eqb_eq in H end.
    do 3 eexists. split; [eapply (may_set_rebalance_authority D E w _ (mk acc) (mk acc0)); eauto|hand].
  - unfold process_initialize in H. pose proof H as H1. apply initialize_inv in H1.
    do 6 split_accs H. go. 
    destruct H1 as (? & ? & ? & ? & ? & ? & ? & m & Hacc & I1 & I2 & I3 & I4 & I5 & I6 & I7 & I8 & I9 & I10 & I11 & I12 & I13 & I14 & _).
    injection Hacc as <- <- <- <- <- <- <-. dedup.
    do 3 eexists. split; [eapply (may_initialize D E w (mk acc) (mk acc2)); eauto|hand].
Qed.

(* ------------------------------------------------------------------ *)
(** * C48 *)

(** What the rules permit succeeds, and changes exactly what they say. *)
Theorem C48_permitted ix accs asked more ch : ix_wfb ix = true ->
  admin_rule D E w ix asked more ch -> passes accs asked more ->
  exists w', process D E C w accs ix = Ok w' /\ applied w ch w'.
Proof. exact (may_run ix accs asked more ch). Qed.

(** What succeeds is permitted by one of the rules, and changed exactly what it says. *)
Theorem C48_only_permitted ix accs w' : is_admin_ix ix = true -> process D E C w accs ix = Ok w' ->
  exists asked more ch, admin_rule D E w ix asked more ch /\ passes accs asked more /\ applied w ch w'.
Proof.
  intros Ha H. destruct (run_may ix accs w' Ha H) as (asked & more & ch & R & P).
  exists asked, more, ch. split; auto. split; auto.
  assert (Hwf : ix_wfb ix = true). { unfold process in H. apply guard_ok in H. tauto. }
  destruct (may_run ix accs asked more ch Hwf R P) as (w2 & H2 & A). congruence.
Qed.

Theorem C48_accepted ix accs : is_admin_ix ix = true -> ix_wfb ix = true ->
  ((exists w', process D E C w accs ix = Ok w') <->
   (exists asked more ch, admin_rule D E w ix asked more ch /\ passes accs asked more)).
Proof.
  intros Ha Hwf. split.
  - intros (w' & H). eapply run_may; eauto.
  - intros (asked & more & ch & R & P). destruct (may_run _ _ _ _ _ Hwf R P) as (w' & H & _). eauto.
Qed.

(** The rules leave no choice: two readings of the same call change the same things. *)
Corollary C48_one_effect ix accs a1 m1 c1 a2 m2 c2 w1 w2 : ix_wfb ix = true ->
  admin_rule D E w ix a1 m1 c1 -> passes accs a1 m1 -> applied w c1 w1 ->
  admin_rule D E w ix a2 m2 c2 -> passes accs a2 m2 -> applied w c2 w2 ->
  the_pool w1 = the_pool w2 /\ the_list w1 = the_list w2 /\ the_authorities w1 = the_authorities w2 /\
  (forall k, w_tok w1 k = w_tok w2 k /\ w_mint w1 k = w_mint w2 k /\ w_owner w1 k = w_owner w2 k).
Proof.
  intros Hwf R1 P1 A1 R2 P2 A2.
  destruct (may_run _ _ _ _ _ Hwf R1 P1) as (v1 & H1 & B1). destruct (may_run _ _ _ _ _ Hwf R2 P2) as (v2 & H2 & B2).
  assert (v2 = v1) by congruence. subst v2. destruct B1 as [X1 X2 X3 _ _ _ X4 X5 X6 _ _], B2 as [Y1 Y2 Y3 _ _ _ Y4 Y5 Y6 _ _],
    A1 as [Z1 Z2 Z3 _ _ _ Z4 Z5 Z6 _ _], A2 as [T1 T2 T3 _ _ _ T4 T5 T6 _ _].
  split; [congruence|]. split; [congruence|]. split; [congruence|].
  intros k. rewrite Z4, T4, Z5, T5, Z6, T6, <- X4, <- Y4, <- X5, <- Y5, <- X6, <- Y6. auto.
Qed.
End WithDerive.

(** The admin is never locked out. Whatever happened before, once there is a pool the holder of the admin key
    can hand it to anybody; can put anybody on, and take anybody off, the list of disable-pool authorities;
    can disable a pool that is not in the middle of a rebalance; and can re-enable a disabled pool, which then
    is open again for everything — a disabled pool is never in the middle of a rebalance. *)
Theorem C48_admin_never_locked_out D (HD : derive_ok D) E C w ps au : reachable D w ->
  the_pool w = Some ps -> the_authorities w = Some au ->
  let A := mkMeta (admin ps) true false in
  let P := mkMeta POOL_STATE_ID false true in
  let L := mkMeta DISABLE_POOL_AUTHORITY_LIST_ID false true in
  (forall new, exists w' ps', process D E C w [A; mkMeta new false false; P] SetAdmin = Ok w' /\
     the_pool w' = Some ps' /\ admin ps' = new) /\
  (forall payer new, ~ In new au -> exists w',
     process D E C w [mkMeta payer true true; A; mkMeta POOL_STATE_ID false false; mkMeta new false false; L;
                      mkMeta SYSTEM_PROGRAM_ID false false] AddDisablePoolAuthority = Ok w' /\
     the_authorities w' = Some (au ++ [new])) /\
  (forall refund i who, nth_error au i = Some who -> Z.of_nat i <= U32_MAX -> exists w' au',
     process D E C w [mkMeta refund false true; A; mkMeta who false false; mkMeta POOL_STATE_ID false false; L]
       (RemoveDisablePoolAuthority (Z.of_nat i)) = Ok w' /\
     the_authorities w' = Some au' /\ ~ In who au' /\ (forall k, k <> who -> In k au -> In k au')) /\
  (is_rebalancing ps = 0 -> is_disabled ps = 0 -> exists w' ps',
     process D E C w [A; P; L] DisablePool = Ok w' /\ the_pool w' = Some ps' /\ is_disabled ps' = 1) /\
  (is_disabled ps <> 0 -> exists w' ps',
     process D E C w [A; P] EnablePool = Ok w' /\ the_pool w' = Some ps' /\
     is_disabled ps' = 0 /\ is_rebalancing ps' = 0 /\ the_list w' = the_list w /\ w_tok w' = w_tok w).
Proof.
  intros HR Hp Hau A P L.
  destruct (reachable_inv D HD w HR) as ((l0 & au0 & _ & Hau0 & _ & Hnd & _) & Hf).
  assert (au0 = au) by congruence. subst au0.
  assert (Ask : forall used asked, Forall2 meets used asked -> passes used asked []).
  { intros u a F. exists u. rewrite app_nil_r. auto. }
  repeat apply conj.
  - intros new. destruct (C48_permitted D HD E C w HR SetAdmin [A; mkMeta new false false; P] _ [] _ eq_refl
      (may_set_admin D E w ps new [] Hp)) as (w' & H & Ap).
    { apply Ask. repeat constructor; cbn; auto; discriminate. }
    exists w'. eexists. split; [exact H|]. split; [exact (ap_pool _ _ _ Ap)|reflexivity].
  - intros payer new Hn. destruct (C48_permitted D HD E C w HR AddDisablePoolAuthority
      [mkMeta payer true true; A; mkMeta POOL_STATE_ID false false; mkMeta new false false; L; mkMeta SYSTEM_PROGRAM_ID false false]
      _ [] _ eq_refl (may_add_authority D E w ps payer new au [] Hp Hau Hn)) as (w' & H & Ap).
    { apply Ask. repeat constructor; cbn; auto; discriminate. }
    exists w'. split; [exact H|]. exact (ap_auth _ _ _ Ap).
  - intros refund i who Hi Hu. destruct (nth_error_split au i Hi) as (b & a & Hba & Hl).
    assert (Hwf : ix_wfb (RemoveDisablePoolAuthority (Z.of_nat i)) = true).
    { cbn. unfold u32b. apply andb_true_iff. split; apply Z.leb_le; lia. }
    assert (Hb' : the_authorities w = Some (b ++ who :: a)) by congruence.
    assert (Hl' : Z.of_nat (length b) = Z.of_nat i) by congruence.
    destruct (C48_permitted D HD E C w HR (RemoveDisablePoolAuthority (Z.of_nat i))
      [mkMeta refund false true; A; mkMeta who false false; mkMeta POOL_STATE_ID false false; L]
      _ [] _ Hwf (may_remove_authority D E w ps _ refund (admin ps) who b a [] Hp Hb' Hl' (or_introl eq_refl))) as (w' & H & Ap).
    { apply Ask. repeat constructor; cbn; auto; discriminate. }
    exists w', (b ++ a). split; [exact H|]. split; [exact (ap_auth _ _ _ Ap)|].
    rewrite Hba in Hnd. split.
    + now apply NoDup_remove_2.
    + intros k Hk Hin. rewrite Hba in Hin. apply in_app_or in Hin as [?|[?|?]]; [|congruence|]; apply in_or_app; auto.
  - intros Hr Hd. destruct (C48_permitted D HD E C w HR DisablePool [A; P; L] _ [] _ eq_refl
      (may_disable D E w ps (admin ps) au [] Hp (conj Hr Hd) Hau (or_introl eq_refl))) as (w' & H & Ap).
    { apply Ask. repeat constructor; cbn; auto; discriminate. }
    exists w'. eexists. split; [exact H|]. split; [exact (ap_pool _ _ _ Ap)|reflexivity].
  - intros Hd. assert (HP : passes [A; P] [signs (admin ps); writes POOL_STATE_ID] []).
    { apply Ask. repeat constructor; cbn; auto; discriminate. }
    destruct (C48_permitted D HD E C w HR EnablePool [A; P] _ [] _ eq_refl (may_enable D E w ps [] Hp Hd) HP) as (w' & H & Ap).
    exists w'. eexists. split; [exact H|]. split; [exact (ap_pool _ _ _ Ap)|]. split; [reflexivity|]. split.
    + cbn. unfold flag_inv in Hf. rewrite Hp in Hf. destruct Hf as [(Hf & _)|(_ & Hf & _)]; congruence.
    + split; [exact (ap_list _ _ _ Ap)|].
      unfold process in H. cbn [ix_wfb guard] in H. apply enable_pool_inv in H.
      destruct H as (? & ? & ? & ? & _ & _ & _ & _ & _ & _ & _ & ->). reflexivity.
Qed.

(** A mid-rebalance pool refuses every administrative call except handing over the admin key and maintaining
    the list of disable-pool authorities. *)
Theorem C48_rebalancing_refuses D (HD : derive_ok D) E C w ps accs ix w' : reachable D w ->
  the_pool w = Some ps -> is_rebalancing ps <> 0 -> is_admin_ix ix = true ->
  process D E C w accs ix = Ok w' ->
  ix = SetAdmin \/ ix = AddDisablePoolAuthority \/ exists i, ix = RemoveDisablePoolAuthority i.
Proof.
  intros HR Hp Hr Ha H. destruct (C48_only_permitted D HD E C w HR ix accs w' Ha H) as (asked & more & ch & R & _).
  destruct (reachable_inv D HD w HR) as (_ & Hf). unfold flag_inv in Hf. rewrite Hp in Hf.
  destruct R; try match goal with Q : the_pool w = Some ?p |- _ => assert (p = ps) by congruence; subst p end;
    try (match goal with Q : running _ |- _ => destruct Q end; contradiction); eauto.
  - destruct Hf as [(? & _)|(_ & ? & _)]; contradiction.
  - congruence.
Qed.

(* ------------------------------------------------------------------ *)
(** * Every rule has an instance in the example history *)
Definition remove_lst_accs := [sg ADMIN; rw PAYER; ro MA; rw RA; rw FA; rw PROTOCOL_FEE_ID; ro POOL_STATE_ID; rw LST_STATE_LIST_ID; ro SPL_TOKEN_ID].
Definition calc_accs := [sg ADMIN; ro MA; rw POOL_STATE_ID; ro RA; rw LST_STATE_LIST_ID; ro CB].
Definition new_key_accs (by_ new : key) := [sg by_; ro new; rw POOL_STATE_ID].
Definition remove_auth_accs := [rw PAYER; sg USER; ro USER; ro POOL_STATE_ID; rw DISABLE_POOL_AUTHORITY_LIST_ID].
Definition admin_cases : list (World * list Meta * Ix) :=
  [(W0, init_accs, Initialize);
   (W1, add_accs MA RA FA CA SPL_TOKEN_ID, AddLst);
   (W2, add_accs MB RB FB CB SPL_TOKEN_2022_ID, AddLst);
   (W2, remove_lst_accs, RemoveLst 0);
   (W8, calc_accs, SetSolValueCalculator 0);
   (W9, new_key_accs ADMIN USER, SetAdmin);
   (W11, add_auth_accs, AddDisablePoolAuthority);
   (W12, disable_accs, DisablePool);
   (W12, remove_auth_accs, RemoveDisablePoolAuthority 0);
   (W13, enable_accs, EnablePool);
   (W14, withdraw_accs, WithdrawProtocolFees 5);
   (W15, lst_input_accs, DisableLstInput 1);
   (W16, lst_input_accs, EnableLstInput 1);
   (W14, [sg ADMIN; rw POOL_STATE_ID], SetProtocolFee (Some 10000) None);
   (W14, new_key_accs ADMIN USER, SetProtocolFeeBeneficiary);
   (W14, new_key_accs ADMIN CA, SetPricingProgram);
   (W14, new_key_accs REBALANCER USER, SetRebalanceAuthority)].

Lemma admin_cases_ok : forallb (fun '(w, accs, ix) => is_admin_ix ix && okb (process D0 E0 C0 w accs ix)) admin_cases = true.
Proof. vm_compute. reflexivity. Qed.
Lemma admin_cases_reach : Forall (fun c => reachable D0 (fst (fst c))) admin_cases.
Proof.
  unfold admin_cases.
  apply Forall_cons; [exact W0_reach|].
  apply Forall_cons; [exact W1_reach|].
  apply Forall_cons; [exact W2_reach|].
  apply Forall_cons; [exact W2_reach|].
  apply Forall_cons; [exact W8_reach|].
  apply Forall_cons; [exact W9_reach|].
  apply Forall_cons; [exact W11_reach|].
  apply Forall_cons; [exact W12_reach|].
  apply Forall_cons; [exact W12_reach|].
  apply Forall_cons; [exact W13_reach|].
  apply Forall_cons; [exact W14_reach|].
  apply Forall_cons; [exact W15_reach|].
  apply Forall_cons; [exact W16_reach|].
  apply Forall_cons; [exact W14_reach|].
  apply Forall_cons; [exact W14_reach|].
  apply Forall_cons; [exact W14_reach|].
  apply Forall_cons; [exact W14_reach|].
  apply Forall_nil.
Qed.
Example C48_case w accs ix : In (w, accs, ix) admin_cases ->
  exists w' asked more ch, process D0 E0 C0 w accs ix = Ok w' /\
    admin_rule D0 E0 w ix asked more ch /\ passes accs asked more /\ applied w ch w'.
Proof.
  intros Hin. pose proof (proj1 (Forall_forall _ _) admin_cases_reach _ Hin) as HR. cbv beta in HR.
  change (reachable D0 w) in HR.
  pose proof admin_cases_ok as H. rewrite forallb_forall in H. specialize (H _ Hin). cbv beta iota in H.
  apply andb_true_iff in H as (Ha & Hk). apply okb_get in Hk.
  exists (get (process D0 E0 C0 w accs ix)).
  destruct (C48_only_permitted D0 D0_ok E0 C0 w HR ix accs _ Ha Hk) as (asked & more & ch & R & P & A).
  exists asked, more, ch. auto.
Qed.
(** The same calls by somebody else, or in the wrong state, are refused. *)
Example C48_case_refused : forallb (fun '(w, accs, ix) => negb (okb (process D0 E0 C0 w accs ix)))
  [(W0, [sw PAYER; sg USER; rw POOL_STATE_ID; rw LP; ro SPL_TOKEN_ID; ro SYSTEM_PROGRAM_ID], Initialize);
   (W1, init_accs, Initialize);
   (W2, add_accs MA RA FA CA SPL_TOKEN_ID, AddLst);
   (W8, remove_lst_accs, RemoveLst 0);
   (W9, [sg ADMIN; rw POOL_STATE_ID], SetProtocolFee (Some 1) None);
   (W14, [sg ADMIN; rw POOL_STATE_ID], SetProtocolFee (Some 10001) None);
   (W9, disable_accs, DisablePool);
   (W12, enable_accs, EnablePool);
   (W14, new_key_accs USER USER, SetAdmin);
   (W14, new_key_accs ADMIN USER, SetPricingProgram)] = true.
Proof. vm_compute. reflexivity. Qed.
