(** C54: the managers' command line tools. *)
From Coq Require Import ZArith List Bool Lia.
From Verif Require Import Base Ratio State Controller Inversion ProcInv Spec Periph PeriphSpec PeriphProofs PropCalc PropFlat PeriphCli PeriphCliSpec.
Import ListNotations.
Open Scope Z_scope.

(* ------------------------------------------------------------------ *)
(** * The flat-fee tool *)
Lemma becomes_state F pw m f : flat_derive_ok F ->
  flat_becomes F pw (put_acc pw (ff_state F) (mkPAcc (ff_id F) (PFlatState m f))) (Some m) (Some f) (lst_fees F pw).
Proof.
  intros D. unfold flat_becomes, flat_manager, flat_lp_fee, lst_fees. rewrite pdata_put_same. repeat split.
  - intros x. now rewrite pdata_put_other by (now apply find_not_state).
  - intros k Hk. apply pw_acc_put_other. intros ->. apply Hk. left. reflexivity.
Qed.
Lemma becomes_fee F pw m a : flat_derive_ok F ->
  flat_becomes F pw (put_acc pw (fst (fd_find F m)) a) (flat_manager F pw) (flat_lp_fee F pw)
    (upd (lst_fees F pw) m (match pa_data a with PFlatFee _ i o => Some (i, o) | _ => None end)).
Proof.
  intros D. pose proof (find_not_state F m D) as Hn. unfold flat_becomes, flat_manager, flat_lp_fee.
  rewrite !pdata_put_other by congruence. repeat split.
  - intros x. unfold upd, lst_fees. destruct (Z.eqb_spec x m) as [->|Hx].
    + unfold pdata. now rewrite put_acc_same.
    + rewrite pdata_put_other; [reflexivity|]. intros He. apply Hx. exact (find_inj F x m D He).
  - intros k Hk. apply pw_acc_put_other. intros ->. apply Hk. now apply flat_pda_fee.
Qed.
Lemma state_is F pw : flat_inv F pw ->
  (flat_manager F pw = None /\ flat_lp_fee F pw = None /\ pw_acc pw (ff_state F) = no_account) \/
  (exists m f, flat_manager F pw = Some m /\ flat_lp_fee F pw = Some f /\ pw_acc pw (ff_state F) = mkPAcc (ff_id F) (PFlatState m f)).
Proof.
  intros I. unfold flat_manager, flat_lp_fee, pdata. destruct (fi_state _ _ I) as [->|(m & f & -> & _)]; [left; repeat split; reflexivity|right]. exists m, f. repeat split; reflexivity.
Qed.
Lemma fee_is F pw m : flat_derive_ok F -> flat_inv F pw ->
  (lst_fees F pw m = None /\ pw_acc pw (fst (fd_find F m)) = no_account) \/
  (exists i o, lst_fees F pw m = Some (i, o) /\ pw_acc pw (fst (fd_find F m)) = mkPAcc (ff_id F) (PFlatFee (snd (fd_find F m)) i o)).
Proof.
  intros D I. unfold lst_fees, pdata. destruct (fi_fee _ _ I m (snd (fd_find F m)) (fst (fd_find F m)) (proj1 D m)) as [->|(_ & i & o & -> & _)];
  [left; split; reflexivity|right]. exists i, o. split; reflexivity.
Qed.
Lemma both_refl payer mgr t : existsb (fun m => is_signer m && (mk m =? mgr)) t = true ->
  (forall m, In m t -> is_signer m = true -> mk m = payer \/ mk m = mgr) -> signed_by_both payer mgr t = true.
Proof.
  intros H1 H2. unfold signed_by_both. rewrite H1, orb_true_r, andb_true_r. apply forallb_forall. intros m Hm.
  destruct (is_signer m) eqn:Es; [|reflexivity]. cbn. destruct (H2 m Hm Es) as [->| ->]; rewrite Z.eqb_refl; [|rewrite orb_true_r]; reflexivity.
Qed.
Ltac both := apply both_refl; cbn; rewrite ?Z.eqb_refl; [rewrite ?orb_true_r; reflexivity|let x := fresh in let Hx := fresh in let Hsx := fresh in intros x Hx Hsx; repeat (destruct Hx as [<-|Hx]; [cbn in Hsx |- *; first [discriminate Hsx|auto]|]); destruct Hx].

Ltac clean := unfold verify_keys_privs, keys_match, privileges_ok; cbn [mk forallb Client.ro Client.wr Client.sg Client.sgw is_signer is_writable fst snd andb guard bind];
  rewrite ?Z.eqb_refl; cbn [andb guard bind fst snd].
Lemma bps_true x : signed_bps x -> (-10000 <=? x) && (x <=? 10000) = true.
Proof. unfold signed_bps. intros H. rewrite andb_true_iff, !Z.leb_le. exact H. Qed.

(** What a rule permits goes through, *)
Theorem C54_flat_goes_through R F pw payer mgr c m' l' f' : flat_derive_ok F -> flat_reachable R F pw ->
  flat_cmd_rule F pw mgr c m' l' f' ->
  exists pw', flat_command R F pw payer mgr c = Ok pw' /\ flat_becomes F pw pw' m' l' f'.
Proof.
  intros D HR H. pose proof (flat_reachable_inv _ _ _ D HR) as I. unfold flat_command.
  destruct (state_is F pw I) as [(Hm & Hl & Hs)|(m & f & Hm & Hl & Hs)].
  - inversion H; subst; try congruence. cbn [flat_plan]. unfold known, powner, pdata. rewrite Hs. cbn [pa_owner pa_data no_account Z.eqb negb andb guard bind].
    replace (SYSTEM_PROGRAM_ID =? SYSTEM_PROGRAM_ID) with true by reflexivity. cbn [negb andb guard bind].
    eexists. split; [|apply becomes_state; exact D]. unfold signed_by_both. cbn. rewrite !Z.eqb_refl. cbn.
    unfold process_flat_initialize. clean. unfold init_account, powner, pdata. cbn [Client.wr mk]. rewrite Hs. reflexivity.
  - assert (Hp : pdata pw (ff_state F) = PFlatState m f) by (unfold pdata; now rewrite Hs).
    assert (Hpo : powner pw (ff_state F) = ff_id F) by (unfold powner; now rewrite Hs).
    assert (Ht : try_program_state pw (ff_state F) = Ok (m, f)) by (unfold try_program_state; now rewrite Hp).
    inversion H; subst; try congruence; (assert (m = mgr) by congruence); subst m;
      unfold flat_plan, flat_verify_manager; rewrite Ht; cbn [bind fst guard]; rewrite Z.eqb_refl; cbn [guard bind]; clear H.
    + (* manager *) eexists. split; [|rewrite Hl; apply becomes_state; exact D].
      replace (signed_by_both payer mgr _) with true by (symmetry; both). cbn [guard flat_process]. unfold process_flat_set_manager. cbn [Client.ro Client.wr Client.sg mk flat_set_manager_metas].
      rewrite Z.eqb_refl. cbn [guard]. rewrite Ht. cbn [bind]. clean. unfold write_data. rewrite Hpo, Z.eqb_refl. reflexivity.
    + (* lp fee *) eexists. split; [|apply becomes_state; exact D].
      replace (signed_by_both payer mgr _) with true by (symmetry; both). cbn [guard flat_process]. unfold process_set_lp_withdrawal_fee. cbn [Client.ro Client.wr Client.sg mk flat_set_lp_fee_metas].
      rewrite Z.eqb_refl. cbn [guard]. rewrite Ht. cbn [bind]. clean. unfold verify_unsigned_fee_bps_bound.
      rewrite (proj2 (Z.leb_le 0 bps)), (proj2 (Z.leb_le bps 10000)) by lia. cbn [andb guard bind]. unfold write_data. rewrite Hpo, Z.eqb_refl. reflexivity.
    + (* add *) destruct (fee_is F pw m0 D I) as [(_ & Hf)|(? & ? & Hf & _)]; [|congruence].
      eexists. split; [|rewrite <- Hm; apply (becomes_fee F pw m0 (mkPAcc (ff_id F) (PFlatFee (snd (fd_find F m0)) i o))); exact D].
      replace (signed_by_both payer mgr _) with true by (symmetry; both). cbn [guard flat_process]. unfold process_flat_add_lst. cbn [Client.ro Client.wr Client.sg Client.sgw mk flat_add_lst_metas].
      rewrite Z.eqb_refl. cbn [guard]. rewrite Ht. cbn [bind]. destruct (fd_find F m0) as (fa, b) eqn:Ef. cbn [fst snd] in *. clean.
      destruct H2 as (Ho & Hmi). replace (is_token_program (powner pw m0)) with true by (symmetry; destruct Ho as [->| ->]; reflexivity).
      rewrite Hmi. cbn [guard]. unfold verify_signed_fee_bps_bound. rewrite !bps_true by assumption. cbn [guard bind].
      unfold init_account, powner, pdata. rewrite Hf. reflexivity.
    + (* remove *) 
      replace (signed_by_both payer mgr _) with true by (symmetry; both). cbn [guard flat_process]. unfold process_flat_remove_lst. cbn [Client.ro Client.wr Client.sg Client.sgw mk flat_remove_lst_metas].
      rewrite Z.eqb_refl. cbn [guard]. rewrite Ht. cbn [bind]. clean. destruct (fee_is F pw m0 D I) as [(Hn & Hf)|(i & o & Hf0 & Hf)].
      * unfold powner, pdata. rewrite Hf. cbn [no_account pa_owner pa_data].
        destruct (Z.eqb_spec SYSTEM_PROGRAM_ID (ff_id F)) as [He|_]; [destruct D as (_ & _ & _ & D4); congruence|].
        eexists. split; [reflexivity|]. rewrite <- Hm. unfold flat_becomes. repeat split; auto.
        intros x. unfold upd. destruct (Z.eqb_spec x m0); subst; auto.
      * unfold powner. rewrite Hf. cbn [pa_owner]. rewrite Z.eqb_refl. eexists. split; [reflexivity|]. rewrite <- Hm. apply (becomes_fee F pw m0 no_account D).
    + (* fee *) destruct (fee_is F pw m0 D I) as [(Hn & Hf)|(i0 & o0 & Hf0 & Hf)]; [congruence|].
      eexists. split; [|rewrite <- Hm; apply (becomes_fee F pw m0 (mkPAcc (ff_id F) (PFlatFee (snd (fd_find F m0)) i o))); exact D].
      replace (signed_by_both payer mgr _) with true by (symmetry; both). cbn [guard flat_process]. unfold process_set_lst_fee. cbn [Client.ro Client.wr Client.sg Client.sgw mk flat_set_lst_fee_metas].
      rewrite Z.eqb_refl. cbn [guard]. rewrite Ht. cbn [bind]. clean.
      unfold verify_signed_fee_bps_bound. rewrite !bps_true by assumption. cbn [guard bind].
      unfold try_fee_account, write_data, powner, pdata. rewrite Hf. cbn [pa_data pa_owner bind fst snd]. rewrite Z.eqb_refl. reflexivity.
Qed.

(** and what goes through was permitted by its rule. *)
Theorem C54_flat_only R F pw payer mgr c pw' : flat_derive_ok F -> flat_reachable R F pw ->
  flat_command R F pw payer mgr c = Ok pw' ->
  exists m' l' f', flat_cmd_rule F pw mgr c m' l' f' /\ flat_becomes F pw pw' m' l' f'.
Proof.
  intros D HR H. pose proof (flat_reachable_inv _ _ _ D HR) as I.
  assert (G : forall m' l' f', flat_cmd_rule F pw mgr c m' l' f' ->
    exists m' l' f', flat_cmd_rule F pw mgr c m' l' f' /\ flat_becomes F pw pw' m' l' f').
  { intros m' l' f' G. exists m', l', f'. split; [exact G|]. destruct (C54_flat_goes_through R F pw payer mgr c m' l' f' D HR G) as (pw2 & H2 & B).
    rewrite H in H2. injection H2 as <-. exact B. }
  unfold flat_command in H. apply bind_ok in H as ((metas & ix) & Hp & H). apply guard_ok in H as (_ & H).
  apply bind_ok in H as ((pw1 & r) & H & [= <-]). 
  destruct (state_is F pw I) as [(Hm & Hl & Hs)|(m & f & Hm & Hl & Hs)].
  - destruct c; cbn [flat_plan] in Hp; unfold try_program_state, pdata in Hp; rewrite ?Hs in Hp; cbn [no_account pa_data bind] in Hp; try discriminate Hp.
    eapply G. now apply fc_init.
  - assert (Ht : try_program_state pw (ff_state F) = Ok (m, f)) by (unfold try_program_state, pdata; now rewrite Hs).
    destruct c; cbn [flat_plan] in Hp; unfold flat_verify_manager in Hp; rewrite ?Ht in Hp; cbn [bind fst snd] in Hp;
      try (apply bind_ok in Hp as (? & Hg & [= <- <-]); apply guard_ok in Hg as (Hg & _); apply Z.eqb_eq in Hg; subst m);
      cbn [flat_process] in H; try (apply bind_ok in H as (pw2 & H & [= <- <-])).
    + exfalso. apply guard_ok in Hp as (Hk & _). unfold known, powner in Hk. rewrite Hs in Hk. cbn [pa_owner] in Hk.
      destruct (Z.eqb_spec (ff_id F) SYSTEM_PROGRAM_ID) as [He|_]; [destruct D as (_ & _ & _ & D4); congruence|discriminate Hk].
    + eapply G. now apply fc_manager.
    + apply set_lp_inv in H as (m & f0 & _ & _ & Hb & _). eapply G. now apply fc_lp_fee.
    + apply add_inv in H as (m & f0 & _ & _ & Hi & Ho & _ & Hn & Htp & Hmi & _). unfold flat_add_lst_metas, key_at in *. cbn [nth_error Client.ro Client.wr Client.sg Client.sgw mk] in *.
      eapply G. apply fc_add; auto.
      * unfold lst_fees, pdata. now rewrite Hn.
      * split; [|exact Hmi]. unfold is_token_program in Htp. apply orb_true_iff in Htp as [X|X]; apply Z.eqb_eq in X; auto.
    + eapply G. now apply fc_remove.
    + apply set_lst_inv in H as (m & f0 & b & i0 & o0 & _ & _ & Hi & Ho & Hd & _). 
      eapply G. apply fc_fee; auto. unfold lst_fees. unfold key_at, flat_set_lst_fee_metas in Hd. cbn [nth_error mk Client.wr] in Hd. rewrite Hd. discriminate.
Qed.

(* ------------------------------------------------------------------ *)
(** * Setting all fees at once *)
Lemma todo_ok pw i o ks : (forall k, In k ks -> exists b i0 o0, pdata pw k = PFlatFee b i0 o0) -> exists todo, batch_todo pw i o ks = Ok todo.
Proof.
  induction ks as [|k t IH]; intros H; cbn [batch_todo]; [eauto|]. destruct (H k (or_introl eq_refl)) as (b & i0 & o0 & Hk).
  unfold try_fee_account. rewrite Hk. cbn [map_err bind fst snd]. destruct IH as (td & ->); [intros; apply H; now right|]. cbn [bind]. eauto.
Qed.
Lemma todo_spec pw i o ks todo : batch_todo pw i o ks = Ok todo ->
  (forall k, In k ks -> exists b i0 o0, pdata pw k = PFlatFee b i0 o0) /\
  (forall k, In k todo <-> In k ks /\ exists b i0 o0, pdata pw k = PFlatFee b i0 o0 /\ (i0, o0) <> (i, o)) /\
  (NoDup ks -> NoDup todo).
Proof.
  revert todo. induction ks as [|k t IH]; intros todo; cbn [batch_todo].
  - intros [= <-]. split; [intros ? []|]. split; [|auto]. intros k. cbn [In]. tauto.
  - intros H. apply bind_ok in H as (fa & Hf & H). apply bind_ok in H as (rest & Hr & [= <-]). destruct (IH _ Hr) as (I1 & I2 & I3).
    unfold try_fee_account in Hf. destruct (pdata pw k) as [| | | | | | | |b i0 o0| |] eqn:Hk; cbn [map_err] in Hf; try discriminate. injection Hf as <-. cbn [fst snd].
    assert (Hd : (i0 =? i) && (o0 =? o) = true <-> (i0, o0) = (i, o)).
    { rewrite andb_true_iff, !Z.eqb_eq. split; [intros (-> & ->); reflexivity|intros [= -> ->]; auto]. }
    split; [|split].
    + intros j [<-|Hj]; [eauto|auto].
    + intros j. destruct ((i0 =? i) && (o0 =? o)).
      * rewrite I2. split; [intros (X & Y); split; [now right|exact Y]|]. intros ([<-|X] & Y); [|split; auto].
        destruct Y as (b' & i' & o' & Y & Z). rewrite Hk in Y. injection Y as <- <- <-. exfalso. apply Z. now apply Hd.
      * cbn [In]. rewrite I2. split.
        -- intros [<-|(X & Y)]; [|split; auto]. split; [now left|]. exists b, i0, o0. split; [exact Hk|]. rewrite <- Hd. discriminate.
        -- intros ([<-|X] & Y); [now left|]. right. auto.
    + intros Hn. inversion Hn; subst. destruct ((i0 =? i) && (o0 =? o)); [auto|]. constructor; [|auto]. rewrite I2. tauto.
Qed.

Definition batch_ixs (F : FlatCfg) (mgr i o : Z) (todo : list key) := map (fun k => (flat_set_lst_fee_metas F mgr k, SetLstFee i o)) todo.
Lemma batch_runs R F mgr i o todo : forall pw f, NoDup todo -> pw_acc pw (ff_state F) = mkPAcc (ff_id F) (PFlatState mgr f) ->
  (forall k, In k todo -> k <> ff_state F /\ exists b i0 o0, pw_acc pw k = mkPAcc (ff_id F) (PFlatFee b i0 o0)) ->
  (todo <> [] -> signed_bps i /\ signed_bps o) ->
  exists pw', flat_run R F pw (batch_ixs F mgr i o todo) = Ok pw' /\ pw_epoch pw' = pw_epoch pw /\
    (forall k, ~ In k todo -> pw_acc pw' k = pw_acc pw k) /\
    (forall k b i0 o0, In k todo -> pw_acc pw k = mkPAcc (ff_id F) (PFlatFee b i0 o0) -> pw_acc pw' k = mkPAcc (ff_id F) (PFlatFee b i o)).
Proof.
  induction todo as [|k t IH]; intros pw f Hn Hs Hk Hb; cbn [batch_ixs map flat_run].
  - exists pw. split; [reflexivity|]. split; [reflexivity|]. split; [auto|]. intros ? ? ? ? [].
  - inversion Hn as [|? ? Hnk Hnt]; subst. destruct (Hk k (or_introl eq_refl)) as (Hks & b & i0 & o0 & Hkd). destruct (Hb ltac:(discriminate)) as (Hi & Ho).
    destruct (IH (put_acc pw k (mkPAcc (ff_id F) (PFlatFee b i o))) f Hnt) as (pw' & H1 & H2 & H3 & H4).
    + rewrite pw_acc_put_other by congruence. exact Hs.
    + intros j Hj. destruct (Hk j (or_intror Hj)) as (Hjs & Hjd). split; [exact Hjs|]. rewrite pw_acc_put_other by (intros ->; contradiction). exact Hjd.
    + auto.
    + exists pw'. split; [|split; [exact H2|split]].
      * cbn [flat_process]. unfold process_set_lst_fee. cbn [Client.ro Client.wr Client.sg mk flat_set_lst_fee_metas].
        rewrite Z.eqb_refl. cbn [guard]. unfold try_program_state, pdata. rewrite Hs. cbn [pa_data bind]. clean.
        unfold verify_signed_fee_bps_bound. rewrite !bps_true by assumption. cbn [guard bind].
        unfold try_fee_account, write_data, powner, pdata. rewrite Hkd. cbn [pa_data pa_owner bind fst snd]. rewrite Z.eqb_refl. exact H1.
      * intros j Hj. cbn [In] in Hj. rewrite H3 by tauto. apply pw_acc_put_other. intros ->. tauto.
      * intros j b' i' o' [<-|Hj] Hd.
        -- rewrite H3 by exact Hnk. rewrite put_acc_same. rewrite Hkd in Hd. injection Hd as <- <- <-. reflexivity.
        -- apply (H4 j b' i' o' Hj). rewrite pw_acc_put_other by (intros ->; contradiction). exact Hd.
Qed.

(** In an initialised program none of whose accounts is a stray, the tool gives a transaction signed by the manager alone.
    It goes through exactly when every LST has these fees already or the fees are within bounds, and then every LST the
    program knows has these fees, and nothing else changed. *)
Theorem C54_batch R F pw mgr listed i o : flat_derive_ok F -> flat_reachable R F pw -> flat_manager F pw = Some mgr ->
  program_accounts F pw listed -> no_strays F pw ->
  exists ixs, batch_set_fees F pw listed i o = Ok ixs /\
    (forall metas ix m, In (metas, ix) ixs -> In m metas -> is_signer m = true -> mk m = mgr) /\
    ((exists pw', flat_run R F pw ixs = Ok pw') <->
     (forall m, lst_fees F pw m = None \/ lst_fees F pw m = Some (i, o)) \/ (signed_bps i /\ signed_bps o)) /\
    (forall pw', flat_run R F pw ixs = Ok pw' ->
       flat_becomes F pw pw' (Some mgr) (flat_lp_fee F pw)
         (fun m => match lst_fees F pw m with Some _ => Some (i, o) | None => None end)).
Proof.
  intros D HR Hm (Hn & Hall) Hst. pose proof (flat_reachable_inv _ _ _ D HR) as I.
  destruct (state_is F pw I) as [(Hm' & _)|(m0 & f & Hm' & Hl & Hs)]; [congruence|]. assert (m0 = mgr) by congruence. subst m0.
  assert (Hps : powner pw (ff_state F) = ff_id F) by (unfold powner; now rewrite Hs).
  set (others := filter (fun k => negb (k =? ff_state F)) listed).
  assert (Hoth : forall k, In k others <-> In k listed /\ k <> ff_state F).
  { intros k. unfold others. rewrite filter_In, negb_true_iff, Z.eqb_neq. reflexivity. }
  assert (Hfee : forall k, In k others -> exists m i0 o0, k = fst (fd_find F m) /\ pw_acc pw k = mkPAcc (ff_id F) (PFlatFee (snd (fd_find F m)) i0 o0)).
  { intros k Hk. apply Hoth in Hk as (Hk & Hne). apply Hall in Hk. destruct (Hst k Hk) as [?|(m & b & Hc)]; [contradiction|].
    destruct (fi_fee _ _ I m b k Hc) as [Hno|(Hf & i0 & o0 & Ha & _)].
    - exfalso. unfold powner in Hk. rewrite Hno in Hk. cbn in Hk. destruct D as (_ & _ & _ & D4). congruence.
    - exists m, i0, o0. rewrite <- Hf. cbn [fst snd]. auto. }
  destruct (todo_ok pw i o others) as (todo & Htodo).
  { intros k Hk. destruct (Hfee k Hk) as (m & i0 & o0 & _ & Ha). unfold pdata. rewrite Ha. cbn. eauto. }
  destruct (todo_spec _ _ _ _ _ Htodo) as (_ & T2 & T3).
  exists (batch_ixs F mgr i o todo).
  assert (Hin : forall m i0 o0, lst_fees F pw m = Some (i0, o0) -> In (fst (fd_find F m)) others).
  { intros m i0 o0 Hf. apply Hoth. split; [|now apply find_not_state]. apply Hall. destruct (fee_is F pw m D I) as [(X & _)|(? & ? & _ & Y)]; [congruence|].
    unfold powner. now rewrite Y. }
  assert (Hne : todo <> [] -> ~ (forall m, lst_fees F pw m = None \/ lst_fees F pw m = Some (i, o))).
  { intros Hne Hf. destruct todo as [|k t]; [congruence|]. destruct (proj1 (T2 k) (or_introl eq_refl)) as (Hk & b & i0 & o0 & Hd & Hdiff).
    destruct (Hfee k Hk) as (m & i1 & o1 & -> & Ha). destruct (Hf m) as [X|X]; unfold lst_fees in X; rewrite Hd in X; congruence. }
  assert (Hgo : todo = [] \/ signed_bps i /\ signed_bps o -> exists pw', flat_run R F pw (batch_ixs F mgr i o todo) = Ok pw' /\
    flat_becomes F pw pw' (Some mgr) (flat_lp_fee F pw) (fun m => match lst_fees F pw m with Some _ => Some (i, o) | None => None end)).
  { intros Hb. destruct (batch_runs R F mgr i o todo pw f) as (pw' & H1 & H2 & H3 & H4).
    - apply T3. unfold others. apply NoDup_filter. exact Hn.
    - exact Hs.
    - intros k Hk. apply T2 in Hk as (Hk & _). split; [now apply Hoth|]. destruct (Hfee k Hk) as (m & i0 & o0 & _ & Ha). eauto.
    - intros Hx. destruct Hb; [contradiction|assumption].
    - exists pw'. split; [exact H1|].
      assert (Hsn : ~ In (ff_state F) todo) by (intros X; apply T2 in X as (X & _); apply Hoth in X as (_ & X); congruence).
      unfold flat_becomes, flat_manager, flat_lp_fee, pdata. rewrite (H3 _ Hsn), Hs. repeat split; auto.
      + intros m. destruct (fee_is F pw m D I) as [(X & Y)|(i0 & o0 & X & Y)]; rewrite X.
        * unfold lst_fees, pdata. rewrite H3, Y; [reflexivity|]. intros Z. apply T2 in Z as (_ & b & i0 & o0 & Z & _). unfold pdata in Z. rewrite Y in Z. discriminate Z.
        * unfold lst_fees, pdata. destruct (in_dec Z.eq_dec (fst (fd_find F m)) todo) as [Hy|Hy].
          -- rewrite (H4 _ _ _ _ Hy Y). reflexivity.
          -- rewrite (H3 _ Hy), Y. cbn. destruct (Z.eq_dec i0 i) as [->|Hd]; [destruct (Z.eq_dec o0 o) as [->|Hd]; [reflexivity|]|].
             all: exfalso; apply Hy; apply T2; split; [exact (Hin _ _ _ X)|]; unfold pdata; rewrite Y; cbn; do 3 eexists; split; [reflexivity|congruence].
      + intros k Hk. apply H3. intros X. apply T2 in X as (X & _). destruct (Hfee k X) as (m & _ & _ & -> & _). apply Hk. now apply flat_pda_fee. }
  split; [|split; [|split]].
  - unfold batch_set_fees. replace (existsb (fun k => k =? ff_state F) listed) with true.
    2: { symmetry. apply existsb_exists. exists (ff_state F). rewrite Z.eqb_refl. split; [now apply Hall|reflexivity]. }
    cbn [guard]. unfold try_program_state, pdata. rewrite Hs. cbn [pa_data map_err bind]. fold others. rewrite Htodo. reflexivity.
  - intros metas ix m X Y. unfold batch_ixs in X. apply in_map_iff in X as (k & [= <- <-] & _). cbn in Y.
    destruct Y as [<-|[<-|[<-|[]]]]; cbn; intros; (reflexivity || discriminate).
  - split.
    + intros (pw' & Hr). destruct todo as [|k t] eqn:Et.
      * left. intros m. destruct (lst_fees F pw m) as [(i0, o0)|] eqn:Hf; [right|left; reflexivity].
        destruct (Z.eq_dec i0 i) as [->|Hd]; [destruct (Z.eq_dec o0 o) as [->|Hd]; [reflexivity|]|].
        all: exfalso; apply (proj2 (T2 (fst (fd_find F m)))); split; [exact (Hin _ _ _ Hf)|]; 
          destruct (fee_is F pw m D I) as [(X & _)|(i1 & o1 & X & Y)]; [congruence|]; unfold pdata; rewrite Y; cbn; do 3 eexists; split; [reflexivity|congruence].
      * right. cbn [batch_ixs map flat_run flat_process] in Hr. apply bind_ok in Hr as ((pw1 & r) & Hr & _). apply bind_ok in Hr as (pw2 & Hr & _).
        apply set_lst_inv in Hr as (_ & _ & _ & _ & _ & _ & _ & Hi & Ho & _). split; assumption.
    + intros Hb. destruct Hgo as (pw' & Hr & _); [|eauto]. destruct Hb as [Hb|Hb]; [|auto]. left. destruct todo; [reflexivity|]. exfalso. apply Hne; [discriminate|exact Hb].
  - intros pw' Hr. destruct Hgo as (pw2 & Hr2 & B); [|congruence].
    destruct todo as [|k t]; [auto|right]. cbn [batch_ixs map flat_run flat_process] in Hr. apply bind_ok in Hr as ((pw1 & r) & Hr & _). apply bind_ok in Hr as (pw2 & Hr & _).
    apply set_lst_inv in Hr as (_ & _ & _ & _ & _ & _ & _ & Hi & Ho & _). split; assumption.
Qed.

(** A stray account that is no fee account stops the command: and anybody can make one. *)
Theorem C54_batch_blocked F pw listed i o k : program_accounts F pw listed -> stray F pw k ->
  (forall b i0 o0, pdata pw k <> PFlatFee b i0 o0) -> forall ixs, batch_set_fees F pw listed i o <> Ok ixs.
Proof.
  intros (_ & Hall) (Ho & Hp) Hd ixs H. unfold batch_set_fees in H. apply guard_ok in H as (_ & H). apply bind_ok in H as (st & _ & H).
  apply bind_ok in H as (todo & Ht & _). destruct (todo_spec _ _ _ _ _ Ht) as (T1 & _). destruct (T1 k) as (b & i0 & o0 & X).
  - apply filter_In. split; [now apply Hall|]. apply negb_true_iff, Z.eqb_neq. intros ->. apply Hp. left. reflexivity.
  - exact (Hd _ _ _ X).
Qed.
Theorem C54_anyone_can_block R F pw k : flat_reachable R F pw -> ~ flat_pda F k ->
  flat_reachable R F (put_acc pw k (mkPAcc (ff_id F) POther)) /\ stray F (put_acc pw k (mkPAcc (ff_id F) POther)) k /\
  (forall b i0 o0, pdata (put_acc pw k (mkPAcc (ff_id F) POther)) k <> PFlatFee b i0 o0).
Proof.
  intros (pw0 & H0 & Hs) Hk. split; [|split].
  - exists pw0. split; [exact H0|]. eapply fss_cons; [exact Hs|]. apply fs_external. intros j Hj. apply pw_acc_put_other. intros ->. contradiction.
  - split; [|exact Hk]. unfold powner. now rewrite put_acc_same.
  - intros b i0 o0. unfold pdata. rewrite put_acc_same. discriminate.
Qed.

(* ------------------------------------------------------------------ *)
(** * Asking for prices *)
(** What price-exact-in prints: the value less the input's input fee and the output's output fee. *)
Theorem C54_price_exact_in R F pw inp out amount v r : flat_derive_ok F -> flat_reachable R F pw -> 0 <= v <= U64_MAX ->
  cli_price_exact_in R F pw inp out amount v = Some r <->
  exists i o i' o', lst_fees F pw inp = Some (i, o') /\ lst_fees F pw out = Some (i', o) /\ i + o <= 10000 /\
    r = v * (10000 - i - o) / 10000 /\ r <= U64_MAX.
Proof.
  intros D HR Hv. unfold cli_price_exact_in.
  assert (P : price_accounts F (flat_price_metas F inp out)) by (repeat split; cbn; lia).
  split.
  - intros H. destruct (flat_process R F pw (flat_price_metas F inp out) (PriceExactIn amount v)) as [(pw', q)|] eqn:E; [|discriminate H]. cbn [show] in H. subst q.
    apply C24_exact_in in E as (_ & _ & i & o & i' & o' & H1 & H2 & H3 & H4 & [= ->]); auto. exists i, o, i', o'. auto.
  - intros (i & o & i' & o' & H1 & H2 & H3 & -> & H4).
    assert (E : flat_process R F pw (flat_price_metas F inp out) (PriceExactIn amount v) = Ok (pw, Some (v * (10000 - i - o) / 10000))).
    { apply C24_exact_in; auto. split; [reflexivity|]. split; [exact P|]. exists i, o, i', o'. auto. }
    rewrite E. reflexivity.
Qed.
(** What price-exact-out prints: with fees below 10000 bps in all, no less than any input the output pays for. *)
Theorem C54_price_exact_out R F pw inp out amount y q :
  ratio_lib_ok R -> flat_derive_ok F -> flat_reachable R F pw -> U64 y ->
  cli_price_exact_out R F pw inp out amount y = Some q ->
  U64 q /\ exists i o i' o', lst_fees F pw inp = Some (i, o') /\ lst_fees F pw out = Some (i', o) /\ i + o <= 10000 /\
    (i + o < 10000 ->
     (forall x, U64 x -> x * (10000 - i - o) / 10000 <= y -> x <= q) /\
     (q = U64_MAX \/ y - (if 0 <=? i + o then 0 else 2) <= q * (10000 - i - o) / 10000) /\
     (0 <= i + o -> y <= q)).
Proof.
  intros HR D HF Hy H. unfold cli_price_exact_out in H.
  destruct (flat_process R F pw (flat_price_metas F inp out) (PriceExactOut amount y)) as [(pw', r)|] eqn:E; [|discriminate H].
  cbn [show] in H. subst r. apply C24_exact_out in E as (_ & U & _ & i & o & i' & o' & H1 & H2 & H3 & H4); auto.
  split; [exact U|]. exists i, o, i', o'. auto.
Qed.
Theorem C54_price_redeem R F pw out amount v r : flat_derive_ok F -> flat_reachable R F pw -> 0 <= v <= U64_MAX ->
  cli_price_redeem R F pw out amount v = Some r <-> exists f, flat_lp_fee F pw = Some f /\ r = v - up (v * f) 10000.
Proof.
  intros D HR Hv. unfold cli_price_redeem. split.
  - intros H. destruct (flat_process R F pw _ (PriceLpTokensToRedeem amount v)) as [(pw', q)|] eqn:E; [|discriminate H]. cbn [show] in H. subst q.
    apply C24_redeem in E as (_ & _ & _ & f & Hf & [= ->]); auto. eauto.
  - intros (f & Hf & ->).
    assert (E : flat_process R F pw [Client.ro out; Client.ro (ff_state F)] (PriceLpTokensToRedeem amount v) = Ok (pw, Some (v - up (v * f) 10000))).
    { apply C24_redeem; auto. split; [reflexivity|]. split; [cbn; lia|]. split; [reflexivity|]. eauto. }
    rewrite E. reflexivity.
Qed.

(* ------------------------------------------------------------------ *)
(** * The calculators' tool *)
Lemma calc_becomes_state cfg pw m s : calc_becomes cfg pw (put_acc pw (cc_state cfg) (mkPAcc (cc_id cfg) (PCalc m s))) (Some m) (Some s).
Proof.
  unfold calc_becomes, calc_manager, trusted_slot. rewrite PropCalc.pdata_put_same. repeat split. intros k Hk. now apply pw_acc_put_other.
Qed.
Lemma calc_state_is R cfg pw : calc_reachable R cfg pw ->
  (calc_manager cfg pw = None /\ trusted_slot cfg pw = None /\ pw_acc pw (cc_state cfg) = no_account) \/
  (exists m s, calc_manager cfg pw = Some m /\ trusted_slot cfg pw = Some s /\ pw_acc pw (cc_state cfg) = mkPAcc (cc_id cfg) (PCalc m s)).
Proof.
  intros H. unfold calc_manager, trusted_slot, pdata. destruct (C40_state_shape R cfg pw H) as [->|(m & s & ->)]; [left; repeat split; reflexivity|right].
  exists m, s. repeat split; reflexivity.
Qed.
Theorem C54_calc_goes_through R cfg loader_pda pw payer mgr c m' s' : calc_reachable R cfg pw ->
  calc_cmd_rule cfg loader_pda pw mgr c m' s' ->
  exists pw', calc_command R cfg loader_pda pw payer mgr c = Ok pw' /\ calc_becomes cfg pw pw' m' s'.
Proof.
  intros HR H. unfold calc_command. destruct (calc_state_is R cfg pw HR) as [(Hm & Hsl & Hs)|(m & s & Hm & Hsl & Hs)].
  - inversion H; subst; try congruence. cbn [calc_plan]. unfold known, powner, pdata. rewrite Hs. cbn [pa_owner pa_data no_account].
    replace (SYSTEM_PROGRAM_ID =? SYSTEM_PROGRAM_ID) with true by reflexivity. cbn [negb andb guard bind].
    eexists. split; [|apply calc_becomes_state]. unfold signed_by_both. cbn. rewrite !Z.eqb_refl. cbn.
    unfold process_calc_init. clean. unfold init_account, powner, pdata. cbn [Client.wr mk]. rewrite Hs. reflexivity.
  - assert (Hp : pdata pw (cc_state cfg) = PCalc m s) by (unfold pdata; now rewrite Hs).
    assert (Hpo : powner pw (cc_state cfg) = cc_id cfg) by (unfold powner; now rewrite Hs).
    assert (Ht : try_calculator_state pw (cc_state cfg) = Ok (m, s)) by (unfold try_calculator_state; now rewrite Hp).
    inversion H; subst; try congruence; (assert (m = mgr) by congruence); subst m;
      unfold calc_plan; rewrite Ht; cbn [bind fst guard]; rewrite Z.eqb_refl; cbn [guard bind]; clear H.
    + eexists. split; [|rewrite Hsl; apply calc_becomes_state].
      replace (signed_by_both payer mgr _) with true by (symmetry; both). cbn [guard calc_process]. unfold process_calc_set_manager. cbn [Client.ro Client.wr Client.sg mk].
      rewrite Z.eqb_refl. cbn [guard]. rewrite Ht. cbn [bind]. clean. unfold write_data. rewrite Hpo, Z.eqb_refl. reflexivity.
    + unfold read_stake_pool_progdata_meta. rewrite H2. cbn [bind]. eexists. split; [|apply calc_becomes_state].
      replace (signed_by_both payer mgr _) with true by (symmetry; both). cbn [guard calc_process]. unfold process_update_last_upgrade_slot. cbn [Client.ro Client.wr Client.sg mk].
      rewrite !Z.eqb_refl. cbn [guard]. rewrite Ht. cbn [bind]. unfold read_programdata_addr. rewrite H1. cbn [bind]. clean.
      unfold read_stake_pool_progdata_meta. rewrite H2. cbn [bind]. unfold write_data. rewrite Hpo, Z.eqb_refl. reflexivity.
Qed.
Theorem C54_calc_only R cfg loader_pda pw payer mgr c pw' : calc_reachable R cfg pw ->
  calc_command R cfg loader_pda pw payer mgr c = Ok pw' ->
  exists m' s', calc_cmd_rule cfg loader_pda pw mgr c m' s' /\ calc_becomes cfg pw pw' m' s'.
Proof.
  intros HR H.
  assert (G : forall m' s', calc_cmd_rule cfg loader_pda pw mgr c m' s' ->
    exists m' s', calc_cmd_rule cfg loader_pda pw mgr c m' s' /\ calc_becomes cfg pw pw' m' s').
  { intros m' s' G. exists m', s'. split; [exact G|]. destruct (C54_calc_goes_through R cfg loader_pda pw payer mgr c m' s' HR G) as (pw2 & H2 & B).
    rewrite H in H2. injection H2 as <-. exact B. }
  unfold calc_command in H. apply bind_ok in H as ((metas & ix) & Hp & H). apply guard_ok in H as (_ & H).
  apply bind_ok in H as ((pw1 & r) & H & [= <-]).
  destruct (calc_state_is R cfg pw HR) as [(Hm & Hl & Hs)|(m & f & Hm & Hl & Hs)].
  - destruct c; cbn [calc_plan] in Hp; unfold try_calculator_state, pdata in Hp; rewrite ?Hs in Hp; cbn [no_account pa_data bind] in Hp; try discriminate Hp.
    eapply G. now apply cc_does_init.
  - assert (Ht : try_calculator_state pw (cc_state cfg) = Ok (m, f)) by (unfold try_calculator_state, pdata; now rewrite Hs).
    destruct c; cbn [calc_plan] in Hp; rewrite ?Ht in Hp; cbn [bind fst snd] in Hp.
    + exfalso. apply guard_ok in Hp as (Hk & _). unfold known, pdata in Hk. rewrite Hs in Hk. cbn [pa_data] in Hk. rewrite andb_false_r in Hk. discriminate Hk.
    + apply bind_ok in Hp as (? & Hg & [= <- <-]); apply guard_ok in Hg as (Hg & _); apply Z.eqb_eq in Hg; subst m. eapply G. now apply cc_does_manager.
    + apply bind_ok in Hp as (? & Hg & Hp); apply guard_ok in Hg as (Hg & _); apply Z.eqb_eq in Hg; subst m.
      apply bind_ok in Hp as (sl0 & Hsl & [= <- <-]). cbn [calc_process] in H. apply bind_ok in H as (pw2 & H & [= <- <-]).
      assert (X : pool_program = cc_pool_program cfg /\ pdata pw pool_program = PProgram (loader_pda pool_program)).
      { unfold process_update_last_upgrade_slot in H. cbn [Client.ro Client.wr Client.sg mk] in H. apply guard_ok in H as (_ & H). apply guard_ok in H as (Hpp & H).
        apply Z.eqb_eq in Hpp. split; [exact Hpp|]. apply bind_ok in H as (st & _ & H). apply bind_ok in H as (pd & Hpd & H).
        unfold verify_keys_privs in H. apply guard_ok in H as (Hk & _). unfold read_programdata_addr in Hpd. destruct (pdata pw pool_program); try discriminate. injection Hpd as ->.
        unfold keys_match in Hk. cbn [Client.ro Client.wr Client.sg mk] in Hk. rewrite !andb_true_iff in Hk. destruct Hk as (_ & _ & _ & Hk & _). apply Z.eqb_eq in Hk. congruence. }
      destruct X as (-> & X). unfold read_stake_pool_progdata_meta in Hsl. destruct (pdata pw (loader_pda (cc_pool_program cfg))) eqn:Y; try discriminate.
      eapply G. eapply cc_does_slot; eauto.
Qed.

(* ------------------------------------------------------------------ *)
(** * Instances *)
Definition flat_did (pw : PWorld) (payer mgr : key) (c : FlatCmd) : option (option key * option Z * option (Z * Z) * option (Z * Z)) :=
  match flat_command ref_ratio_lib flat_cfg pw payer mgr c with
  | Ok pw' => Some (flat_manager flat_cfg pw', flat_lp_fee flat_cfg pw', lst_fees flat_cfg pw' 801, lst_fees flat_cfg pw' 802)
  | Err _ => None
  end.
Lemma fpw0_reach : flat_reachable ref_ratio_lib flat_cfg fpw0.
Proof.
  exists fpw0. split; [|constructor]. intros k Hk. unfold fpw0. cbn [pw_acc].
  assert (k <> 801 /\ k <> 802) as (H1 & H2).
  { destruct Hk as [->|(m & b & Hc)]; [split; discriminate|]. unfold flat_cfg in Hc. cbn [fd_create] in Hc.
    destruct ((0 <=? b) && (b <=? 255)) eqn:Hb; [|discriminate]. apply andb_true_iff in Hb as (Hb & _). apply Z.leb_le in Hb.
    assert (He : forall x y : Z, Some x = Some y -> x = y) by congruence. apply He in Hc. destruct (m <? 0); lia. }
  rewrite (proj2 (Z.eqb_neq _ _) H1), (proj2 (Z.eqb_neq _ _) H2). reflexivity.
Qed.
Example C54_flat_case :
  flat_did fpw0 600 600 FInit = Some (Some 703, Some 5, None, None) /\
  flat_did fpw3 600 703 FInit = None /\
  flat_did fpw3 600 703 (FSetManager 1) = Some (Some 1, Some 5, Some (100, 200), Some (-30, 50)) /\
  flat_did fpw3 703 703 (FSetLpFee 9999) = Some (Some 703, Some 9999, Some (100, 200), Some (-30, 50)) /\
  flat_did fpw3 703 703 (FSetLpFee 10001) = None /\
  flat_did fpw3 600 600 (FSetLpFee 9) = None /\
  flat_did fpw2 600 703 (FAddLst 802 7 8) = Some (Some 703, Some 5, Some (100, 200), Some (7, 8)) /\
  flat_did fpw3 600 703 (FAddLst 802 7 8) = None /\
  flat_did fpw3 600 703 (FAddLst 803 7 8) = None /\
  flat_did fpw3 600 703 (FRemoveLst 801 600) = Some (Some 703, Some 5, None, Some (-30, 50)) /\
  flat_did fpw3 600 703 (FSetLstFee 801 (-10000) 10000) = Some (Some 703, Some 5, Some (-10000, 10000), Some (-30, 50)) /\
  flat_did fpw2 600 703 (FSetLstFee 802 1 1) = None.
Proof. vm_compute. repeat split. Qed.
Lemma fpw3_accounts : program_accounts flat_cfg fpw3 [fee802; 702; fee801] /\ no_strays flat_cfg fpw3.
Proof.
  assert (H : forall k, powner fpw3 k = 700 -> k = fee802 \/ k = 702 \/ k = fee801).
  { intros k. unfold fpw3, fpw2, fpw1, powner, put_acc, upd. cbn [pw_acc].
    destruct (Z.eqb_spec k fee802); [auto|]. destruct (Z.eqb_spec k fee801); [auto|]. destruct (Z.eqb_spec k 702); [auto|].
    unfold fpw0. cbn [pw_acc]. destruct (k =? 801); [discriminate|]. destruct (k =? 802); discriminate. }
  split; [split|].
  - repeat constructor; cbn; unfold fee801, fee802; cbn; intuition discriminate.
  - intros k. split; [|intros Hk; destruct (H k Hk) as [->|[->| ->]]; cbn; auto].
    intros [<-|[<-|[<-|[]]]]; vm_compute; reflexivity.
  - intros k Hk. destruct (H k Hk) as [->|[->| ->]]; [right; exists 802, 255; reflexivity|left; reflexivity|right; exists 801, 255; reflexivity].
Qed.
Definition flat_batched (i o : Z) : option (nat * option (Z * Z) * option (Z * Z)) :=
  match batch_set_fees flat_cfg fpw3 [fee802; 702; fee801] i o with
  | Ok ixs => match flat_run ref_ratio_lib flat_cfg fpw3 ixs with
              | Ok pw' => Some (length ixs, lst_fees flat_cfg pw' 801, lst_fees flat_cfg pw' 802) | Err _ => None end
  | Err _ => None
  end.
Example C54_batch_case :
  flat_reachable ref_ratio_lib flat_cfg fpw3 /\ flat_manager flat_cfg fpw3 = Some 703 /\
  flat_batched 6 7 = Some (2%nat, Some (6, 7), Some (6, 7)) /\ flat_batched (-30) 50 = Some (1%nat, Some (-30, 50), Some (-30, 50)) /\
  flat_batched 10001 0 = None.
Proof. split; [exact C24_case_reachable|]. vm_compute. repeat split. Qed.
Example C54_block_case : ~ flat_pda flat_cfg 999.
Proof.
  intros [H|(m & b & H)]; [discriminate H|]. unfold flat_cfg in H. cbn [fd_create] in H.
  destruct ((0 <=? b) && (b <=? 255)) eqn:Hb; [|discriminate]. apply andb_true_iff in Hb as (Hb & _). apply Z.leb_le in Hb.
  assert (He : forall x y : Z, Some x = Some y -> x = y) by congruence. apply He in H. destruct (m <? 0); lia.
Qed.
Example C54_price_case : cli_price_exact_in ref_ratio_lib flat_cfg fpw3 801 802 1 1000000 = Some 985000 /\
  cli_price_redeem ref_ratio_lib flat_cfg fpw3 801 1 1000000 = Some 999500.
Proof. vm_compute. repeat split. Qed.

Definition calc_did (pw : PWorld) (payer mgr : key) (c : CalcCmd) : option (option key * option Z) :=
  match calc_command ref_ratio_lib spl_cfg (fun _ => 511) pw payer mgr c with
  | Ok pw' => Some (calc_manager spl_cfg pw', trusted_slot spl_cfg pw') | Err _ => None end.
Example C54_calc_case :
  calc_reachable ref_ratio_lib spl_cfg pw_trusted /\
  calc_did pw_before 600 600 CCInit = Some (Some 503, Some 0) /\
  calc_did pw_trusted 600 600 CCInit = None /\
  calc_did pw_trusted 600 503 (CCSetManager 9) = Some (Some 9, Some 40) /\
  calc_did pw_trusted 600 600 (CCSetManager 9) = None /\
  calc_did pw_upgraded 503 503 (CCUpdateSlot 510) = Some (Some 503, Some 90) /\
  calc_did pw_upgraded 503 503 (CCUpdateSlot 512) = None.
Proof. split; [exact C23_case_reachable|]. vm_compute. repeat split. Qed.
