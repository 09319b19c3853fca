(** C52: the sync and sync-all commands of the operator's command line tool. *)
From Coq Require Import ZArith List Bool Lia.
From Verif Require Import Base Ratio Calc State Controller Inversion ProcInv Spec CalcProofs InvProofs TokProofs
  AccessProofs ShapeProofs MoneyProofs PropState Serde Periph Client ClientSpec ClientProofs PropClient PropSync Deploy Known Jup
  Cli CliSync.
Import ListNotations.
Open Scope Z_scope.

(* ------------------------------------------------------------------ *)
(** * Specification *)

(** In state [w] the calculator of the entry [ls], called with [metas] (the mint first), says that the pool's reserves of
    that LST are worth [v]. *)
Definition told (D : Derive) (E : Env) (w : World) (metas : list Meta) (ls : LstState) (v : Z) : Prop :=
  exists r hi, PropSync.reserves_of D w ls r /\
    e_lst_to_sol E w (sol_value_calculator ls) (ls_mint ls) (skipn 1 metas) (balance w r) = Ok (v, hi).

(** The accounts the tool passes to the calculator of an LST: those of the entry of its file. *)
Definition file_accounts (dp : Deploy) (lsts : list SanctumLst) (m : key) : option (list Meta) :=
  match find (fun s => sl_mint s =? m) lsts with Some s => calc_accounts_of dp s | None => None end.
Definition on_file (lsts : list SanctumLst) (m : key) : Prop := exists s, In s lsts /\ sl_mint s = m.

(** Every listed LST of the file is recorded at what its calculator says of the reserves, the others as before; the
    total is the sum; nothing else changed. *)
Record all_in_sync (dp : Deploy) (D : Derive) (E : Env) (lsts : list SanctumLst) (w w' : World)
  (l : list LstState) (ps : PoolState) : Prop := {
  as_pool : exists l', the_list w' = Some l' /\ the_pool w' = Some (set_total ps (sumZ (map sol_value l'))) /\
    length l' = length l /\
    forall n ls, nth_error l n = Some ls -> exists v, nth_error l' n = Some (set_sol_value ls v) /\
      (~ on_file lsts (ls_mint ls) -> v = sol_value ls) /\
      (on_file lsts (ls_mint ls) -> exists metas, file_accounts dp lsts (ls_mint ls) = Some metas /\ told D E w metas ls v);
  as_rest : w_tok w' = w_tok w /\ w_mint w' = w_mint w /\ w_owner w' = w_owner w /\ w_exec w' = w_exec w /\
    w_auth w' = w_auth w /\ w_rec w' = w_rec w;
  as_reach : reachable D w' }.

(** No LST of the file is worth less than recorded. *)
Definition none_fell (dp : Deploy) (D : Derive) (E : Env) (lsts : list SanctumLst) (w : World) (l : list LstState) : Prop :=
  forall ls metas v, In ls l -> file_accounts dp lsts (ls_mint ls) = Some metas -> told D E w metas ls v -> sol_value ls <= v.

(* ------------------------------------------------------------------ *)
(** * Proofs *)

Lemma pool_eqb_iff a b : pool_eqb a b = true <-> a = b.
Proof.
  unfold pool_eqb. rewrite !andb_true_iff, !Z.eqb_eq. destruct a, b; cbn. split.
  - intros ((((((((((-> & ->) & ->) & ->) & ->) & ->) & ->) & ->) & ->) & ->) & ->). reflexivity.
  - intros [= -> -> -> -> -> -> -> -> -> -> ->]. repeat split.
Qed.
Lemma set_total_same ps : set_total ps (total_sol_value ps) = ps.
Proof. destruct ps; reflexivity. Qed.

Section Runs.
Context (dp : Deploy) (D : Derive) (E : Env).
Hypothesis HD : derive_ok D.
Hypothesis HE : reads_no_controller_accounts E.
Context (w0 : World) (l0 : list LstState) (ps0 : PoolState) (accs : key -> option (list Meta)).
Hypothesis Hr0 : reachable D w0.
Hypothesis Hl0 : the_list w0 = Some l0.
Hypothesis Hp0 : the_pool w0 = Some ps0.
Hypothesis Hsg : forall m ms, accs m = Some ms -> Forall (fun a => is_signer a = false) ms.

Notation ans ls v := (exists metas, accs (ls_mint ls) = Some metas /\ told D E w0 metas ls v).

Record state (done : list key) (w : World) : Prop := {
  st_reach : reachable D w;
  st_rest : w_tok w = w_tok w0 /\ w_mint w = w_mint w0 /\ w_owner w = w_owner w0 /\ w_exec w = w_exec w0 /\
            w_auth w = w_auth w0 /\ w_rec w = w_rec w0;
  st_list : exists l, the_list w = Some l /\ the_pool w = Some (set_total ps0 (sumZ (map sol_value l))) /\ length l = length l0 /\
    forall n ls, nth_error l0 n = Some ls -> exists v, nth_error l n = Some (set_sol_value ls v) /\
      (v = sol_value ls \/ (In (ls_mint ls) done /\ ans ls v)) /\ (In (ls_mint ls) done -> ans ls v) }.

Lemma pool_sum w l ps : reachable D w -> the_list w = Some l -> the_pool w = Some ps -> total_sol_value ps = sumZ (map sol_value l).
Proof.
  intros Hr Hl Hp. destruct (C01_total_is_sum D w HD Hr) as (l' & Hl' & _ & Hs). rewrite Hl in Hl'. injection Hl' as <-. auto.
Qed.

Lemma state_init : state [] w0.
Proof.
  constructor; auto; [repeat split|]. exists l0. split; [exact Hl0|]. split.
  - rewrite <- (pool_sum w0 l0 ps0 Hr0 Hl0 Hp0), set_total_same. exact Hp0.
  - split; [reflexivity|]. intros n ls Hn. exists (sol_value ls). split; [destruct ls; exact Hn|]. split; [auto|intros []].
Qed.

Lemma ans_fun ls v v' : ans ls v -> ans ls v' -> v = v'.
Proof.
  intros (m & A & r & hi & R & Q) (m' & A' & r' & hi' & R' & Q'). assert (m' = m) by congruence. subst m'.
  unfold PropSync.reserves_of in *. assert (r' = r) by congruence. subst r'. congruence.
Qed.
Lemma mints_nodup n n' ls ls' : nth_error l0 n = Some ls -> nth_error l0 n' = Some ls' -> ls_mint ls = ls_mint ls' -> n = n'.
Proof.
  intros Hn Hn' He. destruct (proj1 (reachable_inv D HD w0 Hr0)) as (lq & au & Hlq & _ & Hnd & _). rewrite Hl0 in Hlq. injection Hlq as <-.
  rewrite NoDup_nth_error in Hnd. apply Hnd.
  - rewrite map_length. apply nth_error_Some. congruence.
  - rewrite (map_nth_error ls_mint _ _ Hn), (map_nth_error ls_mint _ _ Hn'). congruence.
Qed.

Lemma ix_shape m tp ms t : sync_ix D l0 m tp ms = Ok t -> exists i ls r,
  nth_error l0 (Z.to_nat i) = Some ls /\ ls_mint ls = m /\ u32b i = true /\
  t = built ([ro m; wr POOL_STATE_ID; wr LST_STATE_LIST_ID; ro r] ++ ro (sol_value_calculator ls) :: skipn 1 ms) (SyncSolValue i).
Proof.
  unfold sync_ix, client_sync. intros H. apply bind_ok in H as (l & Hl & H). unfold try_lst_state_list, sync_view in Hl. cbn [w_list] in Hl.
  rewrite upd_same in Hl. injection Hl as <-. apply bind_ok in H as ((i & ls) & Hf & H). apply bind_ok in H as (r & _ & H).
  apply bind_ok in H as (i' & Hi & H). unfold index_to_u32 in Hi. apply guard_ok in Hi as (Hi & [= <-]).
  apply bind_ok in H as ((g & k) & Hg & H). unfold extend_with_calc in Hg. apply guard_ok in Hg as (_ & [= <- <-]). injection H as <-.
  apply find_lst_spec in Hf. rewrite Z.sub_0_r in Hf. exists i, ls, r. intuition.
Qed.

Lemma step_sync done w m tp ms t C w1 : state done w -> accs m = Some ms -> sync_ix D l0 m tp ms = Ok t ->
  run D E C w t = Ok w1 -> state (m :: done) w1.
Proof.
  intros St Ha Ht Hrun. destruct (ix_shape m tp ms t Ht) as (i & ls & r & Hn & Hm & Hi & ->).
  assert (Hsig : pdas_do_not_sign (ti_accs (built ([ro m; wr POOL_STATE_ID; wr LST_STATE_LIST_ID; ro r] ++
      ro (sol_value_calculator ls) :: skipn 1 ms) (SyncSolValue i)))).
  { intros a Hin Hs. exfalso. cbn [built ti_accs app] in Hin. cbn [In] in Hin.
    destruct Hin as [<-|[<-|[<-|[<-|[<-|Hin]]]]]; try discriminate Hs.
    assert (In a ms) by (destruct ms; [exact Hin|right; exact Hin]).
    specialize (Hsg m ms Ha). rewrite Forall_forall in Hsg. rewrite Hsg in Hs by assumption. discriminate. }
  rewrite run_built in Hrun by (cbn [ix_wfb]; exact Hi).
  destruct St as [Hr (T1 & T2 & T3 & T4 & T5 & T6) (l & Hl & Hp & Hlen & Hent)].
  pose proof (reach_sync D E C w _ i w1 Hr Hsig Hrun) as Hr1.
  destruct (sync_case_of D E C w _ i w1 Hrun) as (ps & l' & lsw & rw' & more & v & hi & Sc & _).
  destruct (C47_effect D HD E C w _ i w1 ps l' lsw rw' more v hi Hr Hrun Sc) as (P1 & L1 & _ & _ & EA & ER & ET & EM & EO & EX).
  pose proof (sc_list _ _ _ _ _ _ _ _ _ _ _ _ Sc) as Hl'. rewrite Hl in Hl'. injection Hl' as <-.
  pose proof (sc_entry _ _ _ _ _ _ _ _ _ _ _ _ Sc) as Hlw.
  destruct (Hent _ _ Hn) as (v0 & Hv0 & _). rewrite Hv0 in Hlw. injection Hlw as <-.
  pose proof (sc_accounts _ _ _ _ _ _ _ _ _ _ _ _ Sc) as (a1 & a2 & a3 & a4 & a5 & Hacc & _).
  cbn [app] in Hacc. injection Hacc as <- <- <- <- <- <-.
  assert (Hans : ans ls v).
  { exists ms. rewrite Hm. split; [exact Ha|]. exists rw', hi. pose proof (sc_reserves _ _ _ _ _ _ _ _ _ _ _ _ Sc) as Rs.
    unfold PropSync.reserves_of in *. cbn [ls_mint pool_reserves_bump set_sol_value] in Rs. rewrite T3 in Rs. split; [exact Rs|].
    pose proof (sc_answer _ _ _ _ _ _ _ _ _ _ _ _ Sc) as An. cbn [ls_mint sol_value_calculator set_sol_value] in An.
    rewrite (HE w0 w T1 T2 T3 T4) in An. unfold balance in *. rewrite T1 in An. exact An. }
  constructor; [exact Hr1|repeat split; congruence|].
  exists (replace_nth l (Z.to_nat i) (set_sol_value (set_sol_value ls v0) v)). split; [exact L1|]. split.
  { rewrite <- (pool_sum w1 _ _ Hr1 L1 P1). rewrite P1. pose proof (sc_pool _ _ _ _ _ _ _ _ _ _ _ _ Sc) as Hp'. rewrite Hp in Hp'.
    injection Hp' as <-. reflexivity. }
  split; [rewrite replace_nth_length; exact Hlen|].
  intros n x Hx. destruct (Nat.eq_dec n (Z.to_nat i)) as [->|Hne].
  - assert (x = ls) by congruence. subst x. exists v. split; [erewrite nth_error_replace_same by exact Hv0; destruct ls; reflexivity|].
    split; [right; split; [left; auto|exact Hans]|intros _; exact Hans].
  - destruct (Hent n x Hx) as (vx & Hvx & Hor & Hin). exists vx. split; [rewrite nth_error_replace_other by auto; exact Hvx|].
    split; [destruct Hor as [Hor|(Hor & Hor')]; [left; exact Hor|right; split; [right; exact Hor|exact Hor']]|].
    intros [Hmm|Hd]; [|auto]. exfalso. apply Hne. eapply mints_nodup; eauto. congruence.
Qed.

Lemma skip_ok ms done w w1 : state done w -> state (ms ++ done) w1 -> the_pool w1 = Some ps0 ->
  (forall ls v, In ls l0 -> ans ls v -> sol_value ls <= v) -> state (ms ++ done) w.
Proof.
  intros St St1 Hpool Hup. destruct St as [Hr Hrest (l & Hl & Hp & Hlen & Hent)].
  destruct St1 as [Hr1 _ (l1 & Hl1 & Hp1 & Hlen1 & Hent1)].
  assert (Hsum : sumZ (map sol_value l1) = sumZ (map sol_value l0)).
  { rewrite <- (pool_sum w0 l0 ps0 Hr0 Hl0 Hp0). rewrite Hpool in Hp1. injection Hp1 as Hp1. rewrite Hp1. destruct ps0; reflexivity. }
  assert (Heq : forall n ls v, nth_error l0 n = Some ls -> nth_error l1 n = Some (set_sol_value ls v) -> v = sol_value ls).
  { assert (Hge : forall n ls v, nth_error l0 n = Some ls -> nth_error l1 n = Some (set_sol_value ls v) -> sol_value ls <= v).
    { intros n ls v Hn Hv. destruct (Hent1 n ls Hn) as (v' & Hv' & Hor & _). rewrite Hv in Hv'. injection Hv' as <-.
      destruct Hor as [->|(_ & Ha)]; [lia|]. eapply Hup; [eapply nth_error_In, Hn|exact Ha]. }
    assert (Hshape : forall n ls, nth_error l0 n = Some ls -> exists v, nth_error l1 n = Some (set_sol_value ls v)).
    { intros n ls Hn. destruct (Hent1 n ls Hn) as (v & Hv & _). eauto. }
    clear -Hsum Hge Hshape Hlen1. revert l1 Hsum Hge Hshape Hlen1. induction l0 as [|a l IH]; intros [|b l1] Hsum Hge Hshape Hlen n ls v Hn Hv; try discriminate.
    - destruct n; discriminate.
    - cbn [map sumZ] in Hsum.
      assert (Hb : exists vb, b = set_sol_value a vb /\ sol_value a <= vb).
      { destruct (Hshape 0%nat a eq_refl) as (vb & Hvb). injection Hvb as Hvb. exists vb. split; [exact Hvb|].
        apply (Hge 0%nat a vb eq_refl). cbn. congruence. }
      destruct Hb as (vb & -> & Hvb).
      assert (Htl : sumZ (map sol_value l) <= sumZ (map sol_value l1)).
      { assert (Hg' : forall n ls v, nth_error l n = Some ls -> nth_error l1 n = Some (set_sol_value ls v) -> sol_value ls <= v) by (intros n' ls' v' A B; exact (Hge (S n') ls' v' A B)).
        assert (Hs' : forall n ls, nth_error l n = Some ls -> exists v, nth_error l1 n = Some (set_sol_value ls v)) by (intros n' ls' A; exact (Hshape (S n') ls' A)).
        injection Hlen as Hlen. clear -Hg' Hs' Hlen. revert l1 Hg' Hs' Hlen. induction l as [|c l IH]; intros [|d l1] Hg Hs Hlen; try discriminate.
        cbn [map sumZ]. destruct (Hs 0%nat c eq_refl) as (vd & Hvd). injection Hvd as ->. pose proof (Hg 0%nat c vd eq_refl eq_refl) as Hc.
        cbn [sol_value set_sol_value]. injection Hlen as Hlen.
        assert (sumZ (map sol_value l) <= sumZ (map sol_value l1)); [|lia].
        apply IH; [intros n; exact (Hg (S n))|intros n; exact (Hs (S n))|exact Hlen]. }
      cbn [sol_value set_sol_value] in Hsum. assert (vb = sol_value a) by lia. subst vb.
      destruct n as [|n].
      + cbn in Hn, Hv. injection Hn as <-. injection Hv as Hv. symmetry. exact Hv.
      + injection Hlen as Hlen. assert (Hs2 : sumZ (map sol_value l1) = sumZ (map sol_value l)) by lia.
        exact (IH l1 Hs2 (fun n' => Hge (S n')) (fun n' => Hshape (S n')) Hlen n ls v Hn Hv). }
  constructor; [exact Hr|exact Hrest|]. exists l. split; [exact Hl|]. split; [exact Hp|]. split; [exact Hlen|].
  intros n ls Hn. destruct (Hent n ls Hn) as (v & Hv & Hor & Hd). exists v. split; [exact Hv|].
  split. { destruct Hor as [Hor|(Hor & Ha)]; [left; exact Hor|]. right. split; [apply in_or_app; right; exact Hor|exact Ha]. }
  intros Hin. destruct (Hent1 n ls Hn) as (v1 & Hv1 & _ & Hd1). specialize (Hd1 Hin). pose proof (Heq n ls v1 Hn Hv1) as ->.
  destruct Hor as [->|(_ & Ha)]; [exact Hd1|exact Ha].
Qed.

Lemma sub_done done done' w : state done w -> (forall m, In m done' -> In m done) -> (forall m, In m done -> In m done') -> state done' w.
Proof.
  intros [A B (l & C1 & C2 & C3 & C4)] H H'. constructor; auto. exists l. split; [exact C1|]. split; [exact C2|]. split; [exact C3|].
  intros n ls Hn. destruct (C4 n ls Hn) as (v & F1 & F2 & F3). exists v. split; [exact F1|]. split; [|auto].
  destruct F2 as [F2|(F2 & F2')]; auto.
Qed.

End Runs.

(* ------------------------------------------------------------------ *)
(** * Transactions of the tool *)
Lemma file_signs dp lsts m ms : file_accounts dp lsts m = Some ms -> Forall (fun a => is_signer a = false) ms.
Proof.
  unfold file_accounts. destruct (find _ lsts) as [s|]; [|discriminate]. unfold calc_accounts_of.
  destruct (sl_pool s) as [| | |wh pool|]; [| | |destruct wh|]; intros H; try discriminate H; injection H as <-;
    unfold common_metas; repeat constructor.
Qed.
Lemma found lsts m s : find (fun s => sl_mint s =? m) lsts = Some s -> sl_mint s = m /\ In s lsts.
Proof. intros H. apply find_some in H as (Hi & He). apply Z.eqb_eq in He. auto. Qed.

Section Tool.
Context (dp : Deploy) (D : Derive) (E : Env) (lsts : list SanctumLst).
Hypothesis HD : derive_ok D.
Hypothesis HE : reads_no_controller_accounts E.
Context (w0 : World) (l0 : list LstState) (ps0 : PoolState).
Hypothesis Hr0 : reachable D w0.
Hypothesis Hl0 : the_list w0 = Some l0.
Hypothesis Hp0 : the_pool w0 = Some ps0.
Notation accs := (file_accounts dp lsts).
Notation st := (state D E w0 l0 ps0 accs).
Definition of_file (s : SanctumLst) : Prop := find (fun x => sl_mint x =? sl_mint s) lsts = Some s.

Lemma tx_state c : Forall of_file c -> forall all n ts done w w1, sync_ixs dp D l0 c = Ok ts -> st done w ->
  run_from D E all n ts w = Ok w1 -> st (map sl_mint c ++ done) w1.
Proof.
  induction 1 as [|s c Hs Hc IH]; intros all n ts done w w1 Hts St Hrun.
  - injection Hts as <-. injection Hrun as <-. exact St.
  - cbn [sync_ixs] in Hts. apply bind_ok in Hts as (ms & Hms & Hts). apply of_option_ok in Hms. apply bind_ok in Hts as (t & Ht & Hts).
    apply bind_ok in Hts as (ts' & Hts' & [= <-]). cbn [run_from] in Hrun. apply bind_ok in Hrun as (w' & Hw' & Hrun).
    assert (Ha : accs (sl_mint s) = Some ms) by (unfold file_accounts; rewrite Hs; exact Hms).
    pose proof (step_sync D E HD HE w0 l0 ps0 accs Hr0 Hl0 (file_signs dp lsts) done w _ _ _ _ _ _ St Ha Ht Hw') as St'.
    pose proof (IH all (S n) ts' (sl_mint s :: done) w' w1 Hts' St' Hrun) as St1.
    eapply sub_done; [exact St1| |]; intros m; cbn [map app In]; rewrite !in_app_iff; cbn [In]; tauto.
Qed.

Lemma send_state force c ts done w w1 : Forall of_file c -> sync_ixs dp D l0 c = Ok ts -> st done w ->
  send_syncs D E force ps0 w ts = Ok w1 -> (force = true \/ none_fell dp D E lsts w0 l0) ->
  st (map sl_mint c ++ done) w1.
Proof.
  intros Hc Hts St Hs Hf. unfold send_syncs in Hs. apply bind_ok in Hs as (b & Hb & Hs). destruct b.
  - eapply tx_state; [exact Hc|exact Hts|exact St|exact Hs].
  - injection Hs as <-. destruct force; [discriminate|]. destruct Hf as [Hf|Hf]; [discriminate|].
    unfold does_tx_modify_pool_state in Hb. apply bind_ok in Hb as (w2 & H2 & Hb). apply bind_ok in Hb as (a & Ha & Hb).
    apply of_option_ok in Ha. injection Hb as Hb. apply negb_false_iff, pool_eqb_iff in Hb. subst a.
    eapply skip_ok; [exact HD|exact Hr0|exact Hl0|exact Hp0|exact St|eapply tx_state; [exact Hc|exact Hts|exact St|exact H2]|exact Ha|].
    intros ls v Hin (ms & Hms & Ht). eapply Hf; eauto.
Qed.

Lemma chunks_concat {A} fuel n (l : list A) : (length l <= fuel)%nat -> (0 < n)%nat -> concat (chunks fuel n l) = l.
Proof.
  revert l. induction fuel as [|f IH]; intros [|a l] Hl Hn; try reflexivity; [cbn in Hl; lia|].
  cbn [chunks concat]. rewrite IH; [apply firstn_skipn| |exact Hn]. rewrite skipn_length. cbn [length] in *. lia.
Qed.

Lemma send_chunks_state force cs : forall done w w1, Forall (Forall of_file) cs -> st done w ->
  send_chunks dp D E force l0 ps0 cs w = Ok w1 -> (force = true \/ none_fell dp D E lsts w0 l0) ->
  exists done', st done' w1 /\ (forall m, In m done' <-> In m (map sl_mint (concat cs)) \/ In m done).
Proof.
  induction cs as [|c cs IH]; intros done w w1 Hc St Hs Hf; cbn [send_chunks] in Hs.
  - injection Hs as <-. exists done. split; [exact St|]. cbn. tauto.
  - apply bind_ok in Hs as (ts & Hts & Hs). apply bind_ok in Hs as (w' & Hw' & Hs). inversion_clear Hc.
    pose proof (send_state force c ts done w w' H Hts St Hw' Hf) as St'.
    destruct (IH _ w' w1 H0 St' Hs Hf) as (done' & St1 & Hd). exists done'. split; [exact St1|].
    intros m. rewrite Hd. cbn [concat]. rewrite map_app, !in_app_iff. tauto.
Qed.

Lemma known_of_file : Forall of_file (known_listed lsts l0) /\
  forall ls, In ls l0 -> (on_file lsts (ls_mint ls) <-> In (ls_mint ls) (map sl_mint (known_listed lsts l0))).
Proof.
  unfold known_listed. split.
  - apply Forall_forall. intros s Hs. apply in_flat_map in Hs as (ls & _ & Hs). unfold find_sanctum_lst_by_mint in Hs.
    destruct (find _ lsts) as [s'|] eqn:Hf; [|destruct Hs]. destruct Hs as [<-|[]]. unfold of_file. destruct (found _ _ _ Hf) as (-> & _). exact Hf.
  - intros ls Hin. split.
    + intros (s & Hs & Hm). destruct (find (fun s => sl_mint s =? ls_mint ls) lsts) as [s'|] eqn:Hf.
      * apply in_map_iff. exists s'. destruct (found _ _ _ Hf) as (He & _). split; [exact He|]. apply in_flat_map. exists ls. split; [exact Hin|].
        unfold find_sanctum_lst_by_mint. rewrite Hf. left. reflexivity.
      * apply find_none with (x := s) in Hf; [|exact Hs]. rewrite Hm, Z.eqb_refl in Hf. discriminate.
    + intros H. apply in_map_iff in H as (s & Hm & Hs). apply in_flat_map in Hs as (ls' & _ & Hs). unfold find_sanctum_lst_by_mint in Hs.
      destruct (find _ lsts) as [s'|] eqn:Hf; [|destruct Hs]. destruct Hs as [<-|[]]. exists s'. split; [apply (found _ _ _ Hf)|exact Hm].
Qed.

Lemma sync_all_core force w1 : sync_all_cmd dp D E force lsts l0 ps0 w0 = Ok w1 ->
  (force = true \/ none_fell dp D E lsts w0 l0) -> all_in_sync dp D E lsts w0 w1 l0 ps0.
Proof.
  intros H Hf. unfold sync_all_cmd in H. destruct known_of_file as (K1 & K2).
  assert (Hcc : concat (chunks (length (known_listed lsts l0)) MAX_SYNCS_PER_TX (known_listed lsts l0)) = known_listed lsts l0)
    by (apply chunks_concat; [lia|unfold MAX_SYNCS_PER_TX; lia]).
  assert (Hch : Forall (Forall of_file) (chunks (length (known_listed lsts l0)) MAX_SYNCS_PER_TX (known_listed lsts l0))).
  { apply Forall_forall. intros c Hc. apply Forall_forall. intros s Hs. rewrite Forall_forall in K1. apply K1. rewrite <- Hcc.
    apply in_concat. eauto. }
  destruct (send_chunks_state force _ [] w0 w1 Hch (state_init D E HD w0 l0 ps0 accs Hr0 Hl0 Hp0) H Hf) as (done & [S1 S2 (l & Hl & Hp & Hlen & He)] & Hd).
  rewrite Hcc in Hd. constructor; [|exact S2|exact S1]. exists l. split; [exact Hl|]. split; [exact Hp|]. split; [exact Hlen|].
  intros n ls Hn. destruct (He n ls Hn) as (v & Hv & Hor & Hin). exists v. split; [exact Hv|].
  pose proof (K2 ls (nth_error_In _ _ Hn)) as Hk. split.
  - intros Hno. destruct Hor as [Hor|(Hor & _)]; [exact Hor|]. exfalso. apply Hd in Hor as [Hor|[]]. tauto.
  - intros Hon. apply Hin, Hd. left. tauto.
Qed.
End Tool.

(* ------------------------------------------------------------------ *)
(** * The commands *)

(** sync-all --force: when the command ends normally, every LST of the file that the pool lists is recorded at what its
    calculator says, whatever was recorded before and however many there are. *)
Theorem C52_all_forced dp D E lsts w l ps w' : derive_ok D -> reads_no_controller_accounts E -> reachable D w ->
  the_list w = Some l -> the_pool w = Some ps ->
  sync_all_cmd dp D E true lsts l ps w = Ok w' -> all_in_sync dp D E lsts w w' l ps.
Proof. intros HD HE Hr Hl Hp H. eapply sync_all_core; eauto. Qed.

(** sync-all without --force: the same, if none of them is worth less than recorded. *)
Theorem C52_all dp D E lsts w l ps w' : derive_ok D -> reads_no_controller_accounts E -> reachable D w ->
  the_list w = Some l -> the_pool w = Some ps -> none_fell dp D E lsts w l ->
  sync_all_cmd dp D E false lsts l ps w = Ok w' -> all_in_sync dp D E lsts w w' l ps.
Proof. intros HD HE Hr Hl Hp Hn H. eapply sync_all_core; eauto. Qed.

(** sync, of one LST, whether of the file or not: with and without --force, the entry ends up recorded at what its
    calculator says; without, nothing is sent exactly when it already is. *)
Theorem C52_sync D E w l ps mint token_program metas force w' : derive_ok D -> reads_no_controller_accounts E -> reachable D w ->
  the_list w = Some l -> the_pool w = Some ps -> Forall (fun a => is_signer a = false) metas ->
  sync_cmd D E force l ps w mint token_program metas = Ok w' ->
  exists n ls v, nth_error l n = Some ls /\ ls_mint ls = mint /\ told D E w metas ls v /\
    the_list w' = Some (replace_nth l n (set_sol_value ls v)) /\
    the_pool w' = Some (set_total ps (total_sol_value ps - sol_value ls + v)) /\
    w_tok w' = w_tok w /\ w_mint w' = w_mint w /\ w_auth w' = w_auth w /\ w_rec w' = w_rec w /\
    (force = false ->
      exists t, sync_ix D l mint token_program metas = Ok t /\
      (does_tx_modify_pool_state D E w [t] ps = Ok false <-> v = sol_value ls)).
Proof.
  intros HD HE Hr Hl Hp Hsg H. unfold sync_cmd in H. apply bind_ok in H as (t & Ht & H).
  set (accs := fun _ : key => Some metas).
  assert (Hacc : forall m ms, accs m = Some ms -> Forall (fun a => is_signer a = false) ms) by (intros m ms [= <-]; exact Hsg).
  destruct (ix_shape D l mint token_program metas t Ht) as (i & ls & r & Hn & Hm & Hi & Et).
  assert (Hsim : exists w1, run_tx D E w [t] = Ok w1 /\ (w' = w1 \/ (force = false /\ w' = w /\ does_tx_modify_pool_state D E w [t] ps = Ok false))).
  { unfold send_syncs in H. apply bind_ok in H as (b & Hb & H). destruct force.
    - injection Hb as <-. eauto.
    - pose proof Hb as Hb0. unfold does_tx_modify_pool_state in Hb. apply bind_ok in Hb as (w1 & H1 & Hb). exists w1. split; [exact H1|].
      destruct b; [left; congruence|right]. injection H as <-. auto. }
  destruct Hsim as (w1 & H1 & Hcase).
  unfold run_tx in H1. cbn [run_from] in H1. apply bind_ok in H1 as (w1' & H1 & [= ->]).
  pose proof (step_sync D E HD HE w l ps accs Hr Hl Hacc [] w mint token_program metas t _ w1
    (state_init D E HD w l ps accs Hr Hl Hp) eq_refl Ht H1) as St.
  pose proof H1 as H1o.
  rewrite Et in H1 at 2. rewrite run_built in H1 by (cbn [ix_wfb]; exact Hi).
  destruct (sync_case_of D E _ w _ i w1 H1) as (ps' & l' & lsw & rw' & more & v & hi & Sc & _).
  destruct (C47_effect D HD E _ w _ i w1 ps' l' lsw rw' more v hi Hr H1 Sc) as (P1 & L1 & _ & _ & EA & ER & ET & EM & EO & EX).
  pose proof (sc_list _ _ _ _ _ _ _ _ _ _ _ _ Sc) as Hl'. rewrite Hl in Hl'. injection Hl' as <-.
  pose proof (sc_pool _ _ _ _ _ _ _ _ _ _ _ _ Sc) as Hp'. rewrite Hp in Hp'. injection Hp' as <-.
  pose proof (sc_entry _ _ _ _ _ _ _ _ _ _ _ _ Sc) as Hlw. rewrite Hn in Hlw. injection Hlw as <-.
  pose proof (sc_accounts _ _ _ _ _ _ _ _ _ _ _ _ Sc) as (a1 & a2 & a3 & a4 & a5 & Hac & _).
  cbn [app] in Hac. injection Hac as <- <- <- <- <- <-.
  assert (Hmod : does_tx_modify_pool_state D E w [t] ps = Ok (negb (pool_eqb (set_total ps (total_sol_value ps - sol_value ls + v)) ps))).
  { unfold does_tx_modify_pool_state, run_tx. cbn [run_from]. rewrite H1o. cbn [bind]. unfold the_pool in P1. rewrite P1. reflexivity. }
  assert (Hiff : does_tx_modify_pool_state D E w [t] ps = Ok false <-> v = sol_value ls).
  { rewrite Hmod. split.
    - intros [= Hx]. apply negb_false_iff, pool_eqb_iff in Hx. apply (f_equal total_sol_value) in Hx. cbn in Hx. lia.
    - intros ->. f_equal. apply negb_false_iff, pool_eqb_iff. replace (total_sol_value ps - sol_value ls + sol_value ls) with (total_sol_value ps) by lia.
      apply set_total_same. }
  exists (Z.to_nat i), ls, v. split; [exact Hn|]. split; [exact Hm|].
  split. { exists rw', hi. split; [exact (sc_reserves _ _ _ _ _ _ _ _ _ _ _ _ Sc)|exact (sc_answer _ _ _ _ _ _ _ _ _ _ _ _ Sc)]. }
  assert (Hw : the_list w' = Some (replace_nth l (Z.to_nat i) (set_sol_value ls v)) /\
    the_pool w' = Some (set_total ps (total_sol_value ps - sol_value ls + v)) /\
    w_tok w' = w_tok w /\ w_mint w' = w_mint w /\ w_auth w' = w_auth w /\ w_rec w' = w_rec w).
  { destruct Hcase as [->|(_ & -> & Hno)]; [repeat split; assumption|]. apply Hiff in Hno. subst v.
    replace (total_sol_value ps - sol_value ls + sol_value ls) with (total_sol_value ps) by lia. rewrite set_total_same.
    assert (Hsame : set_sol_value ls (sol_value ls) = ls) by (destruct ls; reflexivity). rewrite Hsame, (replace_nth_self _ _ _ Hn).
    repeat split; assumption. }
  destruct Hw as (Q1 & Q2 & Q3 & Q4 & Q5 & Q6). repeat (split; [assumption|]). intros _. exists t. split; [exact Ht|exact Hiff].
Qed.
