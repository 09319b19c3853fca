(** Properties of the SOL value calculators: C23 (values), C36 (stale rates), C40 (administration). *)
From Coq Require Import ZArith List Bool Lia.
From Verif Require Import Base Ratio State Controller Inversion Spec Periph PeriphSpec PeriphProofs.
Import ListNotations.
Open Scope Z_scope.

(* ------------------------------------------------------------------ *)
(** * Lemmas *)

Ltac key5 a b c d e accs := destruct accs as [|a [|b [|c [|d [|e accs]]]]].

Lemma verify_common_iff cfg pw accs c :
  verify_lst_sol_common cfg pw accs = Ok c <-> quotable cfg pw accs c.
Proof.
  split.
  - intros H. key5 a0 a1 a2 a3 a4 accs; try discriminate H. cbn [verify_lst_sol_common] in H.
    destruct (cc_kind cfg) as [|m s|m s] eqn:HK.
    + unfold deserialize_stake_pool_check_program_owner, read_programdata_addr,
        verify_no_stake_pool_prog_upgrade, read_stake_pool_progdata_meta, try_calculator_state in H.
      inv_ok. destruct (pdata pw (mk a2)) as [| | | |p| | | | | |] eqn:HP; try discriminate. inv_ok.
      destruct (pdata pw (mk a3)) as [|pd| | | | | | | | |] eqn:HD; try discriminate. inv_ok.
      cbn [keys_match] in *. inv_ok.
      destruct (pdata pw (mk a4)) as [| |sl| | | | | | | |] eqn:HS; try discriminate. inv_ok.
      destruct (pdata pw (mk a1)) as [| | |mg ts| | | | | | |] eqn:HC; try discriminate. inv_ok.
      cbn [snd] in *. subst.
      split; unfold pool_of, genuine_pool, lst_of, trusted_slot, deployed_slot, program_data, pool_current;
        cbn [length key_at nth_error]; unfold key_at; cbn [nth_error]; rewrite ?HK; try lia; auto.
      * now rewrite HP.
      * split; eauto.
      * replace (cc_pool_program cfg) with (mk a3) by congruence. rewrite HD. congruence.
      * replace (cc_state cfg) with (mk a1) by congruence.
        replace (cc_pool_program cfg) with (mk a3) by congruence. rewrite HD.
        rewrite HC, HS. eauto.
    + unfold verify_no_stake_pool_prog_upgrade, read_stake_pool_progdata_meta, try_calculator_state in H.
      cbn [keys_match] in H. inv_ok.
      destruct (pdata pw (mk a4)) as [| |sl| | | | | | | |] eqn:HS; try discriminate. inv_ok.
      destruct (pdata pw (mk a1)) as [| | |mg ts| | | | | | |] eqn:HC; try discriminate. inv_ok.
      destruct (pdata pw (mk a2)) as [| | | | |p| | | | |] eqn:HP; try discriminate. inv_ok.
      cbn [snd] in *. subst.
      split; unfold pool_of, genuine_pool, lst_of, trusted_slot, deployed_slot, program_data, pool_current;
        cbn [length key_at nth_error]; unfold key_at; cbn [nth_error]; rewrite ?HK; try lia; auto.
      * now rewrite HP.
      * split; eauto.
      * congruence.
      * replace (cc_state cfg) with (mk a1) by congruence.
        replace (cc_progdata cfg) with (mk a4) by congruence. rewrite HC, HS. eauto.
    + unfold verify_no_stake_pool_prog_upgrade, read_stake_pool_progdata_meta, try_calculator_state in H.
      cbn [keys_match] in H. inv_ok.
      destruct (pdata pw (mk a4)) as [| |sl| | | | | | | |] eqn:HS; try discriminate. inv_ok.
      destruct (pdata pw (mk a1)) as [| | |mg ts| | | | | | |] eqn:HC; try discriminate. inv_ok.
      destruct (pdata pw (mk a2)) as [| | | | | |p| | | |] eqn:HP; try discriminate. inv_ok.
      cbn [snd] in *. subst.
      split; unfold pool_of, genuine_pool, lst_of, trusted_slot, deployed_slot, program_data, pool_current;
        cbn [length key_at nth_error]; unfold key_at; cbn [nth_error]; rewrite ?HK; try lia; auto.
      * now rewrite HP.
      * split; eauto.
      * congruence.
      * replace (cc_state cfg) with (mk a1) by congruence.
        replace (cc_progdata cfg) with (mk a4) by congruence. rewrite HC, HS. eauto.
      * split; auto. now destruct (ma_paused p).
  - intros [HL HP HG HM HS HR HD (s & HT & HDS) HC].
    key5 a0 a1 a2 a3 a4 accs; cbn [length] in HL; try lia. clear HL.
    unfold key_at in *; cbn [nth_error] in *. unfold pool_of, key_at in HP. cbn [nth_error] in HP.
    unfold deployed_slot in HDS. rewrite HD in HDS.
    unfold trusted_slot in HT. rewrite <- HS in HT.
    destruct (pdata pw (mk a4)) as [| |sl| | | | | | | |] eqn:ES; try discriminate. injection HDS as ->.
    destruct (pdata pw (mk a1)) as [| | |mg ts| | | | | | |] eqn:EC; try discriminate. injection HT as ->.
    cbn [verify_lst_sol_common].
    unfold program_data in HD. unfold genuine_pool in HG. unfold lst_of in HM.
    destruct (cc_kind cfg) as [|m st|m st] eqn:HK.
    + destruct HG as (Ho & p & Hp & Hi). rewrite Hp in HP. injection HP as <-.
      rewrite <- HR in HD.
      destruct (pdata pw (mk a3)) as [|pd| | | | | | | | |] eqn:ED; try discriminate.
      injection HD as ->. cbn [pool_current] in HC.
      unfold deserialize_stake_pool_check_program_owner, read_programdata_addr,
        verify_no_stake_pool_prog_upgrade, read_stake_pool_progdata_meta, try_calculator_state.
      rewrite Hp, ED, ES, EC, Hi, Ho. cbn [bind guard keys_match snd andb].
      rewrite HR, HM, HS, !Z.eqb_refl. cbn [bind guard keys_match snd andb].
      rewrite !Z.eqb_refl. cbn [bind guard keys_match snd andb]. rewrite HC, !Z.eqb_refl. reflexivity.
    + destruct HG as (Hk & p & Hp & Hi). rewrite Hp in HP. injection HP as <-. injection HD as HD.
      cbn [pool_current] in HC.
      unfold verify_no_stake_pool_prog_upgrade, read_stake_pool_progdata_meta, try_calculator_state.
      rewrite Hp, ES, EC. cbn [bind guard keys_match snd andb].
      rewrite Hi, HC, HR, HM, HS, Hk, <- HD, !Z.eqb_refl. cbn. rewrite ?Z.eqb_refl. reflexivity.
    + destruct HG as (Hk & p & Hp & Hi). rewrite Hp in HP. injection HP as <-. injection HD as HD.
      cbn [pool_current] in HC. destruct HC as (HC1 & HC2).
      unfold verify_no_stake_pool_prog_upgrade, read_stake_pool_progdata_meta, try_calculator_state.
      rewrite Hp, ES, EC. cbn [bind guard keys_match snd andb negb].
      rewrite Hi, HC1, HC2, HR, HM, HS, Hk, <- HD, !Z.eqb_refl. cbn. rewrite ?Z.eqb_refl. reflexivity.
Qed.

Lemma pool_of_typed cfg pw accs c : pools_typed pw -> pool_of cfg pw accs = Some c -> calc_typed c.
Proof.
  intros Ht. unfold pool_of. specialize (Ht (key_at accs 2)).
  destruct (cc_kind cfg), (pdata pw (key_at accs 2)); try discriminate; intros [= <-]; exact Ht.
Qed.

(* ------------------------------------------------------------------ *)
(** * C23 *)

(** A price request in the LST-to-SOL direction is answered exactly when the accounts are those of a
    genuine, current pool and the figures fit; the answer is the pool's stated formula, min = max, and
    nothing on chain changes. *)
Theorem C23_lst_to_sol_exact R cfg pw accs x pw' r :
  pools_typed pw -> U64 x ->
  calc_process R cfg pw accs (LstToSol x) = Ok (pw', r) <->
  pw' = pw /\ exists c, quotable cfg pw accs c /\ answers c x /\ r = Some (worth c x, worth c x).
Proof.
  intros Ht Hx. cbn [calc_process]. rewrite bind_ok. split.
  - intros (c & Hc & H). apply verify_common_iff in Hc. inv_ok. split; [reflexivity|]. exists c.
    apply calc_lst_to_sol_exact in Hv as (Ha & ->);
      [|exact (pool_of_typed _ _ _ _ Ht (q_pool _ _ _ _ Hc))|apply Hx]. auto.
  - intros (-> & c & Hq & Ha & ->). exists c. split; [apply verify_common_iff; auto|].
    apply bind_ok. exists (worth c x, worth c x). split; [|reflexivity].
    apply calc_lst_to_sol_exact; [exact (pool_of_typed _ _ _ _ Ht (q_pool _ _ _ _ Hq))|apply Hx|auto].
Qed.

(** wSOL is worth itself, in both directions, for its own mint only. *)
Theorem C23_wsol accs ix v :
  wsol_process accs ix = Ok v <->
  key_at accs 0 = WSOL_MINT /\ accs <> [] /\
  exists x, (ix = LstToSol x \/ ix = SolToLst x) /\ v = (x, x).
Proof.
  unfold wsol_process, key_at. destruct accs as [|a accs]; cbn [nth_error].
  - split; [discriminate|tauto].
  - unfold guard. destruct (Z.eqb_spec (mk a) WSOL_MINT) as [E|E].
    + destruct ix as [x|x| | |]; cbn; unfold wsol_lst_to_sol, wsol_sol_to_lst, single; split;
        try discriminate; try (intros [= <-]; split; [auto|split; [discriminate|eauto]]);
        intros (_ & _ & y & [Hy|Hy] & ->); congruence.
    + split; [discriminate|tauto].
Qed.

(** More LST is never worth less, and a calculator that can value an amount can value any smaller one. *)
Theorem C23_monotone R cfg pw accs x y vx vy pw1 pw2 :
  pools_typed pw -> U64 x -> x <= y -> U64 y ->
  calc_process R cfg pw accs (LstToSol y) = Ok (pw2, Some vy) ->
  (calc_process R cfg pw accs (LstToSol x) = Ok (pw1, Some vx) ->
     fst vx <= fst vy /\ snd vx <= snd vy) /\
  exists v, calc_process R cfg pw accs (LstToSol x) = Ok (pw, Some v).
Proof.
  intros Ht Hx Hxy Hy H.
  apply C23_lst_to_sol_exact in H as (-> & c & Hq & Ha & [= ->]); auto.
  pose proof (pool_of_typed _ _ _ _ Ht (q_pool _ _ _ _ Hq)) as Hc. split.
  - intros H1. apply C23_lst_to_sol_exact in H1 as (-> & c' & Hq' & Ha' & [= ->]); auto.
    assert (c' = c) as -> by (pose proof (q_pool _ _ _ _ Hq); pose proof (q_pool _ _ _ _ Hq'); congruence).
    cbn. pose proof (worth_mono c x y Hc (answers_fee _ _ Ha) Hxy). auto.
  - exists (worth c x, worth c x). apply C23_lst_to_sol_exact; auto. split; [auto|]. exists c.
    split; [auto|]. split; [|auto]. eapply answers_down; eauto.
Qed.

(** Splitting an amount never gains value, except at most one lamport at Marinade, whose fee is rounded
    down. [1] there cannot be improved: C23_superadditive_marinade_refuted. *)
Theorem C23_superadditive R cfg pw accs x y vx vy vxy pw1 pw2 pw3 :
  pools_typed pw -> U64 x -> U64 y -> U64 (x + y) ->
  calc_process R cfg pw accs (LstToSol x) = Ok (pw1, Some (vx, vx)) ->
  calc_process R cfg pw accs (LstToSol y) = Ok (pw2, Some (vy, vy)) ->
  calc_process R cfg pw accs (LstToSol (x + y)) = Ok (pw3, Some (vxy, vxy)) ->
  vx + vy <= vxy + match cc_kind cfg with KMarinade _ _ => 1 | _ => 0 end.
Proof.
  intros Ht Hx Hy Hxy H1 H2 H3.
  apply C23_lst_to_sol_exact in H1 as (_ & c & Hq & Ha & [= ->]); auto.
  apply C23_lst_to_sol_exact in H2 as (_ & c2 & Hq2 & _ & [= ->]); auto.
  apply C23_lst_to_sol_exact in H3 as (_ & c3 & Hq3 & _ & [= ->]); auto.
  pose proof (q_pool _ _ _ _ Hq) as Hp.
  assert (c2 = c) as -> by (pose proof (q_pool _ _ _ _ Hq2); congruence).
  assert (c3 = c) as -> by (pose proof (q_pool _ _ _ _ Hq3); congruence).
  pose proof (worth_super c x y (pool_of_typed _ _ _ _ Ht Hp) (answers_fee _ _ Ha)) as Hw.
  unfold pool_of in Hp. destruct (cc_kind cfg), (pdata pw (key_at accs 2)); try discriminate;
    injection Hp as <-; exact Hw.
Qed.

(** Marinade at rate one, 50% fee: one token is worth 1 lamport, and so are two. *)
Definition marinade_half : MarinadePool := mkMarinade true false 0 0 1000 0 0 1000 true 500000.
Example C23_superadditive_marinade_refuted :
  calc_typed (CMarinade marinade_half) /\ calc_live (CMarinade marinade_half) /\
  calc_lst_to_sol (CMarinade marinade_half) 1 = Ok (1, 1) /\
  calc_lst_to_sol (CMarinade marinade_half) 2 = Ok (1, 1).
Proof.
  split; [unfold calc_typed, U64, U64_MAX, U32_MAX; cbn; lia|].
  split; [cbn; unfold marinade_total; cbn; lia|]. split; reflexivity.
Qed.

(** A price request in the SOL-to-LST direction: an interval outside of which no amount is worth the
    given SOL. Amounts worth at least it are not below [lo]; amounts worth at most it are not above
    [hi]. The answers depend on the ratio library only through its contract. *)
Theorem C23_sol_to_lst_bracket R cfg pw accs s pw' lo hi :
  ratio_lib_ok R -> pools_typed pw -> U64 s ->
  (forall c, pool_of cfg pw accs = Some c -> calc_live c) ->
  calc_process R cfg pw accs (SolToLst s) = Ok (pw', Some (lo, hi)) ->
  pw' = pw /\ lo <= hi /\ U64 lo /\ U64 hi /\
  (forall x pw1 v, U64 x -> calc_process R cfg pw accs (LstToSol x) = Ok (pw1, Some (v, v)) ->
     (s <= v -> lo <= x) /\ (v <= s -> x <= hi)).
Proof.
  intros HR Ht Hs Hl H. cbn [calc_process] in H. apply bind_ok in H as (c & Hc & H).
  apply verify_common_iff in Hc. pose proof (q_pool _ _ _ _ Hc) as Hp. inv_ok.
  pose proof (pool_of_typed _ _ _ _ Ht Hp) as Hct.
  destruct (calc_sol_to_lst_bracket R c s lo hi HR Hct (Hl _ Hp) Hs Hv) as (H1 & H2 & H3 & H4 & H5).
  split; [auto|]. split; [auto|]. split; [auto|]. split; [auto|]. intros x pw1 v Hx H.
  apply C23_lst_to_sol_exact in H as (_ & c' & Hq & Ha & [= ->]); auto.
  assert (c' = c) as -> by (pose proof (q_pool _ _ _ _ Hq); congruence).
  unfold U64 in Hx. split; [apply H4; lia|apply H5; unfold U64; auto].
Qed.

(** Valuing an amount and asking back: the amount is in the interval, and the interval's ends are worth
    at most and at least that value (the round trip the repository's tests sample). *)
Theorem C23_round_trip R cfg pw accs x s lo hi pw1 pw2 :
  ratio_lib_ok R -> pools_typed pw -> U64 x ->
  (forall c, pool_of cfg pw accs = Some c -> calc_live c) ->
  calc_process R cfg pw accs (LstToSol x) = Ok (pw1, Some (s, s)) ->
  calc_process R cfg pw accs (SolToLst s) = Ok (pw2, Some (lo, hi)) ->
  lo <= x <= hi /\
  (exists vlo, calc_process R cfg pw accs (LstToSol lo) = Ok (pw, Some (vlo, vlo)) /\ vlo <= s) /\
  (forall vhi pw3, calc_process R cfg pw accs (LstToSol hi) = Ok (pw3, Some (vhi, vhi)) -> s <= vhi).
Proof.
  intros HR Ht Hx Hl H1 H2. pose proof H1 as H1'.
  apply C23_lst_to_sol_exact in H1' as (-> & c & Hq & Ha & [= ->]); auto.
  pose proof (pool_of_typed _ _ _ _ Ht (q_pool _ _ _ _ Hq)) as Hc.
  assert (Hs : U64 (worth c x)).
  { unfold U64 in *. split; [apply worth_nonneg; auto; [eapply answers_fee; eauto|lia]|].
    destruct c as [|p|p|p]; cbn [answers worth] in *; try lia. cbv zeta.
    destruct Ha as (Hf & Hg & _). cbn in Hc. unfold U64 in Hc.
    pose proof (marinade_total_nonneg p).
    pose proof (share_nonneg x (marinade_total p) (ma_msol_supply p)).
    assert (0 <= down (share x (marinade_total p) (ma_msol_supply p) * ma_fee_cents p) 1000000)
      by (apply Z.div_pos; nia). lia. }
  destruct (C23_sol_to_lst_bracket _ _ _ _ _ _ _ _ HR Ht Hs Hl H2) as (-> & Hle & Ul & Uh & B).
  destruct (B x pw (worth c x) Hx H1) as (B1 & B2). specialize (B1 ltac:(lia)). specialize (B2 ltac:(lia)).
  split; [lia|]. split.
  - exists (worth c lo). split.
    + apply C23_lst_to_sol_exact; auto. split; [auto|]. exists c. split; [auto|]. split; [|auto].
      eapply answers_down; eauto.
    + apply worth_mono; auto. eapply answers_fee; eauto.
  - intros vhi pw3 H. apply C23_lst_to_sol_exact in H as (_ & c' & Hq' & Ha' & [= ->]); auto.
    assert (c' = c) as -> by (pose proof (q_pool _ _ _ _ Hq); pose proof (q_pool _ _ _ _ Hq'); congruence).
    apply worth_mono; auto. eapply answers_fee; eauto.
Qed.

(* ------------------------------------------------------------------ *)
(** * C36 *)

(** No answer, in either direction, unless the pool program's code is the one the manager last
    acknowledged and the pool is current. *)
Theorem C36_only_current R cfg pw accs ix pw' r :
  calc_process R cfg pw accs ix = Ok (pw', r) -> (exists x, ix = LstToSol x \/ ix = SolToLst x) ->
  (exists s, trusted_slot cfg pw = Some s /\ deployed_slot cfg pw = Some s) /\
  exists c, pool_of cfg pw accs = Some c /\ pool_current pw c.
Proof.
  intros H (x & [->| ->]); cbn [calc_process] in H; apply bind_ok in H as (c & Hc & H);
    apply verify_common_iff in Hc; destruct Hc; eauto.
Qed.
(** In particular the request fails, whatever the accounts and the amount. *)
Theorem C36_stale_refused R cfg pw accs x :
  (forall s, trusted_slot cfg pw = Some s -> deployed_slot cfg pw <> Some s) \/
  (forall c, pool_of cfg pw accs = Some c -> ~ pool_current pw c) ->
  forall pw' r, calc_process R cfg pw accs (LstToSol x) <> Ok (pw', r) /\
                calc_process R cfg pw accs (SolToLst x) <> Ok (pw', r).
Proof.
  intros Hs pw' r. split; intros H; apply C36_only_current in H as ((s & H1 & H2) & c & H3 & H4); eauto;
    destruct Hs as [Hs|Hs]; [eapply Hs; eauto|eapply Hs; eauto|eapply Hs; eauto|eapply Hs; eauto].
Qed.

Lemma process_update_inv cfg pw accs pw' :
  process_update_last_upgrade_slot cfg pw accs = Ok pw' ->
  exists m s pd sl, pdata pw (cc_state cfg) = PCalc m s /\ signed_by accs m /\
    pdata pw (cc_pool_program cfg) = PProgram pd /\ pdata pw pd = PProgData sl /\
    powner pw (cc_state cfg) = cc_id cfg /\
    passed_writable accs (cc_state cfg) /\
    pw' = put_acc pw (cc_state cfg) (mkPAcc (cc_id cfg) (PCalc m sl)).
Proof.
  unfold process_update_last_upgrade_slot, try_calculator_state, read_programdata_addr,
    read_stake_pool_progdata_meta, verify_keys_privs, write_data. intros H.
  destruct accs as [|a0 [|a1 [|a2 [|a3 accs]]]]; try discriminate.
  inv_ok. destruct (pdata pw (mk a1)) as [| | |m s| | | | | | |] eqn:E1; try discriminate. inv_ok.
  destruct (pdata pw (mk a2)) as [|pd| | | | | | | | |] eqn:E2; try discriminate. inv_ok.
  cbn [keys_match privileges_ok forallb] in *. unfold privileges_ok in *. cbn [forallb] in *. inv_ok.
  destruct (pdata pw (mk a3)) as [| |sl| | | | | | | |] eqn:E3; try discriminate. inv_ok.
  cbn [fst] in *.
  repeat match goal with Hx : (mk a1 =? _) = _ |- _ => clear Hx end.
  assert (Ha1 : mk a1 = cc_state cfg) by assumption.
  assert (Ha2 : mk a2 = cc_pool_program cfg) by assumption.
  rewrite <- Ha1, <- Ha2. eexists _, _, _, _.
  split; [exact E1|]. split; [exists a0; cbn; auto|]. split; [exact E2|]. split; [exact E3|].
  split; [congruence|]. split; [exists a1; cbn; auto|]. reflexivity.
Qed.
Lemma process_set_manager_inv cfg pw accs pw' :
  process_calc_set_manager cfg pw accs = Ok pw' ->
  exists m s, pdata pw (cc_state cfg) = PCalc m s /\ signed_by accs m /\
    powner pw (cc_state cfg) = cc_id cfg /\
    passed_writable accs (cc_state cfg) /\
    pw' = put_acc pw (cc_state cfg) (mkPAcc (cc_id cfg) (PCalc (key_at accs 1) s)).
Proof.
  unfold process_calc_set_manager, try_calculator_state, verify_keys_privs, write_data. intros H.
  destruct accs as [|a0 [|a1 [|a2 accs]]]; try discriminate.
  inv_ok. destruct (pdata pw (mk a2)) as [| | |m s| | | | | | |] eqn:E1; try discriminate. inv_ok.
  cbn [keys_match] in *. unfold privileges_ok in *. cbn [forallb] in *. inv_ok. cbn [fst snd] in *.
  assert (Ha : mk a2 = cc_state cfg) by assumption. rewrite <- Ha. eexists _, _.
  split; [exact E1|]. split; [exists a0; cbn; auto|].
  split; [congruence|]. split; [exists a2; cbn; auto|]. reflexivity.
Qed.
Lemma process_init_inv cfg pw accs pw' :
  process_calc_init cfg pw accs = Ok pw' ->
  pw_acc pw (cc_state cfg) = no_account /\
  pw' = put_acc pw (cc_state cfg) (mkPAcc (cc_id cfg) (PCalc (cc_manager0 cfg) 0)).
Proof.
  unfold process_calc_init, verify_keys_privs, init_account. intros H.
  destruct accs as [|a0 [|a1 [|a2 accs]]]; try discriminate.
  inv_ok. cbn [keys_match] in *. inv_ok.
  assert (Ha : mk a1 = cc_state cfg) by assumption. rewrite <- Ha.
  destruct (pdata pw (mk a1)) eqn:E; try discriminate. inv_ok. split; [|reflexivity].
  unfold pdata, powner, no_account in *. destruct (pw_acc pw (mk a1)); cbn in *. congruence.
Qed.
Lemma pdata_put_same pw k o d : pdata (put_acc pw k (mkPAcc o d)) k = d.
Proof. unfold pdata, put_acc; cbn. now rewrite upd_same. Qed.
Lemma pw_acc_put_other pw k a k' : k' <> k -> pw_acc (put_acc pw k a) k' = pw_acc pw k'.
Proof. intros. unfold put_acc; cbn. now apply upd_other. Qed.

(** What one event can do to the calculator's state. *)
Lemma event_state R cfg pw pw' e s :
  calc_event R cfg pw pw' e -> trusted_slot cfg pw = Some s ->
  trusted_slot cfg pw' = Some s \/
  exists accs m, e = Some (accs, UpdateLastUpgradeSlot) /\ calc_manager cfg pw = Some m /\
    signed_by accs m /\
    exists pd sl, pdata pw (cc_pool_program cfg) = PProgram pd /\ pdata pw pd = PProgData sl /\
      trusted_slot cfg pw' = Some sl.
Proof.
  intros He Hs. destruct He as [Hx|accs ix r H].
  - left. unfold trusted_slot, pdata in *. rewrite Hx. exact Hs.
  - destruct ix as [x|x| | |]; cbn [calc_process] in H; inv_ok; auto.
    + right. destruct (process_update_inv _ _ _ _ Hv) as (m & s' & pd & sl & H1 & H2 & H3 & H4 & H5 & _ & ->).
      exists accs, m. split; [auto|]. unfold calc_manager. rewrite H1. split; [auto|]. split; [auto|].
      exists pd, sl. unfold trusted_slot. rewrite pdata_put_same. auto.
    + left. destruct (process_set_manager_inv _ _ _ _ Hv) as (m & s' & H1 & H2 & H3 & _ & ->).
      unfold trusted_slot in *. rewrite pdata_put_same. rewrite H1 in Hs. exact Hs.
    + destruct (process_init_inv _ _ _ _ Hv) as (H1 & _). unfold trusted_slot, pdata in Hs.
      rewrite H1 in Hs. discriminate.
Qed.

(** Once a pool program is upgraded, the calculator goes silent until its manager signs an update that
    records the new code's slot: in any history in which the slot it trusted is no longer the slot
    it trusts, such a call occurred. *)
Theorem C36_only_manager_reenables R cfg pw1 pw2 es s s' :
  calc_history R cfg pw1 pw2 es -> trusted_slot cfg pw1 = Some s -> trusted_slot cfg pw2 = Some s' ->
  s <> s' ->
  exists es1 accs es2 pwa pwb m pd,
    es = es1 ++ Some (accs, UpdateLastUpgradeSlot) :: es2 /\
    calc_history R cfg pw1 pwa es2 /\ calc_event R cfg pwa pwb (Some (accs, UpdateLastUpgradeSlot)) /\
    calc_history R cfg pwb pw2 es1 /\
    calc_manager cfg pwa = Some m /\ signed_by accs m /\
    pdata pwa (cc_pool_program cfg) = PProgram pd /\ pdata pwa pd = PProgData s'.
Proof.
  intros H. revert s s'. induction H as [pw|pw1 pw2 pw3 e es Hh IH He]; intros s s' Hs Hs' Hne; [congruence|].
  destruct (trusted_slot cfg pw2) as [t|] eqn:Et.
  - destruct (event_state _ _ _ _ _ _ He Et) as [Hk|(accs & m & -> & Hm & Hsg & pd & sl & H1 & H2 & H3)].
    + assert (t = s') as -> by congruence.
      destruct (IH s s' Hs eq_refl Hne) as (es1 & accs & es2 & pwa & pwb & m & pd & -> & A & B & C & D).
      exists (e :: es1), accs, es2, pwa, pwb, m, pd. split; [reflexivity|]. split; [auto|]. split; [auto|].
      split; [econstructor; eauto|auto].
    + exists [], accs, es, pw2, pw3, m, pd. split; [auto|]. split; [auto|]. split; [auto|].
      split; [constructor|]. split; [auto|]. split; [auto|]. split; [auto|]. congruence.
  - exfalso. clear - Hh Hs Et. revert s Hs. induction Hh as [|pwa pwb pwc e es Hh IH He]; intros s Hs; [congruence|].
    destruct (trusted_slot cfg pwb) as [t|] eqn:E2; [|eauto].
    destruct (event_state _ _ _ _ _ _ He E2) as [?|(? & ? & _ & _ & _ & ? & ? & _ & _ & ?)]; congruence.
Qed.

(** So in any history without an update call, if the pool program's slot differs at the end from the one
    trusted at the start, every price request is refused. *)
Theorem C36_silent_after_upgrade R cfg pw1 pw2 es s accs x :
  calc_history R cfg pw1 pw2 es -> trusted_slot cfg pw1 = Some s ->
  (forall a, ~ In (Some (a, UpdateLastUpgradeSlot)) es) ->
  deployed_slot cfg pw2 <> Some s ->
  forall pw' r, calc_process R cfg pw2 accs (LstToSol x) <> Ok (pw', r) /\
                calc_process R cfg pw2 accs (SolToLst x) <> Ok (pw', r).
Proof.
  intros Hh Hs Hno Hd. apply C36_stale_refused. left. intros t Ht.
  destruct (Z.eq_dec s t) as [<-|Hne]; [auto|].
  destruct (C36_only_manager_reenables _ _ _ _ _ _ _ Hh Hs Ht Hne) as (es1 & a & es2 & pwa & pwb & m & pd & -> & _).
  exfalso. apply (Hno a). apply in_or_app. right. left. reflexivity.
Qed.

(** With the right accounts of a genuine pool, the refusal names its reason. *)
Theorem C36_upgrade_error R cfg pw accs x c s s' :
  (5 <= length accs)%nat -> pool_of cfg pw accs = Some c -> genuine_pool cfg pw (key_at accs 2) ->
  key_at accs 0 = lst_of cfg c -> key_at accs 1 = cc_state cfg ->
  key_at accs 3 = cc_pool_program cfg -> program_data cfg pw = Some (key_at accs 4) ->
  trusted_slot cfg pw = Some s -> deployed_slot cfg pw = Some s' -> s <> s' ->
  calc_process R cfg pw accs (LstToSol x) = Err (Prog UnexpectedProgramUpgrade) /\
  calc_process R cfg pw accs (SolToLst x) = Err (Prog UnexpectedProgramUpgrade).
Proof.
  intros HL HP HG HM HS HR HD HT HDS Hne.
  enough (verify_lst_sol_common cfg pw accs = Err (Prog UnexpectedProgramUpgrade)) as Hv
    by (cbn [calc_process]; rewrite Hv; auto).
  key5 a0 a1 a2 a3 a4 accs; cbn [length] in HL; try lia. clear HL.
  unfold key_at in *; cbn [nth_error] in *. unfold pool_of, key_at in HP. cbn [nth_error] in HP.
  unfold deployed_slot in HDS. rewrite HD in HDS.
  unfold trusted_slot in HT. rewrite <- HS in HT.
  destruct (pdata pw (mk a4)) as [| |sl| | | | | | | |] eqn:ES; try discriminate. injection HDS as ->.
  destruct (pdata pw (mk a1)) as [| | |mg ts| | | | | | |] eqn:EC; try discriminate. injection HT as ->.
  cbn [verify_lst_sol_common].
  unfold program_data in HD. unfold genuine_pool in HG. unfold lst_of in HM.
  destruct (cc_kind cfg) as [|m st|m st] eqn:HK.
  + destruct HG as (Ho & p & Hp & Hi). rewrite Hp in HP. injection HP as <-.
    rewrite <- HR in HD.
    destruct (pdata pw (mk a3)) as [|pd| | | | | | | | |] eqn:ED; try discriminate.
    injection HD as ->.
    unfold deserialize_stake_pool_check_program_owner, read_programdata_addr,
      verify_no_stake_pool_prog_upgrade, read_stake_pool_progdata_meta, try_calculator_state.
    rewrite Hp, ED, ES, EC, Hi, Ho. cbn [bind guard keys_match snd andb].
    rewrite HR, HM, HS, !Z.eqb_refl. cbn. rewrite ?Z.eqb_refl. cbn.
    apply Z.eqb_neq in Hne as ->. reflexivity.
  + destruct HG as (Hk & p & Hp & Hi). rewrite Hp in HP. injection HP as <-. injection HD as HD.
    unfold verify_no_stake_pool_prog_upgrade, read_stake_pool_progdata_meta, try_calculator_state.
    rewrite ES, EC. cbn [bind guard keys_match snd andb].
    rewrite HR, HM, HS, Hk, <- HD, !Z.eqb_refl. cbn. rewrite ?Z.eqb_refl. cbn.
    apply Z.eqb_neq in Hne as ->. reflexivity.
  + destruct HG as (Hk & p & Hp & Hi). rewrite Hp in HP. injection HP as <-. injection HD as HD.
    unfold verify_no_stake_pool_prog_upgrade, read_stake_pool_progdata_meta, try_calculator_state.
    rewrite ES, EC. cbn [bind guard keys_match snd andb].
    rewrite HR, HM, HS, Hk, <- HD, !Z.eqb_refl. cbn. rewrite ?Z.eqb_refl. cbn.
    apply Z.eqb_neq in Hne as ->. reflexivity.
Qed.

(* ------------------------------------------------------------------ *)
(** * C40 *)

(** Everything a successful call can do. Price requests change nothing. The other instructions touch the
    calculator's state account only: init fills it once, with the hard-coded manager and no trusted slot;
    the manager's signature is needed to hand over management or to acknowledge the pool program's
    current code. *)
Theorem C40_effects R cfg pw accs ix pw' r :
  calc_process R cfg pw accs ix = Ok (pw', r) ->
  pw_epoch pw' = pw_epoch pw /\
  (forall k, k <> cc_state cfg -> pw_acc pw' k = pw_acc pw k) /\
  match ix with
  | LstToSol _ | SolToLst _ => pw' = pw
  | CalcInit =>
      pw_acc pw (cc_state cfg) = no_account /\
      calc_manager cfg pw' = Some (cc_manager0 cfg) /\ trusted_slot cfg pw' = Some 0
  | CalcSetManager =>
      exists m, calc_manager cfg pw = Some m /\ signed_by accs m /\
        calc_manager cfg pw' = Some (key_at accs 1) /\ trusted_slot cfg pw' = trusted_slot cfg pw
  | UpdateLastUpgradeSlot =>
      exists m, calc_manager cfg pw = Some m /\ signed_by accs m /\ calc_manager cfg pw' = Some m /\
        exists pd sl, pdata pw (cc_pool_program cfg) = PProgram pd /\ pdata pw pd = PProgData sl /\
          trusted_slot cfg pw' = Some sl
  end.
Proof.
  intros H. destruct ix as [x|x| | |]; cbn [calc_process] in H; inv_ok.
  - auto.
  - auto.
  - destruct (process_update_inv _ _ _ _ Hv) as (m & s' & pd & sl & H1 & H2 & H3 & H4 & H5 & _ & ->).
    split; [reflexivity|]. split; [intros; now apply pw_acc_put_other|].
    unfold calc_manager, trusted_slot. rewrite pdata_put_same, H1. exists m. eauto 10.
  - destruct (process_set_manager_inv _ _ _ _ Hv) as (m & s' & H1 & H2 & H3 & _ & ->).
    split; [reflexivity|]. split; [intros; now apply pw_acc_put_other|].
    unfold calc_manager, trusted_slot. rewrite pdata_put_same, H1. eauto 10.
  - destruct (process_init_inv _ _ _ _ Hv) as (H1 & ->).
    split; [reflexivity|]. split; [intros; now apply pw_acc_put_other|].
    unfold calc_manager, trusted_slot. rewrite pdata_put_same. auto.
Qed.

(** In every reachable state the calculator's account is untouched or holds its record, owned by it. *)
Theorem C40_state_shape R cfg pw : calc_reachable R cfg pw ->
  pw_acc pw (cc_state cfg) = no_account \/
  exists m s, pw_acc pw (cc_state cfg) = mkPAcc (cc_id cfg) (PCalc m s).
Proof.
  intros (pw0 & es & H0 & Hh). induction Hh as [pw|pw1 pw2 pw3 e es Hh IH He]; [auto|].
  specialize (IH H0). destruct He as [Hx|accs ix r H]; [unfold calc_external in Hx; rewrite Hx; auto|].
  destruct ix as [x|x| | |]; cbn [calc_process] in H; inv_ok; auto; right.
  - destruct (process_update_inv _ _ _ _ Hv) as (m & s' & pd & sl & H1 & H2 & H3 & H4 & H5 & _ & ->).
    unfold put_acc; cbn. rewrite upd_same. eauto.
  - destruct (process_set_manager_inv _ _ _ _ Hv) as (m & s' & H1 & H2 & H3 & _ & ->).
    unfold put_acc; cbn. rewrite upd_same. eauto.
  - destruct (process_init_inv _ _ _ _ Hv) as (H1 & ->).
    unfold put_acc; cbn. rewrite upd_same. eauto.
Qed.

(** The manager changes only by its own signature, and never disappears. *)
Theorem C40_manager_changes R cfg pw pw' e m :
  calc_event R cfg pw pw' e -> calc_manager cfg pw = Some m ->
  calc_manager cfg pw' = Some m \/
  exists accs, e = Some (accs, CalcSetManager) /\ signed_by accs m /\
    calc_manager cfg pw' = Some (key_at accs 1).
Proof.
  intros He Hm. destruct He as [Hx|accs ix r H].
  - left. unfold calc_manager, pdata in *. rewrite Hx. exact Hm.
  - pose proof (C40_effects _ _ _ _ _ _ _ H) as (_ & _ & Hc). destruct ix as [x|x| | |].
    + subst. auto.
    + subst. auto.
    + destruct Hc as (m' & H1 & _ & H2 & _). left. congruence.
    + destruct Hc as (m' & H1 & H2 & H3 & _). right. exists accs. replace m with m' by congruence. auto.
    + destruct Hc as (H1 & _). unfold calc_manager, pdata in Hm. rewrite H1 in Hm. discriminate.
Qed.

(** Initialisation succeeds at most once in any history. *)
Theorem C40_init_once R cfg pw0 pw es accs pw' r :
  calc_history R cfg pw0 pw es -> (exists a, In (Some (a, CalcInit)) es) ->
  calc_process R cfg pw accs CalcInit <> Ok (pw', r).
Proof.
  intros Hh Hin H. apply C40_effects in H as (_ & _ & Hn & _).
  assert (Hm : exists m, calc_manager cfg pw = Some m).
  { clear Hn. induction Hh as [|pw1 pw2 pw3 e es Hh IH He]; [destruct Hin as (a & [])|].
    destruct Hin as (a & [->|Hin]).
    - inversion He; subst. match goal with Hc : calc_process _ _ _ _ _ = _ |- _ =>
        apply C40_effects in Hc as (_ & _ & _ & Hc & _) end. eauto.
    - destruct (IH (ex_intro _ a Hin)) as (m & Hm).
      destruct (C40_manager_changes _ _ _ _ _ _ He Hm) as [?|(? & _ & _ & ?)]; eauto. }
  destruct Hm as (m & Hm). unfold calc_manager, pdata in Hm. rewrite Hn in Hm. discriminate.
Qed.

(** And the manager can always act: in a reachable state, with the right accounts and its signature,
    acknowledging the deployed code succeeds, and the calculator then trusts exactly it. *)
Theorem C40_manager_can_update R cfg pw m pd sl a0 a1 a2 a3 rest :
  calc_reachable R cfg pw -> calc_manager cfg pw = Some m ->
  pdata pw (cc_pool_program cfg) = PProgram pd -> pdata pw pd = PProgData sl -> loader_ok cfg pw ->
  pd <> cc_state cfg -> cc_pool_program cfg <> cc_state cfg ->
  mk a0 = m -> is_signer a0 = true -> mk a1 = cc_state cfg -> is_writable a1 = true ->
  mk a2 = cc_pool_program cfg -> mk a3 = pd ->
  exists pw', calc_process R cfg pw (a0 :: a1 :: a2 :: a3 :: rest) UpdateLastUpgradeSlot = Ok (pw', None) /\
    trusted_slot cfg pw' = Some sl /\ deployed_slot cfg pw' = Some sl.
Proof.
  intros Hr Hm HP HD HL Hne Hne2 E0 S0 E1 W1 E2 E3.
  destruct (C40_state_shape _ _ _ Hr) as [Hn|(m' & s & Hs)].
  { unfold calc_manager, pdata in Hm. rewrite Hn in Hm. discriminate. }
  unfold calc_manager, pdata in Hm. rewrite Hs in Hm. cbn in Hm. injection Hm as ->.
  exists (put_acc pw (cc_state cfg) (mkPAcc (cc_id cfg) (PCalc m sl))). split.
  - cbn [calc_process process_update_last_upgrade_slot].
    unfold try_calculator_state, read_programdata_addr, read_stake_pool_progdata_meta, verify_keys_privs,
      privileges_ok, write_data. cbn [keys_match forallb].
    rewrite E0, S0, E1, W1, E2, E3, HP, HD. unfold pdata, powner. rewrite Hs.
    cbn. rewrite !Z.eqb_refl. reflexivity.
  - unfold trusted_slot, deployed_slot, program_data. rewrite pdata_put_same. split; [auto|].
    assert (Hpd : pdata (put_acc pw (cc_state cfg) (mkPAcc (cc_id cfg) (PCalc m sl))) pd = PProgData sl).
    { unfold pdata. rewrite pw_acc_put_other; auto. }
    assert (Hpp : pdata (put_acc pw (cc_state cfg) (mkPAcc (cc_id cfg) (PCalc m sl))) (cc_pool_program cfg) = PProgram pd).
    { unfold pdata. rewrite pw_acc_put_other; auto. }
    rewrite Hpp. pose proof (HL _ HP) as <-. destruct (cc_kind cfg); now rewrite Hpd.
Qed.

(* ------------------------------------------------------------------ *)
(** * A concrete chain meeting the hypotheses *)

Definition spl_pool_x : SplPool := mkSpl true 501 7 2000000 1500000 1 1000.
Definition spl_cfg : CalcCfg := mkCfg 500 510 511 502 503 KSpl.
(** Before initialisation; stake pool program 510 deployed in slot 40, pool account 504 for mint 501. *)
Definition pw_before : PWorld := mkPW (fun k =>
  if k =? 510 then mkPAcc 9 (PProgram 511) else if k =? 511 then mkPAcc 9 (PProgData 40)
  else if k =? 504 then mkPAcc 510 (PSpl spl_pool_x) else no_account) 7.
Definition mt (k : key) (s w : bool) : Meta := mkMeta k s w.
Definition init_accs := [mt 600 true true; mt 502 false true; mt SYSTEM_PROGRAM_ID false false].
Definition update_accs := [mt 503 true false; mt 502 false true; mt 510 false false; mt 511 false false].
Definition price_accs := [mt 501 false false; mt 502 false false; mt 504 false false; mt 510 false false; mt 511 false false].
Definition pw_init := put_acc pw_before 502 (mkPAcc 500 (PCalc 503 0)).
Definition pw_trusted := put_acc pw_init 502 (mkPAcc 500 (PCalc 503 40)).
(** Later the program is upgraded in slot 90. *)
Definition pw_upgraded := put_acc pw_trusted 511 (mkPAcc 9 (PProgData 90)).

Example C23_case_history : calc_history ref_ratio_lib spl_cfg pw_before pw_upgraded
  [None; Some (update_accs, UpdateLastUpgradeSlot); Some (init_accs, CalcInit)].
Proof.
  eapply h_cons with pw_trusted; [eapply h_cons with pw_init; [eapply h_cons with pw_before; [constructor|]|]|].
  - apply ev_call with None. reflexivity.
  - apply ev_call with None. reflexivity.
  - apply ev_external. reflexivity.
Qed.
Example C23_case_reachable : calc_reachable ref_ratio_lib spl_cfg pw_trusted.
Proof.
  exists pw_before, [Some (update_accs, UpdateLastUpgradeSlot); Some (init_accs, CalcInit)].
  split; [reflexivity|].
  eapply h_cons with pw_init; [eapply h_cons with pw_before; [constructor|]|];
    (apply ev_call with None; reflexivity).
Qed.
Example C23_case_price :
  calc_process ref_ratio_lib spl_cfg pw_trusted price_accs (LstToSol 300000) = Ok (pw_trusted, Some (399600, 399600)) /\
  calc_process ref_ratio_lib spl_cfg pw_trusted price_accs (SolToLst 399600) = Ok (pw_trusted, Some (300000, 300001)).
Proof. split; reflexivity. Qed.
Example C23_case_typed : pools_typed pw_trusted /\ calc_live (CSpl spl_pool_x) /\
  pool_of spl_cfg pw_trusted price_accs = Some (CSpl spl_pool_x).
Proof.
  split; [|split; [cbn; lia|reflexivity]]. intros k. unfold pdata, pw_trusted, pw_init, put_acc, pw_before. cbn.
  unfold upd. destruct (k =? 502); [exact I|].
  destruct (k =? 510); [exact I|]. destruct (k =? 511); [exact I|]. destruct (k =? 504); [|exact I].
  cbn. unfold U64, U64_MAX. cbn. lia.
Qed.
Example C36_case : trusted_slot spl_cfg pw_trusted = Some 40 /\ deployed_slot spl_cfg pw_upgraded = Some 90 /\
  calc_process ref_ratio_lib spl_cfg pw_upgraded price_accs (LstToSol 300000) = Err (Prog UnexpectedProgramUpgrade).
Proof. repeat split; reflexivity. Qed.
