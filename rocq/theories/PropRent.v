(** C55: rent. *)
From Coq Require Import ZArith List Bool Lia.
From Verif Require Import Base Ratio Calc State Controller Inversion ProcInv Spec CalcProofs InvProofs
  TokProofs AccessProofs ShapeProofs MoneyProofs Concrete ConcreteReach PropState PropAccess PropSync AdminSpec PropAdmin Rent RentSpec.
Import ListNotations.
Open Scope Z_scope.

(* ------------------------------------------------------------------ *)
(** * Movements *)
Definition ifk (a b : key) (x : Z) : Z := if a =? b then x else 0.
Lemma ifk_same a x : ifk a a x = x.
Proof. unfold ifk. now rewrite Z.eqb_refl. Qed.
Lemma ifk_ne a b x : a <> b -> ifk a b x = 0.
Proof. unfold ifk. intros H. destruct (Z.eqb_spec a b); congruence. Qed.

Lemma move_ok lam a b x lam' : move lam a b x = Ok lam' ->
  x <= lam a /\ forall k, lam' k = lam k - ifk a k x + ifk b k x.
Proof.
  unfold move. intros H. apply guard_ok in H as (Hx & [= <-]). split; [lia|]. intros k. unfold ifk, upd.
  rewrite (Z.eqb_sym a k), (Z.eqb_sym b k). destruct (Z.eqb_spec k b), (Z.eqb_spec k a), (Z.eqb_spec b a); subst; try congruence; lia.
Qed.
Lemma move_runs lam a b x : x <= lam a -> exists lam', move lam a b x = Ok lam'.
Proof. intros H. unfold move. destruct (Z.leb_spec x (lam a)); [|lia]. eexists. reflexivity. Qed.
Lemma close_ok lam a b lam' : close_into lam a b = Ok lam' ->
  a <> b /\ forall k, lam' k = lam k - ifk a k (lam a) + ifk b k (lam a).
Proof.
  unfold close_into. intros H. apply guard_ok in H as (Hn & H). apply negb_true_iff, Z.eqb_neq in Hn.
  apply move_ok in H as (_ & H). auto.
Qed.
Lemma close_runs lam a b : a <> b -> exists lam', close_into lam a b = Ok lam'.
Proof.
  intros H. unfold close_into. destruct (Z.eqb_spec a b); [congruence|]. cbn [negb guard]. apply move_runs. lia.
Qed.
Lemma short_nonneg Rs lam k n : 0 <= short Rs lam k n.
Proof. unfold short. lia. Qed.
Lemma pay_ok Rs w lam payer k n lam' : pay_rent Rs w lam payer k n = Ok lam' ->
  payer <> k /\ (short Rs lam k n = 0 \/ w_tok w payer = None) /\ (0 < short Rs lam k n -> short Rs lam k n <= lam payer) /\
  forall j, lam' j = lam j - ifk payer j (short Rs lam k n) + ifk k j (short Rs lam k n).
Proof.
  unfold pay_rent, short. intros H. apply guard_ok in H as (Hn & H). apply negb_true_iff, Z.eqb_neq in Hn. split; [exact Hn|].
  destruct (Z.leb_spec (rent_for Rs n) (lam k)).
  - injection H as <-. replace (Z.max 0 (rent_for Rs n - lam k)) with 0 by lia. split; [auto|]. split; [lia|].
    intros j. unfold ifk. destruct (payer =? j), (k =? j); lia.
  - destruct (w_tok w payer); [discriminate|]. apply move_ok in H as (Hx & H).
    replace (Z.max 0 (rent_for Rs n - lam k)) with (rent_for Rs n - lam k) by lia. auto.
Qed.
Lemma pay_runs Rs w lam payer k n : payer <> k -> (short Rs lam k n = 0 \/ w_tok w payer = None) -> short Rs lam k n <= lam payer ->
  exists lam', pay_rent Rs w lam payer k n = Ok lam'.
Proof.
  intros Hn Ht Hs. unfold pay_rent. destruct (Z.eqb_spec payer k); [congruence|]. cbn [negb guard].
  destruct (Z.leb_spec (rent_for Rs n) (lam k)); [eauto|]. unfold short in *.
  destruct Ht as [Ht| ->]; [lia|]. apply move_runs. lia.
Qed.
Lemma shrink_ok Rs lam L refund n e lam' : shrink_rent Rs lam L refund n e = Ok lam' -> 1 <= Z.of_nat n ->
  let keep := if Z.of_nat n =? 1 then 0 else rent_for Rs (e * (Z.of_nat n - 1)) in
  let x := Z.max 0 (lam L - keep) in
  (Z.of_nat n = 1 -> L <> refund /\ forall k, lam' k = lam k - ifk L k (lam L) + ifk refund k (lam L)) /\
  (Z.of_nat n <> 1 -> forall k, lam' k = lam k - ifk L k x + ifk refund k x).
Proof.
  intros H Hn keep x. unfold shrink_rent in H. destruct (Z.eqb_spec (Z.of_nat n - 1) 0).
  - split; [|lia]. intros _. now apply close_ok.
  - split; [lia|]. intros _. subst keep x. destruct (Z.eqb_spec (Z.of_nat n) 1); [lia|]. unfold sat_sub in H.
    set (q := rent_for Rs (e * (Z.of_nat n - 1))) in *. cbn zeta in H.
    destruct (Z.leb_spec q (lam L)); cbn zeta in H.
    + replace (Z.max 0 (lam L - q)) with (lam L - q) by lia. destruct (Z.ltb_spec 0 (lam L - q)).
      * apply move_ok in H as (_ & H). exact H.
      * injection H as <-. intros k. replace (lam L - q) with 0 by lia. unfold ifk. destruct (L =? k), (refund =? k); lia.
    + injection H as <-. intros k. replace (Z.max 0 (lam L - q)) with 0 by lia. unfold ifk. destruct (L =? k), (refund =? k); lia.
Qed.
Lemma shrink_runs Rs lam L refund n e : (Z.of_nat n = 1 -> L <> refund) -> 0 <= rent_for Rs (e * (Z.of_nat n - 1)) ->
  exists lam', shrink_rent Rs lam L refund n e = Ok lam'.
Proof.
  intros H Hr. unfold shrink_rent. destruct (Z.eqb_spec (Z.of_nat n - 1) 0); [apply close_runs, H; lia|]. cbn zeta.
  destruct (0 <? _) eqn:Hx; [|eauto]. apply move_runs. unfold sat_sub in *. destruct (Z.leb_spec (rent_for Rs (e * (Z.of_nat n - 1))) (lam L)); cbn zeta in *; lia.
Qed.

Section Flows.
Context (Rs : Rents) (D : Derive).
Hypothesis HRs : rents_ok Rs.
Hypothesis HD : derive_ok D.

Lemma ata_not_pda wl p m k : In k controller_pdas -> fst (d_find D wl p m) <> k.
Proof.
  intros Hk <-. destruct HD as (H1 & _ & H3 & _). apply (H3 _ _ _ _ _ (H1 wl p m)). revert Hk. generalize (fst (d_find D wl p m)). intros z Hk.
  unfold controller_pdas, POOL_STATE_ID, LST_STATE_LIST_ID, DISABLE_POOL_AUTHORITY_LIST_ID, REBALANCE_RECORD_ID, PROTOCOL_FEE_ID in Hk.
  cbn [In] in Hk. lia.
Qed.
Lemma reserves_ne_accumulator w m : reserves_key D w m <> accumulator_key D w m.
Proof.
  intros H. unfold reserves_key, accumulator_key in H. destruct HD as (H1 & H2 & _).
  pose proof (H1 PROTOCOL_FEE_ID (w_owner w m) m) as A. rewrite <- H in A.
  destruct (H2 _ _ _ _ _ _ _ _ _ (H1 POOL_STATE_ID (w_owner w m) m) A) as (X & _). discriminate X.
Qed.

(** An instruction that went through in a reachable state, with its accounts named. *)
Inductive went (w : World) (accs : list Meta) : Ix -> Prop :=
| went_init payer a b c d e more : accs = payer :: a :: b :: c :: d :: e :: more -> mk b = POOL_STATE_ID ->
    is_signer payer = true -> is_writable payer = true -> is_writable b = true -> the_pool w = None -> went w accs Initialize
| went_add ps l adm payer m r f fa calc p L ata sys prog more :
    accs = adm :: payer :: m :: r :: f :: fa :: calc :: p :: L :: ata :: sys :: prog :: more ->
    the_pool w = Some ps -> running ps -> the_list w = Some l ->
    mk r = reserves_key D w (mk m) -> mk f = accumulator_key D w (mk m) -> mk L = LST_STATE_LIST_ID ->
    mk prog = w_owner w (mk m) -> is_signer payer = true -> is_writable payer = true -> is_writable r = true ->
    is_writable f = true -> is_writable L = true -> went w accs AddLst
| went_remove ps i before ls after adm refund m r f fa p L prog more :
    accs = adm :: refund :: m :: r :: f :: fa :: p :: L :: prog :: more ->
    the_pool w = Some ps -> running ps -> the_list w = Some (before ++ ls :: after) -> mk m = ls_mint ls ->
    mk r = reserves_key D w (mk m) -> mk f = accumulator_key D w (mk m) -> mk L = LST_STATE_LIST_ID ->
    is_writable refund = true -> is_writable r = true -> is_writable f = true -> is_writable L = true ->
    went w accs (RemoveLst i)
| went_add_auth au payer a b c L e more : accs = payer :: a :: b :: c :: L :: e :: more -> the_authorities w = Some au ->
    mk L = DISABLE_POOL_AUTHORITY_LIST_ID -> is_signer payer = true -> is_writable payer = true -> is_writable L = true ->
    went w accs AddDisablePoolAuthority
| went_remove_auth i before it after refund a b c L more : accs = refund :: a :: b :: c :: L :: more ->
    the_authorities w = Some (before ++ it :: after) ->
    mk L = DISABLE_POOL_AUTHORITY_LIST_ID -> is_writable refund = true -> is_writable L = true ->
    went w accs (RemoveDisablePoolAuthority i)
| went_start a ps x p L rc more : accs = x :: p :: L :: rc :: more -> mk p = POOL_STATE_ID -> mk rc = REBALANCE_RECORD_ID ->
    is_writable p = true -> is_writable rc = true -> the_pool w = Some ps -> running ps -> went w accs (StartRebalance a)
| went_end ps x p L rc more : accs = x :: p :: L :: rc :: more -> mk p = POOL_STATE_ID -> mk rc = REBALANCE_RECORD_ID ->
    is_writable p = true -> is_writable rc = true -> the_pool w = Some ps -> is_rebalancing ps <> 0 -> went w accs EndRebalance
| went_other ix : (forall lam, lam_step Rs w lam accs ix = Ok lam) -> (forall lam, rent_flows Rs w lam accs ix = []) ->
    match ix with Initialize | AddLst | RemoveLst _ | AddDisablePoolAuthority | RemoveDisablePoolAuthority _
    | StartRebalance _ | EndRebalance => False | _ => True end -> went w accs ix.

Lemma process_went E C w accs ix w' : reachable D w -> process D E C w accs ix = Ok w' -> went w accs ix.
Proof.
  intros HR H. destruct (is_admin_ix ix) eqn:Ha.
  - destruct (C48_only_permitted D HD E C w HR ix accs w' Ha H) as (asked & more & ch & Ru & P & _).
    destruct Ru; try (apply went_other; [reflexivity|reflexivity|exact I]).
    + take. eapply went_add_auth; try reflexivity; eassumption.
    + take. eapply went_remove_auth; try reflexivity; eassumption.
    + take. eapply went_add; try reflexivity; try eassumption; congruence.
    + take. eapply went_remove; try reflexivity; try eassumption; congruence.
    + take. eapply went_init; try reflexivity; eassumption.
  - pose proof H as H0. unfold process in H. apply guard_ok in H as (_ & H).
    destruct ix; try discriminate Ha; try (apply went_other; [reflexivity|reflexivity|exact I]).
    + apply start_rebalance_inv in H. destruct H as (x1 & x2 & x3 & x4 & x5 & x6 & x7 & x8 & x9 & x10 & x11 & x12 & cs & cd & ps & l & H).
      destruct H as (ls1 & ls2 & t1 & t2 & w1 & w2 & ps2 & w3 & w4 & ps4 & -> & _ & Hp & _ & Hr & _ & Hw & _ & _ & Hps & Hact & _).
      cbn [forallb] in Hw. repeat (apply andb_true_iff in Hw as (? & Hw)).
      eapply went_start; try reflexivity; eassumption.
    + apply end_rebalance_inv in H. destruct H as (x1 & x2 & x3 & x4 & x5 & x6 & c & ps & l & r & ld & w2 & ps2 & -> & H).
      destruct H as (Hp & _ & Hr & Hw1 & _ & Hw2 & _ & _ & Hps & Hb & _).
      eapply went_end; try reflexivity; eassumption.
Qed.

Lemma pda_pool : In POOL_STATE_ID controller_pdas. Proof. cbn; auto. Qed.
Lemma pda_list : In LST_STATE_LIST_ID controller_pdas. Proof. cbn; auto. Qed.
Lemma pda_auth : In DISABLE_POOL_AUTHORITY_LIST_ID controller_pdas. Proof. cbn; auto. Qed.
Lemma pda_rec : In REBALANCE_RECORD_ID controller_pdas. Proof. cbn; auto. Qed.
Lemma short_ext lam lam' k n : lam' k = lam k -> short Rs lam' k n = short Rs lam k n.
Proof. unfold short. now intros ->. Qed.

Lemma create_ok w lam payer k prog m lam' : create_ata_rent Rs w lam payer k prog m = Ok lam' ->
  let x := match w_tok w k with None => short Rs lam k (token_size Rs prog m) | Some _ => 0 end in
  0 <= x /\ (x = 0 \/ w_tok w payer = None) /\ (w_tok w k = None -> payer <> k) /\ (0 < x -> x <= lam payer) /\
  forall j, lam' j = lam j - ifk payer j x + ifk k j x.
Proof.
  intros H x. unfold create_ata_rent in H. subst x. destruct (w_tok w k) eqn:Hk.
  - injection H as <-. repeat split; auto; try lia; try discriminate. intros j. unfold ifk. destruct (payer =? j), (k =? j); lia.
  - apply pay_ok in H as (H1 & H2 & H3 & H4). split; [apply short_nonneg|]. auto.
Qed.

(** What AddLst pays, step by step, in terms of the balances before. *)
Lemma add_core w lam l1 l2 lam' payer m r f n :
  r = reserves_key D w m -> f = accumulator_key D w m ->
  create_ata_rent Rs w lam payer r (w_owner w m) m = Ok l1 ->
  create_ata_rent Rs w l1 payer f (w_owner w m) m = Ok l2 ->
  pay_rent Rs w l2 payer LST_STATE_LIST_ID n = Ok lam' ->
  let size := token_size Rs (w_owner w m) m in
  let c k := match w_tok w k with None => short Rs lam k size | Some _ => 0 end in
  let x := short Rs lam LST_STATE_LIST_ID n in
  payer <> LST_STATE_LIST_ID /\ (w_tok w r = None -> payer <> r) /\ (w_tok w f = None -> payer <> f) /\
  (c r + c f + x = 0 \/ w_tok w payer = None) /\
  0 <= c r /\ 0 <= c f /\ 0 <= x /\ (0 < c r + c f + x -> c r + c f + x <= lam payer) /\
  forall k, lam' k = lam k - ifk payer k (c r) - ifk payer k (c f) - ifk payer k x + ifk r k (c r) + ifk f k (c f) + ifk LST_STATE_LIST_ID k x.
Proof.
  intros Er Ef H1 H2 H3 size c x.
  assert (Nrf : r <> f) by (rewrite Er, Ef; apply reserves_ne_accumulator).
  assert (NrL : r <> LST_STATE_LIST_ID) by (rewrite Er; apply ata_not_pda, pda_list).
  assert (NfL : f <> LST_STATE_LIST_ID) by (rewrite Ef; apply ata_not_pda, pda_list).
  apply create_ok in H1 as (P1 & T1 & N1 & A1 & F1). apply create_ok in H2 as (P2 & T2 & N2 & A2 & F2).
  apply pay_ok in H3 as (N3 & T3 & A3 & F3).
  fold size in P1, T1, A1, F1, P2, T2, A2, F2.
  assert (E2 : match w_tok w f with None => short Rs l1 f size | Some _ => 0 end = c f).
  { unfold c. destruct (w_tok w f) eqn:Hf; [reflexivity|]. pose proof (N2 eq_refl). apply short_ext. rewrite F1, (ifk_ne payer f), (ifk_ne r f); auto; lia. }
  rewrite E2 in *. fold (c r) in P1, T1, A1, F1.
  assert (E3 : short Rs l2 LST_STATE_LIST_ID n = x).
  { apply short_ext. rewrite F2, F1, !(ifk_ne payer LST_STATE_LIST_ID), (ifk_ne r), (ifk_ne f); auto; lia. }
  rewrite E3 in *.
  pose proof (short_nonneg Rs lam LST_STATE_LIST_ID n) as P3. fold x in P3.
  assert (Hpr : c r <> 0 -> payer <> r). { unfold c. destruct (w_tok w r); [lia|auto]. }
  assert (Hpf : c f <> 0 -> payer <> f). { unfold c. destruct (w_tok w f); [lia|auto]. }
  assert (Q1 : l1 payer = lam payer - c r + ifk r payer (c r)) by (rewrite F1, ifk_same; reflexivity).
  assert (Q1' : l1 payer = lam payer - c r).
  { rewrite Q1. destruct (Z.eq_dec (c r) 0) as [->|N]; [unfold ifk; destruct (r =? payer); lia|]. rewrite ifk_ne; [lia|]. intros E. symmetry in E. exact (Hpr N E). }
  assert (Q2' : l2 payer = lam payer - c r - c f).
  { rewrite F2, ifk_same, Q1'. destruct (Z.eq_dec (c f) 0) as [->|N]; [unfold ifk; destruct (f =? payer); lia|]. rewrite ifk_ne; [lia|]. intros E. symmetry in E. exact (Hpf N E). }
  split; [exact N3|]. split; [exact N1|]. split; [exact N2|]. split.
  { destruct T1 as [T1|T1], T2 as [T2|T2], T3 as [T3|T3]; auto. left. rewrite T1, T2, T3. reflexivity. }
  split; [exact P1|]. split; [exact P2|]. split; [exact P3|]. split.
  { intros Hpos. rewrite Q1' in A2. rewrite Q2' in A3. clear - A1 A2 A3 P1 P2 P3 Q1' Q2' Hpos.
    destruct (Z.eq_dec x 0) as [E0|]; [rewrite E0 in *|lia]. destruct (Z.eq_dec (c f) 0) as [E1|]; [rewrite E1 in *|]; lia. }
  intros k. rewrite F3, F2, F1. lia.
Qed.

Lemma lists_here {A} (a b : list A) x : Z.of_nat (length (a ++ x :: b)) = Z.of_nat (length (a ++ b)) + 1.
Proof. rewrite !app_length. cbn. lia. Qed.
Lemma len1 {A} (a b : list A) x : 1 <= Z.of_nat (length (a ++ x :: b)).
Proof. rewrite lists_here. lia. Qed.
Lemma app_cons_ne {A} (a b : list A) x : a ++ x :: b <> [].
Proof. destruct a; discriminate. Qed.
Lemma rent_mono n m : 0 <= n <= m -> rent_for Rs n <= rent_for Rs m.
Proof. apply HRs. Qed.

Lemma flows_ok E C w lam accs ix w' lam' :
  reachable D w -> funded Rs (w, lam) ->
  process D E C w accs ix = Ok w' -> lam_step Rs w lam accs ix = Ok lam' ->
  settled lam (rent_flows Rs w lam accs ix) lam'.
Proof.
  intros HR HI H HL.
  destruct (process_went E C w accs ix w' HR H) as
    [payer a b c d e more -> Hb _ _ _ _
    |ps l adm payer m r f fa calc p L ata sys prog more -> Hp Hru Hl Hr Hf HLk Hprog _ _ _ _ _
    |ps i before ls after adm refund m r f fa p L prog more -> Hp Hru Hl Hm Hr Hf HLk _ _ _ _
    |au payer a b c L e more -> Ha HLk _ _ _
    |i before it after refund a b c L more -> Ha HLk _ _
    |a ps x p L rc more -> Hp Hrc _ _ _ _
    |ps x p L rc more -> Hp Hrc _ _ _ _
    |ix E1 E2 _].
  - cbn [lam_step] in HL. apply pay_ok in HL as (_ & _ & _ & F). rewrite Hb in F. change POOL_STATE_SIZE with 176 in F.
    intros k. rewrite F. unfold paid_out, received, ifk. cbn. lia.
  - cbn [lam_step] in HL. rewrite Hprog, HLk in HL. unfold the_list in Hl. rewrite Hl in HL. cbn [list_len] in HL.
    apply bind_ok in HL as (l1 & H1 & HL). destruct (Z.eqb_spec (mk f) (mk r)) as [E1|_].
    { exfalso. rewrite Hr, Hf in E1. symmetry in E1. revert E1. apply reserves_ne_accumulator. }
    apply bind_ok in HL as (l2 & H2 & HL). unfold extend_rent in HL.
    destruct (add_core _ _ _ _ _ _ _ _ _ _ Hr Hf H1 H2 HL) as (_ & _ & _ & _ & _ & _ & _ & _ & F).
    intros k. rewrite F. unfold paid_out, received, rent_flows, the_list. rewrite Hl. change LST_STATE_SIZE with 80.
    cbn [map sumZ fl_from fl_to fl_amount key_at nth_error]. unfold ifk. cbn [key_at nth_error]. lia.
  - cbn [lam_step] in HL. rewrite HLk in HL. pose proof Hl as Hl0. unfold the_list in Hl. rewrite Hl in HL. cbn [list_len] in HL.
    apply bind_ok in HL as (l1 & H1 & HL). apply bind_ok in HL as (l2 & H2 & HL).
    apply close_ok in H1 as (N1 & F1). apply close_ok in H2 as (N2 & F2).
    apply shrink_ok in HL as (S1 & S2); [|apply len1].
    assert (Nrf : mk r <> mk f) by (rewrite Hr, Hf; apply reserves_ne_accumulator).
    assert (NrL : mk r <> LST_STATE_LIST_ID) by (rewrite Hr; apply ata_not_pda, pda_list).
    assert (NfL : mk f <> LST_STATE_LIST_ID) by (rewrite Hf; apply ata_not_pda, pda_list).
    assert (Q1 : l1 (mk r) = lam (mk r)).
    { rewrite F1, (ifk_ne (mk f)), (ifk_ne (mk refund)); auto; lia. }
    rewrite Q1 in F2.
    pose proof (li_list _ _ HI _ Hl0 (app_cons_ne _ _ _)) as Hex. unfold exempt in Hex. cbn [fst snd] in Hex.
    intros k. unfold paid_out, received, rent_flows. rewrite Hl0. cbn [map sumZ fl_from fl_to fl_amount key_at nth_error].
    set (n := Z.of_nat (length (before ++ ls :: after))) in *. pose proof (len1 before after ls) as Hn. fold n in Hn.
    assert (QL : l2 LST_STATE_LIST_ID = lam LST_STATE_LIST_ID + ifk (mk refund) LST_STATE_LIST_ID (lam (mk f)) + ifk (mk refund) LST_STATE_LIST_ID (lam (mk r))).
    { rewrite F2, F1, (ifk_ne (mk f)), (ifk_ne (mk r)); auto. lia. }
    destruct (Z.eqb_spec n 1) as [E1|N].
    + destruct (S1 E1) as (N3 & F3). rewrite F3, F2, F1.
      rewrite !(ifk_ne (mk refund) LST_STATE_LIST_ID) in QL by congruence.
      rewrite QL. replace (lam LST_STATE_LIST_ID + 0 + 0) with (lam LST_STATE_LIST_ID) by lia. rewrite Z.sub_0_r. unfold ifk. cbn [key_at nth_error]. lia.
    + rewrite (S2 N), F2, F1. change LST_STATE_SIZE with 80 in *.
      assert (Hm2 : rent_for Rs (80 * (n - 1)) <= rent_for Rs (80 * n)) by (apply rent_mono; lia).
      pose proof (li_nonneg _ _ HI (mk f)) as Pf. pose proof (li_nonneg _ _ HI (mk r)) as Pr. cbn [snd] in Pf, Pr.
      destruct (Z.eq_dec (mk refund) LST_STATE_LIST_ID) as [Er|Ner].
      * unfold key_at. cbn [nth_error]. rewrite Er. unfold ifk. destruct (LST_STATE_LIST_ID =? k); lia.
      * rewrite !(ifk_ne (mk refund) LST_STATE_LIST_ID) in QL by congruence. rewrite QL.
        replace (Z.max 0 (lam LST_STATE_LIST_ID + 0 + 0 - rent_for Rs (80 * (n - 1)))) with (lam LST_STATE_LIST_ID - rent_for Rs (80 * (n - 1))) by lia.
        unfold ifk. cbn [key_at nth_error]. lia.
  - cbn [lam_step] in HL. rewrite HLk in HL. pose proof Ha as Ha0. unfold the_authorities in Ha. rewrite Ha in HL. cbn [list_len] in HL.
    unfold extend_rent in HL. apply pay_ok in HL as (_ & _ & _ & F). change PUBKEY_SIZE with 32 in F.
    intros k. rewrite F. unfold paid_out, received, rent_flows. rewrite Ha0. unfold ifk. cbn [map sumZ fl_from fl_to fl_amount key_at nth_error]. lia.
  - cbn [lam_step] in HL. rewrite HLk in HL. pose proof Ha as Ha0. unfold the_authorities in Ha. rewrite Ha in HL. cbn [list_len] in HL.
    apply shrink_ok in HL as (S1 & S2); [|apply len1].
    pose proof (li_auth _ _ HI _ Ha0 (app_cons_ne _ _ _)) as Hex. unfold exempt in Hex. cbn [fst snd] in Hex.
    intros k. unfold paid_out, received, rent_flows. rewrite Ha0. cbn [map sumZ fl_from fl_to fl_amount key_at nth_error].
    set (n := Z.of_nat (length (before ++ it :: after))) in *. pose proof (len1 before after it) as Hn. fold n in Hn.
    destruct (Z.eqb_spec n 1) as [E1|N].
    + destruct (S1 E1) as (N3 & F3). rewrite F3, Z.sub_0_r. unfold ifk. cbn [key_at nth_error]. lia.
    + rewrite (S2 N). change PUBKEY_SIZE with 32 in *.
      assert (Hm2 : rent_for Rs (32 * (n - 1)) <= rent_for Rs (32 * n)) by (apply rent_mono; lia).
      replace (Z.max 0 (lam DISABLE_POOL_AUTHORITY_LIST_ID - rent_for Rs (32 * (n - 1)))) with (lam DISABLE_POOL_AUTHORITY_LIST_ID - rent_for Rs (32 * (n - 1))) by lia.
      unfold ifk. cbn [key_at nth_error]. lia.
  - cbn [lam_step] in HL. rewrite Hp, Hrc in HL. apply move_ok in HL as (_ & F). intros k. rewrite F.
    unfold paid_out, received, rent_flows, ifk. cbn [map sumZ fl_from fl_to fl_amount]. lia.
  - cbn [lam_step] in HL. rewrite Hp, Hrc in HL. apply close_ok in HL as (_ & F). intros k. rewrite F.
    unfold paid_out, received, rent_flows, ifk. cbn [map sumZ fl_from fl_to fl_amount]. lia.
  - rewrite E1 in HL. injection HL as <-. rewrite E2. intros k. unfold paid_out, received. cbn. lia.
Qed.

(* ------------------------------------------------------------------ *)
(** * Rent-exemption is kept *)
Lemma over_nil {A} (f : key -> A) k : over [] f k = f k.
Proof. reflexivity. Qed.
Lemma over_cons {A} a (x : A) l f k : over ((a, x) :: l) f k = if a =? k then x else over l f k.
Proof. unfold over. cbn. destruct (a =? k); reflexivity. Qed.

Lemma add_effect E C w accs w' : reachable D w -> process D E C w accs AddLst = Ok w' ->
  exists l e, the_list w = Some l /\ the_list w' = Some (l ++ [e]) /\
    forall k t, w_tok w' k = Some t ->
      (w_tok w k = Some t /\ w_owner w' k = w_owner w k) \/
      (w_tok w k = None /\ (k = key_at accs 3 \/ k = key_at accs 4) /\ ta_mint t = key_at accs 2 /\
       w_owner w' k = w_owner w (key_at accs 2)).
Proof.
  intros HR H. destruct (C48_only_permitted D HD E C w HR AddLst accs w' eq_refl H) as (asked & more & ch & Ru & P & A).
  inversion Ru; subst. take. destruct A as [_ Al _ _ _ _ At _ Ao _ _]. cbn [ch_list ch_tok ch_owner] in *.
  eexists l, _. split; [assumption|]. split; [exact Al|]. intros k t Hk. rewrite At in Hk. rewrite Ao.
  unfold key_at. cbn [nth_error]. 
  repeat match goal with X : mk _ = _ |- _ => rewrite X in * end.
  set (R := reserves_key D w m) in *. set (F := accumulator_key D w m) in *.
  unfold created, created_owner in *.
  destruct (w_tok w R) eqn:ER, (w_tok w F) eqn:EF; cbn [app] in *; rewrite ?over_cons, ?over_nil in *.
  - auto.
  - destruct (Z.eqb_spec F k) as [<-|N]; [right|auto]. injection Hk as <-. cbn. auto.
  - destruct (Z.eqb_spec R k) as [<-|N]; [right|auto]. injection Hk as <-. cbn. auto.
  - destruct (Z.eqb_spec R k) as [<-|N]; [right|destruct (Z.eqb_spec F k) as [<-|N2]; [right|auto]]; injection Hk as <-; cbn; auto.
Qed.

Lemma remove_effect E C w accs i w' : reachable D w -> process D E C w accs (RemoveLst i) = Ok w' ->
  exists before ls after, the_list w = Some (before ++ ls :: after) /\ the_list w' = Some (before ++ after) /\
    forall k t, w_tok w' k = Some t ->
      w_tok w k = Some t /\ w_owner w' k = w_owner w k /\ k <> key_at accs 3 /\ k <> key_at accs 4.
Proof.
  intros HR H. destruct (C48_only_permitted D HD E C w HR (RemoveLst i) accs w' eq_refl H) as (asked & more & ch & Ru & P & A).
  inversion Ru; subst. take. destruct A as [_ Al _ _ _ _ At _ Ao _ _]. cbn [ch_list ch_tok ch_owner] in *.
  exists before, ls, after. split; [assumption|]. split; [exact Al|]. intros k t Hk. rewrite At in Hk. rewrite Ao.
  unfold key_at. cbn [nth_error].
  repeat match goal with X : mk _ = _ |- _ => rewrite X in * end.
  rewrite !over_cons, over_nil in *.
  destruct (Z.eqb_spec (reserves_key D w (ls_mint ls)) k); [discriminate|]. destruct (Z.eqb_spec (accumulator_key D w (ls_mint ls)) k); [discriminate|].
  auto.
Qed.

Lemma ifk_nonneg a b x : 0 <= x -> 0 <= ifk a b x.
Proof. unfold ifk. destruct (a =? b); lia. Qed.
Lemma ifk_pos a b x : 0 < ifk a b x -> a = b /\ 0 < x.
Proof. unfold ifk. destruct (Z.eqb_spec a b); [auto|lia]. Qed.

Lemma lam_losers E C w lam accs ix w' lam' :
  reachable D w -> funded Rs (w, lam) -> process D E C w accs ix = Ok w' -> lam_step Rs w lam accs ix = Ok lam' ->
  (forall k, 0 <= lam' k) /\ (forall k, lam' k < lam k -> may_lose w accs ix k).
Proof.
  intros HR HI H HL. pose proof (flows_ok _ _ _ _ _ _ _ _ HR HI H HL) as Hset.
  pose proof (li_nonneg _ _ HI) as P0. cbn [snd] in P0.
  destruct (process_went E C w accs ix w' HR H) as
    [payer a b c d e more -> Hb S1 W1 _ _
    |ps l adm payer m r f fa calc p L ata sys prog more -> Hp Hru Hl Hr Hf HLk Hprog S1 W1 _ _ _
    |ps i before ls after adm refund m r f fa p L prog more -> Hp Hru Hl Hm Hr Hf HLk _ _ _ _
    |au payer a b c L e more -> Ha HLk S1 W1 _
    |i before it after refund a b c L more -> Ha HLk _ _
    |a ps x p L rc more -> Hp Hrc _ _ _ _
    |ps x p L rc more -> Hp Hrc _ _ _ _
    |ix E1 E2 _].
  - cbn [lam_step] in HL. apply pay_ok in HL as (N & T & A & F).
    set (x := short Rs lam (mk b) POOL_STATE_SIZE) in *. assert (Px : 0 <= x) by apply short_nonneg.
    split; intros k.
    + rewrite F. pose proof (P0 k). pose proof (ifk_nonneg (mk b) k x Px). unfold ifk in *. destruct (Z.eqb_spec (mk payer) k) as [<-|]; lia.
    + rewrite F. intros Hlt. pose proof (ifk_nonneg (mk b) k x Px). destruct (ifk_pos (mk payer) k x) as (<- & Hx); [lia|].
      left. split; [|split]; [exists payer; cbn; auto|exists payer; cbn; auto|destruct T; [lia|assumption]].
  - cbn [lam_step] in HL. rewrite Hprog, HLk in HL. unfold the_list in Hl. rewrite Hl in HL. cbn [list_len] in HL.
    apply bind_ok in HL as (l1 & H1 & HL). destruct (Z.eqb_spec (mk f) (mk r)) as [E1|_].
    { exfalso. rewrite Hr, Hf in E1. symmetry in E1. revert E1. apply reserves_ne_accumulator. }
    apply bind_ok in HL as (l2 & H2 & HL). unfold extend_rent in HL.
    destruct (add_core _ _ _ _ _ _ _ _ _ _ Hr Hf H1 H2 HL) as (_ & _ & _ & T & P1 & P2 & P3 & A & F).
    cbv zeta in *.
    set (c1 := match w_tok w (mk r) with None => _ | Some _ => 0 end) in *.
    set (c2 := match w_tok w (mk f) with None => _ | Some _ => 0 end) in *.
    set (c3 := short Rs lam LST_STATE_LIST_ID _) in *.
    split; intros k; rewrite F; pose proof (ifk_nonneg (mk r) k _ P1); pose proof (ifk_nonneg (mk f) k _ P2); pose proof (ifk_nonneg LST_STATE_LIST_ID k _ P3).
    + pose proof (P0 k). clear F. unfold ifk in *. destruct (Z.eqb_spec (mk payer) k) as [<-|]; lia.
    + intros Hlt. clear F. destruct (Z.eq_dec (mk payer) k) as [<-|N].
      * left. split; [|split]; [exists payer; cbn; auto|exists payer; cbn; auto|destruct T; [|assumption]].
        rewrite !ifk_same in Hlt. lia.
      * rewrite !(ifk_ne (mk payer) k) in Hlt by auto. lia.
  - cbn [lam_step] in HL. rewrite HLk in HL. pose proof Hl as Hl0. unfold the_list in Hl. rewrite Hl in HL. cbn [list_len] in HL.
    apply bind_ok in HL as (l1 & H1 & HL). apply bind_ok in HL as (l2 & H2 & HL).
    apply close_ok in H1 as (N1 & F1). apply close_ok in H2 as (N2 & F2).
    assert (Z1 : forall k, 0 <= l1 k /\ (k <> mk f -> lam k <= l1 k)).
    { intros k. rewrite F1. pose proof (P0 k). pose proof (P0 (mk f)) as Q. pose proof (ifk_nonneg (mk refund) k _ Q).
      unfold ifk in *. destruct (Z.eqb_spec (mk f) k) as [<-|]; split; try lia; congruence. }
    assert (Z2 : forall k, 0 <= l2 k /\ (k <> mk f -> k <> mk r -> lam k <= l2 k)).
    { intros k. rewrite F2. destruct (Z1 k) as (Q1 & Q2). destruct (Z1 (mk r)) as (Q3 & _). pose proof (ifk_nonneg (mk refund) k _ Q3).
      unfold ifk in *. destruct (Z.eqb_spec (mk r) k) as [<-|]; split; try lia; congruence. }
    apply shrink_ok in HL as (S1 & S2); [|apply len1].
    set (n := Z.of_nat (length (before ++ ls :: after))) in *.
    assert (Z3 : forall k, 0 <= lam' k /\ (k <> mk f -> k <> mk r -> k <> LST_STATE_LIST_ID -> lam k <= lam' k)).
    { intros k. destruct (Z2 k) as (Q1 & Q2). destruct (Z2 LST_STATE_LIST_ID) as (Q3 & _).
      destruct (Z.eq_dec n 1) as [En|Nn].
      - destruct (S1 En) as (_ & F3). rewrite F3. pose proof (ifk_nonneg (mk refund) k _ Q3). clear F1 F2 F3 S1 S2.
        unfold ifk in *. destruct (Z.eqb_spec LST_STATE_LIST_ID k) as [<-|]; split; try lia; congruence.
      - rewrite (S2 Nn). clear S1 S2 F1 F2. destruct (Z.eqb_spec n 1) as [E9|_]; [contradiction|].
        assert (Hq : 0 < rent_for Rs (LST_STATE_SIZE * (n - 1))).
        { apply HRs. unfold LST_STATE_SIZE. pose proof (len1 before after ls) as Q9. fold n in Q9. lia. }
        set (q := rent_for Rs (LST_STATE_SIZE * (n - 1))) in *.
        pose proof (ifk_nonneg (mk refund) k (Z.max 0 (l2 LST_STATE_LIST_ID - q)) ltac:(lia)).
        unfold ifk in *. destruct (Z.eqb_spec LST_STATE_LIST_ID k) as [<-|]; split; try lia; congruence. }
    split; [apply Z3|]. intros k Hlt. right. unfold key_at. cbn [nth_error].
    destruct (Z3 k) as (_ & Q). destruct (Z.eq_dec k (mk f)); [auto|]. destruct (Z.eq_dec k (mk r)); [auto|]. destruct (Z.eq_dec k LST_STATE_LIST_ID); [auto|].
    specialize (Q n0 n1 n2). lia.
  - cbn [lam_step] in HL. rewrite HLk in HL. unfold extend_rent in HL. apply pay_ok in HL as (N & T & A & F).
    set (x := short Rs lam _ _) in *. assert (Px : 0 <= x) by apply short_nonneg.
    split; intros k; rewrite F; pose proof (ifk_nonneg DISABLE_POOL_AUTHORITY_LIST_ID k x Px).
    + pose proof (P0 k). unfold ifk in *. destruct (Z.eqb_spec (mk payer) k) as [<-|]; lia.
    + intros Hlt. destruct (ifk_pos (mk payer) k x) as (<- & Hx); [lia|].
      left. split; [|split]; [exists payer; cbn; auto|exists payer; cbn; auto|destruct T; [lia|assumption]].
  - cbn [lam_step] in HL. rewrite HLk in HL. pose proof Ha as Ha0. unfold the_authorities in Ha. rewrite Ha in HL. cbn [list_len] in HL.
    apply shrink_ok in HL as (S1 & S2); [|apply len1].
    set (n := Z.of_nat (length (before ++ it :: after))) in *.
    assert (Z3 : forall k, 0 <= lam' k /\ (k <> DISABLE_POOL_AUTHORITY_LIST_ID -> lam k <= lam' k)).
    { intros k. pose proof (P0 k) as Q1. pose proof (P0 DISABLE_POOL_AUTHORITY_LIST_ID) as Q3.
      destruct (Z.eq_dec n 1) as [En|Nn].
      - destruct (S1 En) as (_ & F3). rewrite F3. pose proof (ifk_nonneg (mk refund) k _ Q3). clear F3 S1 S2.
        unfold ifk in *. destruct (Z.eqb_spec DISABLE_POOL_AUTHORITY_LIST_ID k) as [<-|]; split; try lia; congruence.
      - rewrite (S2 Nn). clear S1 S2. destruct (Z.eqb_spec n 1) as [E9|_]; [contradiction|].
        assert (Hq : 0 < rent_for Rs (PUBKEY_SIZE * (n - 1))).
        { apply HRs. unfold PUBKEY_SIZE. pose proof (len1 before after it) as Q9. fold n in Q9. lia. }
        set (q := rent_for Rs (PUBKEY_SIZE * (n - 1))) in *.
        pose proof (ifk_nonneg (mk refund) k (Z.max 0 (lam DISABLE_POOL_AUTHORITY_LIST_ID - q)) ltac:(lia)).
        unfold ifk in *. destruct (Z.eqb_spec DISABLE_POOL_AUTHORITY_LIST_ID k) as [<-|]; split; try lia; congruence. }
    split; [apply Z3|]. intros k Hlt. right.
    destruct (Z3 k) as (_ & Q). destruct (Z.eq_dec k DISABLE_POOL_AUTHORITY_LIST_ID); [auto|]. specialize (Q n0). lia.
  - cbn [lam_step] in HL. rewrite Hp, Hrc in HL. apply move_ok in HL as (Hx & F).
    split; intros k; rewrite F; clear F; pose proof (P0 k); unfold ifk in *.
    + destruct (Z.eqb_spec POOL_STATE_ID k) as [E9|]; [rewrite E9 in Hx|]; destruct (REBALANCE_RECORD_ID =? k); lia.
    + intros Hlt. right. destruct (Z.eqb_spec POOL_STATE_ID k) as [<-|]; [auto|]. destruct (REBALANCE_RECORD_ID =? k); lia.
  - cbn [lam_step] in HL. rewrite Hp, Hrc in HL. apply close_ok in HL as (Hx & F). pose proof (P0 REBALANCE_RECORD_ID).
    split; intros k; rewrite F; clear F; pose proof (P0 k); unfold ifk in *.
    + destruct (Z.eqb_spec REBALANCE_RECORD_ID k) as [E9|]; [rewrite E9 in *|]; destruct (POOL_STATE_ID =? k); lia.
    + intros Hlt. right. destruct (Z.eqb_spec REBALANCE_RECORD_ID k) as [<-|]; [auto|]. destruct (POOL_STATE_ID =? k); lia.
  - rewrite E1 in HL. injection HL as <-. split; [exact P0|]. intros k Hlt. lia.
Qed.

(** What has to be rent-exempt because it was just created or enlarged, and what the lists keep. *)
Lemma lam_gets E C w lam accs ix w' lam' :
  reachable D w -> funded Rs (w, lam) -> process D E C w accs ix = Ok w' -> lam_step Rs w lam accs ix = Ok lam' ->
  match ix with
  | Initialize => rent_for Rs 176 <= lam' POOL_STATE_ID
  | AddLst => (forall l, the_list w = Some l -> rent_for Rs (80 * (Z.of_nat (length l) + 1)) <= lam' LST_STATE_LIST_ID) /\
      (forall k, k = key_at accs 3 \/ k = key_at accs 4 -> w_tok w k = None ->
         rent_for Rs (token_size Rs (w_owner w (key_at accs 2)) (key_at accs 2)) <= lam' k)
  | RemoveLst _ => forall l, the_list w = Some l -> Z.of_nat (length l) <> 1 ->
      rent_for Rs (80 * (Z.of_nat (length l) - 1)) <= lam' LST_STATE_LIST_ID
  | AddDisablePoolAuthority => forall l, the_authorities w = Some l ->
      rent_for Rs (32 * (Z.of_nat (length l) + 1)) <= lam' DISABLE_POOL_AUTHORITY_LIST_ID
  | RemoveDisablePoolAuthority _ => forall l, the_authorities w = Some l -> Z.of_nat (length l) <> 1 ->
      rent_for Rs (32 * (Z.of_nat (length l) - 1)) <= lam' DISABLE_POOL_AUTHORITY_LIST_ID
  | StartRebalance _ => lam' POOL_STATE_ID = lam POOL_STATE_ID - 1 /\ lam' REBALANCE_RECORD_ID = lam REBALANCE_RECORD_ID + 1
  | EndRebalance => lam' POOL_STATE_ID = lam POOL_STATE_ID + lam REBALANCE_RECORD_ID /\ lam' REBALANCE_RECORD_ID = 0
  | _ => True
  end.
Proof.
  intros HR HI H HL. pose proof (flows_ok _ _ _ _ _ _ _ _ HR HI H HL) as Hset.
  pose proof (li_nonneg _ _ HI) as P0. cbn [snd] in P0.
  destruct (process_went E C w accs ix w' HR H) as
    [payer a b c d e more -> Hb S1 W1 _ _
    |ps l adm payer m r f fa calc p L ata sys prog more -> Hp Hru Hl Hr Hf HLk Hprog S1 W1 _ _ _
    |ps i before ls after adm refund m r f fa p L prog more -> Hp Hru Hl Hm Hr Hf HLk _ _ _ _
    |au payer a b c L e more -> Ha HLk S1 W1 _
    |i before it after refund a b c L more -> Ha HLk _ _
    |a ps x p L rc more -> Hp Hrc _ _ _ _
    |ps x p L rc more -> Hp Hrc _ _ _ _
    |ix E1 E2 Hno].
  - cbn [lam_step] in HL. rewrite Hb in HL. apply pay_ok in HL as (N & T & A & F). rewrite F, ifk_same, ifk_ne by auto.
    unfold short, POOL_STATE_SIZE. lia.
  - cbn [lam_step] in HL. rewrite Hprog, HLk in HL. pose proof Hl as Hl0. unfold the_list in Hl. rewrite Hl in HL. cbn [list_len] in HL.
    apply bind_ok in HL as (l1 & H1 & HL). destruct (Z.eqb_spec (mk f) (mk r)) as [E1|_].
    { exfalso. rewrite Hr, Hf in E1. symmetry in E1. revert E1. apply reserves_ne_accumulator. }
    apply bind_ok in HL as (l2 & H2 & HL). unfold extend_rent in HL.
    destruct (add_core _ _ _ _ _ _ _ _ _ _ Hr Hf H1 H2 HL) as (N1 & N2 & N3 & T & P1 & P2 & P3 & A & F).
    assert (Nrf : mk r <> mk f) by (rewrite Hr, Hf; apply reserves_ne_accumulator).
    assert (NrL : mk r <> LST_STATE_LIST_ID) by (rewrite Hr; apply ata_not_pda, pda_list).
    assert (NfL : mk f <> LST_STATE_LIST_ID) by (rewrite Hf; apply ata_not_pda, pda_list).
    split.
    + intros l' Hl'. assert (l' = l) by congruence. subst l'. rewrite F, ifk_same, !(ifk_ne _ LST_STATE_LIST_ID) by auto.
      unfold short. change LST_STATE_SIZE with 80. lia.
    + unfold key_at. cbn [nth_error]. intros k [-> | ->] Hk; rewrite F, Hk, ifk_same.
      * rewrite !(ifk_ne (mk payer)) by auto. rewrite (ifk_ne (mk f)), (ifk_ne LST_STATE_LIST_ID) by auto. unfold short. lia.
      * rewrite !(ifk_ne (mk payer)) by auto. rewrite (ifk_ne (mk r)), (ifk_ne LST_STATE_LIST_ID) by auto. unfold short. lia.
  - intros l Hl' Hn. assert (l = before ++ ls :: after) by congruence. subst l.
    assert (NrL : mk r <> LST_STATE_LIST_ID) by (rewrite Hr; apply ata_not_pda, pda_list).
    assert (NfL : mk f <> LST_STATE_LIST_ID) by (rewrite Hf; apply ata_not_pda, pda_list).
    rewrite Hset. unfold paid_out, received, rent_flows. rewrite Hl. cbn [map sumZ fl_from fl_to fl_amount key_at nth_error].
    unfold key_at. cbn [nth_error]. apply Z.eqb_neq in Hn. rewrite Hn. apply Z.eqb_neq in NrL, NfL. rewrite NrL, NfL, Z.eqb_refl.
    pose proof (P0 (mk r)). pose proof (P0 (mk f)).
    pose proof (li_list _ _ HI _ Hl (app_cons_ne _ _ _)) as Hex. unfold exempt in Hex. cbn [fst snd] in Hex.
    pose proof (len1 before after ls). set (n := Z.of_nat _) in *.
    assert (rent_for Rs (80 * (n - 1)) <= rent_for Rs (80 * n)) by (apply rent_mono; lia).
    destruct (mk refund =? LST_STATE_LIST_ID); lia.
  - cbn [lam_step] in HL. rewrite HLk in HL. pose proof Ha as Ha0. unfold the_authorities in Ha. rewrite Ha in HL. cbn [list_len] in HL.
    unfold extend_rent in HL. apply pay_ok in HL as (N & T & A & F).
    intros l Hl. assert (l = au) by congruence. subst l. rewrite F, ifk_same, ifk_ne by auto. unfold short, PUBKEY_SIZE. lia.
  - intros l Hl' Hn. assert (l = before ++ it :: after) by congruence. subst l.
    rewrite Hset. unfold paid_out, received, rent_flows. rewrite Ha. cbn [map sumZ fl_from fl_to fl_amount key_at nth_error].
    unfold key_at. cbn [nth_error]. apply Z.eqb_neq in Hn. rewrite Hn, Z.eqb_refl.
    pose proof (li_auth _ _ HI _ Ha (app_cons_ne _ _ _)) as Hex. unfold exempt in Hex. cbn [fst snd] in Hex.
    pose proof (len1 before after it). set (n := Z.of_nat _) in *.
    assert (rent_for Rs (32 * (n - 1)) <= rent_for Rs (32 * n)) by (apply rent_mono; lia).
    destruct (mk refund =? DISABLE_POOL_AUTHORITY_LIST_ID); lia.
  - split; rewrite Hset; unfold paid_out, received, rent_flows; cbn [map sumZ fl_from fl_to fl_amount]; rewrite Z.eqb_refl.
    + change (REBALANCE_RECORD_ID =? POOL_STATE_ID) with false. cbv iota. lia.
    + change (POOL_STATE_ID =? REBALANCE_RECORD_ID) with false. cbv iota. lia.
  - split; rewrite Hset; unfold paid_out, received, rent_flows; cbn [map sumZ fl_from fl_to fl_amount]; rewrite Z.eqb_refl.
    + change (REBALANCE_RECORD_ID =? POOL_STATE_ID) with false. cbv iota. lia.
    + change (POOL_STATE_ID =? REBALANCE_RECORD_ID) with false. cbv iota. lia.
  - destruct ix; try exact I; contradiction.
Qed.

Lemma strip_len (a b : list LstState) : map strip a = map strip b -> length a = length b.
Proof. intros H. apply (f_equal (@length _)) in H. now rewrite !map_length in H. Qed.

Lemma keys_ata E C w accs ix w' k : reachable D w -> process D E C w accs ix = Ok w' -> In k controller_pdas ->
  (ix = AddLst \/ exists i, ix = RemoveLst i) -> k <> key_at accs 3 /\ k <> key_at accs 4.
Proof.
  intros HR H Hk Hix.
  destruct (process_went E C w accs ix w' HR H) as
    [payer a b c d e more -> Hb S1 W1 _ _
    |ps l adm payer m r f fa calc p L ata sys prog more -> Hp Hru Hl Hr Hf HLk Hprog S1 W1 _ _ _
    |ps i before ls after adm refund m r f fa p L prog more -> Hp Hru Hl Hm Hr Hf HLk _ _ _ _
    |au payer a b c L e more -> Ha HLk S1 W1 _
    |i before it after refund a b c L more -> Ha HLk _ _
    |a ps x p L rc more -> Hp Hrc _ _ _ _
    |ps x p L rc more -> Hp Hrc _ _ _ _
    |ix E1 E2 Hno]; try (destruct Hix as [X|(? & X)]; discriminate).
  - unfold key_at. cbn [nth_error]. rewrite Hr, Hf. split; intros X; symmetry in X; revert X; apply ata_not_pda, Hk.
  - unfold key_at. cbn [nth_error]. rewrite Hr, Hf. split; intros X; symmetry in X; revert X; apply ata_not_pda, Hk.
  - destruct Hix as [->|(i & ->)]; destruct Hno.
Qed.

Lemma funded_step E C w lam accs ix w' lam' :
  reachable D w -> reachable D w' -> pdas_do_not_sign accs -> funded Rs (w, lam) ->
  process D E C w accs ix = Ok w' -> lam_step Rs w lam accs ix = Ok lam' -> funded Rs (w', lam').
Proof.
  intros HR HR' Hns HI H HL.
  destruct (lam_losers _ _ _ _ _ _ _ _ HR HI H HL) as (Pnn & Plose).
  pose proof (lam_gets _ _ _ _ _ _ _ _ HR HI H HL) as Hget.
  pose proof (process_rec_effect D E C w accs ix w' H) as Hrec.
  pose proof (process_auth_effect D E C w accs ix w' H) as Hau.
  pose proof (process_shape D E C w accs ix w' H) as Hsh.
  destruct (reachable_inv D HD w HR) as ((l & au & Hl & Hau0 & Hbase) & Hfl).
  destruct (reachable_inv D HD w' HR') as (_ & Hfl').
  destruct (process_list_effect D E C w accs ix w' l H Hl) as (l' & Hl' & Hle).
  assert (Hpda : forall k, In k controller_pdas -> lam' k < lam k ->
    match ix with
    | RemoveLst _ => k = key_at accs 3 \/ k = key_at accs 4 \/ k = LST_STATE_LIST_ID
    | RemoveDisablePoolAuthority _ => k = DISABLE_POOL_AUTHORITY_LIST_ID
    | StartRebalance _ => k = POOL_STATE_ID
    | EndRebalance => k = REBALANCE_RECORD_ID
    | _ => False end).
  { intros k Hk Hlt. destruct (Plose k Hlt) as [((a & Ia & Sa & Ka) & _)|X]; [|exact X]. exfalso. apply (Hns a Ia Sa). now rewrite Ka. }
  assert (Hrm : forall i, ix = RemoveLst i -> forall k, In k controller_pdas -> k <> key_at accs 3 /\ k <> key_at accs 4).
  { intros i -> k Hk. apply (keys_ata E C w accs _ w' k HR H Hk). eauto. }
  assert (Hpool : lam' POOL_STATE_ID < lam POOL_STATE_ID -> exists a, ix = StartRebalance a).
  { intros Hlt. specialize (Hpda _ pda_pool Hlt). destruct ix; try contradiction; try discriminate; eauto.
    destruct (Hrm _ eq_refl _ pda_pool). destruct Hpda as [?|[?|?]]; try contradiction. discriminate. }
  assert (Hrecl : lam' REBALANCE_RECORD_ID < lam REBALANCE_RECORD_ID -> ix = EndRebalance).
  { intros Hlt. specialize (Hpda _ pda_rec Hlt). destruct ix; try contradiction; try discriminate; eauto.
    destruct (Hrm _ eq_refl _ pda_rec). destruct Hpda as [?|[?|?]]; try contradiction. discriminate. }
  assert (Hlistl : lam' LST_STATE_LIST_ID < lam LST_STATE_LIST_ID -> exists a, ix = RemoveLst a).
  { intros Hlt. specialize (Hpda _ pda_list Hlt). destruct ix; try contradiction; try discriminate; eauto. }
  assert (Hauthl : lam' DISABLE_POOL_AUTHORITY_LIST_ID < lam DISABLE_POOL_AUTHORITY_LIST_ID -> exists a, ix = RemoveDisablePoolAuthority a).
  { intros Hlt. specialize (Hpda _ pda_auth Hlt). destruct ix; try contradiction; try discriminate; eauto.
    destruct (Hrm _ eq_refl _ pda_auth). destruct Hpda as [?|[?|?]]; try contradiction. discriminate. }
  assert (Htok : forall k t, w_tok w k = Some t -> lam' k < lam k -> exists i, ix = RemoveLst i /\ (k = key_at accs 3 \/ k = key_at accs 4)).
  { intros k t Hk Hlt. pose proof (li_pda _ _ HI) as Hnp. cbn [fst] in Hnp.
    destruct (Plose k Hlt) as [(_ & _ & X)|X]; [congruence|]. destruct ix; try contradiction.
    - destruct X as [X|[X|X]]; eauto. exfalso. subst k. rewrite (Hnp _ pda_list) in Hk. discriminate.
    - exfalso. subst k. rewrite (Hnp _ pda_auth) in Hk. discriminate.
    - exfalso. subst k. rewrite (Hnp _ pda_pool) in Hk. discriminate.
    - exfalso. subst k. rewrite (Hnp _ pda_rec) in Hk. discriminate. }
  pose proof (li_tok _ _ HI) as Ht0. unfold tokens_exempt, exempt in Ht0. cbn [fst snd] in Ht0.
  unfold flag_inv in Hfl, Hfl'.
  constructor; cbn [fst snd].
  - exact Pnn.
  - intros ps' Hps' Hz. unfold exempt. rewrite Hps' in Hfl'. destruct Hfl' as [(_ & Hr')|(X & _)]; [|congruence].
    destruct (the_pool w) as [ps|] eqn:Hps.
    + pose proof (fun z => li_pool _ _ HI ps Hps z) as Q. pose proof (fun z => li_moving _ _ HI ps Hps z) as Q2. unfold exempt in Q. cbn [fst snd] in Q, Q2.
      destruct Hfl as [(Z0 & Hr0)|(Z1 & _ & r & l0 & Hr1 & _)].
      * specialize (Q Z0). destruct (Z.lt_ge_cases (lam' POOL_STATE_ID) (lam POOL_STATE_ID)) as [Hlt|]; [|lia].
        destruct (Hpool Hlt) as (a & ->). cbn in Hrec. destruct Hrec as (_ & X). congruence.
      * assert (ix = EndRebalance) as ->. { destruct ix; try congruence. destruct Hrec as (X & _). congruence. }
        destruct Hget as (G & _). destruct (Q2 ltac:(congruence)). lia.
    + assert (ix = Initialize) as ->. { destruct Hle as [(? & _)|(ps & X & _)]; [assumption|congruence]. } exact Hget.
  - intros ps' Hps' Hz. rewrite Hps' in Hfl'. destruct Hfl' as [(X & _)|(_ & _ & r & l0 & Hr' & _)]; [congruence|].
    destruct (the_pool w) as [ps|] eqn:Hps.
    + pose proof (fun z => li_pool _ _ HI ps Hps z) as Q. pose proof (fun z => li_moving _ _ HI ps Hps z) as Q2. unfold exempt in Q. cbn [fst snd] in Q, Q2.
      destruct Hfl as [(Z0 & Hr0)|(Z1 & _ & r0 & l1 & Hr1 & _)].
      * specialize (Q Z0). assert (exists a, ix = StartRebalance a) as (a & ->). { destruct ix; try congruence; eauto. destruct Hrec as (X & _). congruence. }
        destruct Hget as (G1 & G2). pose proof (li_nonneg _ _ HI REBALANCE_RECORD_ID) as P0. cbn [snd] in P0. lia.
      * specialize (Q2 ltac:(congruence)).
        destruct (Z.lt_ge_cases (lam' POOL_STATE_ID) (lam POOL_STATE_ID)) as [Hlt|].
        { destruct (Hpool Hlt) as (a & ->). destruct Hrec as (X & _). congruence. }
        destruct (Z.lt_ge_cases (lam' REBALANCE_RECORD_ID) (lam REBALANCE_RECORD_ID)) as [Hlt|]; [|lia].
        rewrite (Hrecl Hlt) in Hrec. destruct Hrec as (_ & X). congruence.
    + exfalso. assert (ix = Initialize) as ->. { destruct Hle as [(? & _)|(ps & X & _)]; [assumption|congruence]. } congruence.
  - intros l1 Hl1 Hne. assert (l1 = l') by congruence. subst l1. unfold exempt.
    assert (Hkeep : length l' = length l -> (forall a, ix <> RemoveLst a) -> rent_for Rs (80 * Z.of_nat (length l')) <= lam' LST_STATE_LIST_ID).
    { intros Hlen Hnr. rewrite Hlen. assert (Hnl : l <> []). { intros ->. destruct l'; [congruence|discriminate]. }
      pose proof (li_list _ _ HI l Hl Hnl) as Q. unfold exempt in Q. cbn [fst snd] in Q.
      destruct (Z.lt_ge_cases (lam' LST_STATE_LIST_ID) (lam LST_STATE_LIST_ID)) as [Hlt|]; [|lia].
      destruct (Hlistl Hlt) as (a & X). destruct (Hnr _ X). }
    destruct Hle as [(-> & ->)|(ps & Hps & Hle)]; [apply Hkeep; [reflexivity|discriminate]|].
    assert (Hsame : (forall a, ix <> RemoveLst a) -> ix <> AddLst -> length l' = length l).
    { intros N1 N2. destruct Hle; try reflexivity; rewrite ?replace_nth_length; try reflexivity; try congruence; first [now apply strip_len|exfalso; eapply N1; reflexivity]. }
    destruct ix; try (apply Hkeep; [apply Hsame; congruence|congruence]).
    + destruct (add_effect E C w accs w' HR H) as (l1 & e & A1 & A2 & _). destruct Hget as (G & _).
      assert (l' = l1 ++ [e]) by congruence. assert (l1 = l) by congruence. subst. rewrite app_length. cbn [length]. specialize (G l Hl).
      replace (Z.of_nat (length l + 1)) with (Z.of_nat (length l) + 1) by lia. exact G.
    + destruct (remove_effect E C w accs _ w' HR H) as (b & ls & a & A1 & A2 & _).
      assert (l' = b ++ a) by congruence. assert (l = b ++ ls :: a) by congruence. subst l l'. specialize (Hget _ A1).
      rewrite lists_here in Hget. replace (Z.of_nat (length (b ++ a)) + 1 - 1) with (Z.of_nat (length (b ++ a))) in Hget by lia.
      apply Hget. destruct (b ++ a); [congruence|cbn; lia].
  - intros l1 Hl1 Hne. unfold exempt.
    assert (Hkeep : the_authorities w' = the_authorities w -> (forall a, ix <> RemoveDisablePoolAuthority a) ->
      rent_for Rs (32 * Z.of_nat (length l1)) <= lam' DISABLE_POOL_AUTHORITY_LIST_ID).
    { intros Hs Hnr. rewrite Hl1 in Hs. symmetry in Hs.
      pose proof (li_auth _ _ HI l1 Hs Hne) as Q. unfold exempt in Q. cbn [fst snd] in Q.
      destruct (Z.lt_ge_cases (lam' DISABLE_POOL_AUTHORITY_LIST_ID) (lam DISABLE_POOL_AUTHORITY_LIST_ID)) as [Hlt|]; [|lia].
      destruct (Hauthl Hlt) as (a & X). destruct (Hnr _ X). }
    destruct ix; try (apply Hkeep; [exact Hau|discriminate]).
    + destruct Hau as (ps & l2 & k & m & _ & A1 & _ & _ & _ & _ & A2). assert (l1 = l2 ++ [k]) by congruence. subst l1.
      specialize (Hget _ A1). rewrite app_length. cbn [length]. replace (Z.of_nat (length l2 + 1)) with (Z.of_nat (length l2) + 1) by lia. exact Hget.
    + destruct Hau as (ps & l2 & k & _ & A1 & A3 & _ & A2). specialize (Hget _ A1).
      destruct (nth_error_split _ _ A3) as (b & a & E2 & E3). subst l2. rewrite <- E3, remove_here in A2.
      assert (l1 = b ++ a) by congruence. subst l1. rewrite lists_here in Hget.
      replace (Z.of_nat (length (b ++ a)) + 1 - 1) with (Z.of_nat (length (b ++ a))) in Hget by lia.
      apply Hget. destruct (b ++ a); [congruence|cbn; lia].
  - intros k t Hk. unfold exempt. cbn [fst snd] in *.
    assert (Hold : forall t0, w_tok w k = Some t0 -> ta_mint t0 = ta_mint t -> w_owner w' k = w_owner w k ->
      (forall i, ix = RemoveLst i -> k <> key_at accs 3 /\ k <> key_at accs 4) ->
      rent_for Rs (token_size Rs (w_owner w' k) (ta_mint t)) <= lam' k).
    { intros t0 A1 A2 A3 A4. rewrite <- A2, A3. specialize (Ht0 k t0 A1).
      destruct (Z.lt_ge_cases (lam' k) (lam k)) as [Hlt|]; [|lia].
      destruct (Htok k t0 A1 Hlt) as (i & -> & X). destruct (A4 i eq_refl). tauto. }
    assert (Hshp : shape w w' -> (forall i, ix <> RemoveLst i) -> rent_for Rs (token_size Rs (w_owner w' k) (ta_mint t)) <= lam' k).
    { intros (S1 & S2 & _) Hnr. specialize (S2 k). rewrite Hk in S2. destruct (w_tok w k) as [t0|] eqn:E0; [|contradiction]. destruct S2 as (S2 & _).
      apply (Hold t0 eq_refl); [congruence|now rewrite S1|intros i X; destruct (Hnr i X)]. }
    destruct ix; try (apply Hshp; [exact Hsh|discriminate]).
    + destruct (add_effect E C w accs w' HR H) as (_ & _ & _ & _ & A). destruct (A k t Hk) as [(A1 & A2)|(A1 & A2 & A3 & A4)].
      * apply (Hold t A1); auto. discriminate.
      * rewrite A3, A4. destruct Hget as (_ & G). apply G; auto.
    + destruct (remove_effect E C w accs _ w' HR H) as (_ & _ & _ & _ & _ & A). destruct (A k t Hk) as (A1 & A2 & A3 & A4).
      apply (Hold t A1); auto.
  - intros k Hk. pose proof (li_pda _ _ HI k Hk) as Q. cbn [fst] in Q.
    assert (Hshp : shape w w' -> w_tok w' k = None).
    { intros (_ & S2 & _). specialize (S2 k). rewrite Q in S2. destruct (w_tok w' k); [contradiction|reflexivity]. }
    destruct ix; try (apply Hshp; exact Hsh).
    + destruct (w_tok w' k) eqn:Hk'; [exfalso|reflexivity]. destruct (add_effect E C w accs w' HR H) as (_ & _ & _ & _ & A).
      destruct (A k t Hk') as [(A1 & A2)|(A1 & A2 & A3 & A4)]; [congruence|].
      destruct (keys_ata E C w accs _ w' k HR H Hk (or_introl eq_refl)). tauto.
    + destruct (w_tok w' k) eqn:Hk'; [exfalso|reflexivity]. destruct (remove_effect E C w accs _ w' HR H) as (_ & _ & _ & _ & _ & A).
      destruct (A k t Hk') as (A1 & _). congruence.
Qed.

Lemma processL_ok E C s accs ix s' : processL Rs D E C s accs ix = Ok s' ->
  process D E C (fst s) accs ix = Ok (fst s') /\ lam_step Rs (fst s) (snd s) accs ix = Ok (snd s').
Proof. unfold processL. intros H. apply bind_ok in H as (w' & H1 & H). apply bind_ok in H as (lam' & H2 & [= <-]). auto. Qed.

(** In every history, every account that holds the pool's data stays rent-exempt (the pool state lends one lamport
    during a rebalance), and histories with lamports are histories. *)
Theorem C55_rent_exempt s : reachable_lam Rs D s -> reachable D (fst s) /\ funded Rs s.
Proof.
  intros (s0 & (Hg & Hnn & Htk & Hnp) & Hs). induction Hs as [s|s1 s2 s3 Hs IH Hst].
  - split; [exists (fst s); split; [exact Hg|constructor]|]. destruct Hg as (G1 & G2 & G3 & _).
    constructor; try assumption; try (intros; congruence); intros l Hl Hne; congruence.
  - destruct (IH Hg Hnn Htk Hnp) as (HR & HI). destruct Hst as [X|E C accs ix Hns H].
    + split.
      { destruct HR as (w0 & G & S0). exists w0. split; [exact G|]. econstructor; [exact S0|]. apply step_external, X. }
      destruct X as [Xw Xn Xt Xp Xo]. pose proof (fun k Hk => Xo k (or_introl Hk)) as Q.
      constructor; try assumption.
      * intros ps Hps Hz. rewrite (x_pool _ _ _ Xw) in Hps. pose proof (li_pool _ _ HI ps Hps Hz) as Z. unfold exempt in *. specialize (Q _ pda_pool). lia.
      * intros ps Hps Hz. rewrite (x_pool _ _ _ Xw) in Hps. pose proof (li_moving _ _ HI ps Hps Hz) as Z. pose proof (Q _ pda_pool). pose proof (Q _ pda_rec). lia.
      * intros l Hl Hz. rewrite (x_list _ _ _ Xw) in Hl. pose proof (li_list _ _ HI l Hl Hz) as Z. unfold exempt in *. specialize (Q _ pda_list). lia.
      * intros l Hl Hz. rewrite (x_auth _ _ _ Xw) in Hl. pose proof (li_auth _ _ HI l Hl Hz) as Z. unfold exempt in *. specialize (Q _ pda_auth). lia.
    + apply processL_ok in H as (H1 & H2).
      assert (HR' : reachable D (fst s3)). { destruct HR as (w0 & G & S0). exists w0. split; [exact G|]. econstructor; [exact S0|]. eapply step_controller; eassumption. }
      split; [exact HR'|]. destruct s2 as (w & lam), s3 as (w' & lam'). exact (funded_step E C w lam accs ix w' lam' HR HR' Hns HI H1 H2).
Qed.

(** Every instruction moves SOL exactly as documented, at every address. *)
Theorem C55_flows E C s accs ix s' : reachable_lam Rs D s -> processL Rs D E C s accs ix = Ok s' ->
  settled (snd s) (rent_flows Rs (fst s) (snd s) accs ix) (snd s').
Proof.
  intros HR H. destruct (C55_rent_exempt s HR) as (HR0 & HI). apply processL_ok in H as (H1 & H2). destruct s as (w & lam).
  exact (flows_ok E C w lam accs ix _ _ HR0 HI H1 H2).
Qed.

(** Nobody loses SOL but the payer, who signed, and those of the pool's accounts that are closed, shrunk, or lend. *)
Theorem C55_who_loses E C s accs ix s' k : reachable_lam Rs D s -> processL Rs D E C s accs ix = Ok s' ->
  snd s' k < snd s k -> may_lose (fst s) accs ix k.
Proof.
  intros HR H Hlt. destruct (C55_rent_exempt s HR) as (HR0 & HI). apply processL_ok in H as (H1 & H2). destruct s as (w & lam).
  destruct (lam_losers E C w lam accs ix _ _ HR0 HI H1 H2) as (_ & Q). auto.
Qed.

Lemma flows_writable E C w lam accs ix w' : reachable D w -> process D E C w accs ix = Ok w' ->
  Forall (fun f => passed_writable accs (fl_from f) /\ passed_writable accs (fl_to f)) (rent_flows Rs w lam accs ix).
Proof.
  intros HR H.
  destruct (process_went E C w accs ix w' HR H) as
    [payer a b c d e more -> Hb S1 W1 W2 _
    |ps l adm payer m r f fa calc p L ata sys prog more -> Hp Hru Hl Hr Hf HLk Hprog S1 W1 W2 W3 W4
    |ps i before ls after adm refund m r f fa p L prog more -> Hp Hru Hl Hm Hr Hf HLk W1 W2 W3 W4
    |au payer a b c L e more -> Ha HLk S1 W1 W2
    |i before it after refund a b c L more -> Ha HLk W1 W2
    |a ps x p L rc more -> Hp Hrc W1 W2 _ _
    |ps x p L rc more -> Hp Hrc W1 W2 _ _
    |ix E1 E2 Hno].
  - unfold rent_flows, key_at; cbn [nth_error]; repeat constructor; cbn; [exists payer|exists b]; cbn; auto.
  - unfold rent_flows, key_at; cbn [nth_error]; repeat constructor; cbn [fl_from fl_to]; first [exists payer; cbn; now auto | exists r; cbn; now auto 6 | exists f; cbn; now auto 7 | exists L; cbn; now auto 12].
  - unfold rent_flows, key_at; cbn [nth_error]; repeat constructor; cbn [fl_from fl_to]; first [exists refund; cbn; now auto | exists r; cbn; now auto 6 | exists f; cbn; now auto 7 | exists L; cbn; now auto 12].
  - unfold rent_flows, key_at; cbn [nth_error]; repeat constructor; cbn [fl_from fl_to]; first [exists payer; cbn; now auto | exists L; cbn; now auto 12].
  - unfold rent_flows, key_at; cbn [nth_error]; repeat constructor; cbn [fl_from fl_to]; first [exists refund; cbn; now auto | exists L; cbn; now auto 12].
  - unfold rent_flows, key_at; cbn [nth_error]; repeat constructor; cbn [fl_from fl_to]; first [exists p; cbn; now auto | exists rc; cbn; now auto 12].
  - unfold rent_flows, key_at; cbn [nth_error]; repeat constructor; cbn [fl_from fl_to]; first [exists p; cbn; now auto | exists rc; cbn; now auto 12].
  - rewrite E2. constructor.
Qed.

Lemma sum_ifk ks a x : NoDup ks -> sumZ (map (fun k => ifk a k x) ks) = if existsb (Z.eqb a) ks then x else 0.
Proof.
  induction 1 as [|k ks Hni Hnd IH]; cbn; [reflexivity|]. rewrite IH. unfold ifk. destruct (Z.eqb_spec a k) as [->|N]; cbn; [|lia].
  destruct (existsb (Z.eqb k) ks) eqn:Ex; [|lia]. apply existsb_exists in Ex as (y & Iy & Ey). apply Z.eqb_eq in Ey. subst y. contradiction.
Qed.
Lemma sum_pm {A} (f g h : A -> Z) ks : sumZ (map (fun k => f k - g k + h k) ks) = sumZ (map f ks) - sumZ (map g ks) + sumZ (map h ks).
Proof. induction ks as [|k ks IH]; cbn; [lia|]. rewrite IH. lia. Qed.
Lemma sum_plus {A} (f g : A -> Z) ks : sumZ (map (fun k => f k + g k) ks) = sumZ (map f ks) + sumZ (map g ks).
Proof. induction ks as [|k ks IH]; cbn; [lia|]. rewrite IH. lia. Qed.
Lemma sum_zero {A} (ks : list A) : sumZ (map (fun _ => 0) ks) = 0.
Proof. induction ks as [|k ks IH]; cbn; [reflexivity|]. rewrite IH. reflexivity. Qed.
Lemma settled_conserved lam fs lam' ks : settled lam fs lam' -> NoDup ks ->
  Forall (fun f => In (fl_from f) ks /\ In (fl_to f) ks) fs -> lamports lam' ks = lamports lam ks.
Proof.
  intros Hs Hnd Hf. unfold lamports. rewrite (map_ext _ _ Hs), sum_pm.
  enough (sumZ (map (fun k => paid_out k fs) ks) = sumZ (map (fun k => received k fs) ks)) by lia.
  clear Hs. unfold paid_out, received. induction Hf as [|f fs (F1 & F2) Hf IH]; [reflexivity|]. cbn [map sumZ].
  rewrite !sum_plus, IH. f_equal. change (fun k => if fl_from f =? k then fl_amount f else 0) with (fun k => ifk (fl_from f) k (fl_amount f)).
  change (fun k => if fl_to f =? k then fl_amount f else 0) with (fun k => ifk (fl_to f) k (fl_amount f)).
  rewrite !sum_ifk by assumption. 
  assert (Q : forall a, In a ks -> existsb (Z.eqb a) ks = true). { intros a Ha. apply existsb_exists. exists a. split; [exact Ha|apply Z.eqb_refl]. }
  now rewrite (Q _ F1), (Q _ F2).
Qed.

(** SOL is neither created nor destroyed, and accounts not passed as writable keep theirs. *)
Theorem C55_conserved E C s accs ix s' : reachable_lam Rs D s -> processL Rs D E C s accs ix = Ok s' ->
  (forall ks, NoDup ks -> (forall k, passed_writable accs k -> In k ks) -> lamports (snd s') ks = lamports (snd s) ks) /\
  (forall k, ~ passed_writable accs k -> snd s' k = snd s k).
Proof.
  intros HR H. pose proof (C55_flows E C s accs ix s' HR H) as Hs. destruct (C55_rent_exempt s HR) as (HR0 & HI).
  apply processL_ok in H as (H1 & H2). pose proof (flows_writable E C (fst s) (snd s) accs ix _ HR0 H1) as Hf. split.
  - intros ks Hnd Hin. apply (settled_conserved _ _ _ _ Hs Hnd). eapply Forall_impl; [|exact Hf]. intros f (A & B). auto.
  - intros k Hk. rewrite (Hs k). enough (paid_out k (rent_flows Rs (fst s) (snd s) accs ix) = 0 /\ received k (rent_flows Rs (fst s) (snd s) accs ix) = 0) by lia.
    unfold paid_out, received. clear Hs. induction Hf as [|f fs (F1 & F2) Hf IH]; [auto|]. cbn [map sumZ]. destruct IH as (-> & ->).
    destruct (Z.eqb_spec (fl_from f) k) as [E9|]; [rewrite E9 in F1; contradiction|]. destruct (Z.eqb_spec (fl_to f) k) as [E9|]; [rewrite E9 in F2; contradiction|]. auto.
Qed.

(** An instruction that does what it should is never held up by rent, unless the payer cannot pay or the refund is to go to
    an account being closed. *)
Theorem C55_never_stuck E C s accs ix w' : reachable_lam Rs D s -> pdas_do_not_sign accs ->
  process D E C (fst s) accs ix = Ok w' -> affordable Rs (fst s) (snd s) accs ix ->
  exists lam', processL Rs D E C s accs ix = Ok (w', lam').
Proof.
  intros HR Hns H Haf. destruct (C55_rent_exempt s HR) as (HR0 & HI). destruct s as (w & lam). cbn [fst snd] in *.
  unfold processL. cbn [fst snd]. rewrite H. cbn [bind].
  enough (exists lam', lam_step Rs w lam accs ix = Ok lam') as (lam' & ->) by (eexists; reflexivity).
  destruct (process_went E C w accs ix w' HR0 H) as
    [payer a b c d e more -> Hb S1 W1 W2 _
    |ps l adm payer m r f fa calc p L ata sys prog more -> Hp Hru Hl Hr Hf HLk Hprog S1 W1 W2 W3 W4
    |ps i before ls after adm refund m r f fa p L prog more -> Hp Hru Hl Hm Hr Hf HLk W1 W2 W3 W4
    |au payer a b c L e more -> Ha HLk S1 W1 W2
    |i before it after refund a b c L more -> Ha HLk W1 W2
    |a ps x p L rc more -> Hp Hrc W1 W2 Hps Hru
    |ps x p L rc more -> Hp Hrc W1 W2 _ _
    |ix E1 E2 Hno]; unfold affordable, owed, rent_flows, key_at in Haf; cbn [nth_error map fl_amount sumZ] in Haf.
  - cbn [lam_step]. destruct Haf as (Ht & Hle). rewrite Hb. apply pay_runs; [|auto|unfold POOL_STATE_SIZE; lia].
    intros X. apply (Hns payer ltac:(cbn; auto) S1). rewrite X. exact pda_pool.
  - destruct Haf as (Ht & Hle & N1 & N2). cbn [lam_step]. rewrite Hprog, HLk. rewrite Hl in Hle. unfold the_list in Hl. rewrite Hl. cbn [list_len].
    assert (Nrf : mk r <> mk f) by (rewrite Hr, Hf; apply reserves_ne_accumulator).
    assert (NrL : mk r <> LST_STATE_LIST_ID) by (rewrite Hr; apply ata_not_pda, pda_list).
    assert (NfL : mk f <> LST_STATE_LIST_ID) by (rewrite Hf; apply ata_not_pda, pda_list).
    assert (NpL : mk payer <> LST_STATE_LIST_ID). { intros X. apply (Hns payer ltac:(cbn; auto) S1). rewrite X. exact pda_list. }
    set (size := token_size Rs (w_owner w (mk m)) (mk m)) in *.
    assert (Q : forall lm k, mk payer <> k -> match w_tok w k with None => short Rs lm k size | Some _ => 0 end <= lm (mk payer) ->
      exists lm', create_ata_rent Rs w lm (mk payer) k (w_owner w (mk m)) (mk m) = Ok lm').
    { intros lm k Nk Hx. unfold create_ata_rent. destruct (w_tok w k); [eauto|]. apply pay_runs; auto. }
    pose proof (short_nonneg Rs lam (mk r) size). pose proof (short_nonneg Rs lam (mk f) size).
    pose proof (short_nonneg Rs lam LST_STATE_LIST_ID (80 * (Z.of_nat (length l) + 1))).
    destruct (Q lam (mk r) N1) as (l1 & C1). { destruct (w_tok w (mk r)), (w_tok w (mk f)); lia. }
    rewrite C1. cbn [bind]. destruct (Z.eqb_spec (mk f) (mk r)) as [E1|_]; [congruence|].
    pose proof (create_ok _ _ _ _ _ _ _ C1) as (_ & _ & _ & _ & F1). fold size in F1.
    assert (A1 : l1 (mk payer) = lam (mk payer) - match w_tok w (mk r) with None => short Rs lam (mk r) size | Some _ => 0 end).
    { rewrite F1, ifk_same, ifk_ne by auto. lia. }
    assert (A2 : short Rs l1 (mk f) size = short Rs lam (mk f) size). { apply short_ext. rewrite F1, !ifk_ne by auto. lia. }
    destruct (Q l1 (mk f) N2) as (l2 & C2). { rewrite A1, A2. destruct (w_tok w (mk r)), (w_tok w (mk f)); lia. }
    rewrite C2. cbn [bind]. pose proof (create_ok _ _ _ _ _ _ _ C2) as (_ & _ & _ & _ & F2). fold size in F2. rewrite A2 in F2.
    unfold extend_rent. apply pay_runs; [auto|auto|]. change LST_STATE_SIZE with 80.
    rewrite (short_ext lam l2). 2:{ rewrite F2, F1, !ifk_ne by auto. lia. }
    rewrite F2, ifk_same, A1, ifk_ne by auto. destruct (w_tok w (mk r)), (w_tok w (mk f)); lia.
  - destruct Haf as (N1 & N2 & N3). cbn [lam_step]. rewrite HLk.
    destruct (close_runs lam (mk f) (mk refund)) as (l1 & ->); [auto|]. cbn [bind].
    destruct (close_runs l1 (mk r) (mk refund)) as (l2 & ->); [auto|]. cbn [bind].
    unfold the_list in Hl. rewrite Hl. cbn [list_len]. apply shrink_runs; [auto|].
    apply Z.lt_le_incl, HRs. pose proof (len1 before after ls). unfold LST_STATE_SIZE. lia.
  - destruct Haf as (Ht & Hle). rewrite Ha in Hle. cbn [lam_step]. rewrite HLk. unfold the_authorities in Ha. rewrite Ha. cbn [list_len]. unfold extend_rent.
    apply pay_runs; [|auto|unfold PUBKEY_SIZE; lia]. intros X. apply (Hns payer ltac:(cbn; auto) S1). rewrite X. exact pda_auth.
  - cbn [lam_step]. rewrite HLk. unfold the_authorities in Ha. rewrite Ha. cbn [list_len]. apply shrink_runs; [auto|].
    apply Z.lt_le_incl, HRs. pose proof (len1 before after it). unfold PUBKEY_SIZE. lia.
  - cbn [lam_step]. apply move_runs. rewrite Hp. destruct Hru as (Hz & _). pose proof (li_pool _ _ HI ps Hps Hz) as Q. unfold exempt in Q. cbn [snd] in Q.
    pose proof (proj1 HRs 176 ltac:(lia)). lia.
  - cbn [lam_step]. apply close_runs. rewrite Hp, Hrc. discriminate.
  - eauto.
Qed.

(** An instruction that asks for rent goes through only if the payer had it. *)
Theorem C55_payer_had_it E C s accs ix s' : reachable_lam Rs D s -> processL Rs D E C s accs ix = Ok s' ->
  0 < owed Rs (fst s) (snd s) accs ix ->
  owed Rs (fst s) (snd s) accs ix <= snd s (payer_of accs ix) /\ signed_by accs (payer_of accs ix) /\ w_tok (fst s) (payer_of accs ix) = None.
Proof.
  intros HR H Hpos. destruct (C55_rent_exempt s HR) as (HR0 & HI). apply processL_ok in H as (H1 & HL). destruct s as (w & lam). cbn [fst snd] in *.
  destruct (process_went E C w accs ix _ HR0 H1) as
    [payer a b c d e more -> Hb S1 W1 W2 _
    |ps l adm payer m r f fa calc p L ata sys prog more -> Hp Hru Hl Hr Hf HLk Hprog S1 W1 W2 W3 W4
    |ps i before ls after adm refund m r f fa p L prog more -> Hp Hru Hl Hm Hr Hf HLk W1 W2 W3 W4
    |au payer a b c L e more -> Ha HLk S1 W1 W2
    |i before it after refund a b c L more -> Ha HLk W1 W2
    |a ps x p L rc more -> Hp Hrc W1 W2 Hps Hru
    |ps x p L rc more -> Hp Hrc W1 W2 _ _
    |ix E1 E2 Hno]; unfold owed, rent_flows, payer_of, key_at in *; cbn [nth_error map fl_amount sumZ] in *; try lia.
  - cbn [lam_step] in HL. rewrite Hb in HL. apply pay_ok in HL as (N & T & A & _). change POOL_STATE_SIZE with 176 in *.
    split; [lia|]. split; [exists payer; cbn; auto|]. destruct T; [lia|assumption].
  - cbn [lam_step] in HL. rewrite Hprog, HLk in HL. rewrite Hl in *. unfold the_list in Hl. rewrite Hl in HL. cbn [list_len] in HL.
    apply bind_ok in HL as (l1 & HA & HL). destruct (Z.eqb_spec (mk f) (mk r)) as [E1|_].
    { exfalso. rewrite Hr, Hf in E1. symmetry in E1. revert E1. apply reserves_ne_accumulator. }
    apply bind_ok in HL as (l2 & HB & HL). unfold extend_rent in HL. change LST_STATE_SIZE with 80 in *.
    destruct (add_core _ _ _ _ _ _ _ _ _ _ Hr Hf HA HB HL) as (_ & _ & _ & T & P1 & P2 & P3 & A & _). cbv zeta in *.
    split; [lia|]. split; [exists payer; cbn; auto|]. destruct T; [lia|assumption].
  - cbn [lam_step] in HL. rewrite HLk in HL. rewrite Ha in *. unfold the_authorities in Ha. rewrite Ha in HL. cbn [list_len] in HL. unfold extend_rent in HL.
    apply pay_ok in HL as (N & T & A & _). change PUBKEY_SIZE with 32 in *.
    split; [lia|]. split; [exists payer; cbn; auto|]. destruct T; [lia|assumption].
  - destruct ix; try contradiction; cbn in Hpos; lia.
Qed.

(** No step of any history takes SOL out of the pool state, but for the lamport a rebalance lends to its record and brings back. *)
Theorem C55_pool_keeps s s' : reachable_lam Rs D s -> step_lam Rs D s s' ->
  snd s POOL_STATE_ID + snd s REBALANCE_RECORD_ID <= snd s' POOL_STATE_ID + snd s' REBALANCE_RECORD_ID.
Proof.
  intros HR [X|E C accs ix Hns H].
  - pose proof (xl_own _ _ _ _ X _ (or_introl pda_pool)). pose proof (xl_own _ _ _ _ X _ (or_introl pda_rec)). lia.
  - destruct (C55_rent_exempt s HR) as (HR0 & HI). pose proof H as H0. apply processL_ok in H0 as (H1 & HL).
    pose proof (C55_who_loses E C s accs ix s') as Q. destruct s as (w & lam), s' as (w' & lam'). cbn [fst snd] in *.
    pose proof (lam_gets E C w lam accs ix w' lam' HR0 HI H1 HL) as G.
    assert (Q1 : forall k, In k controller_pdas -> lam' k < lam k -> ~ signed_by accs k).
    { intros k Hk _ (a & Ia & Sa & Ka). apply (Hns a Ia Sa). now rewrite Ka. }
    assert (Q2 : forall k, k = POOL_STATE_ID \/ k = REBALANCE_RECORD_ID -> lam' k < lam k ->
      match ix with StartRebalance _ => k = POOL_STATE_ID | EndRebalance => k = REBALANCE_RECORD_ID | _ => False end).
    { intros k Hk Hlt. assert (Hk2 : In k controller_pdas) by (destruct Hk as [-> | ->]; [exact pda_pool|exact pda_rec]).
      destruct (Q k HR H Hlt) as [(X & _)|M]; [destruct (Q1 k Hk2 Hlt X)|]. destruct ix; try contradiction; try exact M.
      - destruct (keys_ata E C w accs _ w' k HR0 H1 Hk2 (or_intror (ex_intro _ _ eq_refl))). destruct M as [M|[M|M]]; try contradiction.
        destruct Hk; subst k; discriminate.
      - destruct Hk; subst k; discriminate. }
    destruct (Z.lt_ge_cases (lam' POOL_STATE_ID) (lam POOL_STATE_ID)) as [L1|L1].
    { specialize (Q2 _ (or_introl eq_refl) L1). destruct ix; try contradiction; try discriminate. lia. }
    destruct (Z.lt_ge_cases (lam' REBALANCE_RECORD_ID) (lam REBALANCE_RECORD_ID)) as [L2|L2]; [|lia].
    specialize (Q2 _ (or_intror eq_refl) L2). destruct ix; try contradiction; try discriminate. lia.
Qed.

Lemma add_apart E C w lam accs w' lam' : reachable D w -> process D E C w accs AddLst = Ok w' -> lam_step Rs w lam accs AddLst = Ok lam' ->
  (exists l, the_list w = Some l) /\ key_at accs 1 <> LST_STATE_LIST_ID /\
  (w_tok w (key_at accs 3) = None -> key_at accs 1 <> key_at accs 3) /\
  (w_tok w (key_at accs 4) = None -> key_at accs 1 <> key_at accs 4) /\
  key_at accs 3 <> key_at accs 4 /\ key_at accs 3 <> LST_STATE_LIST_ID /\ key_at accs 4 <> LST_STATE_LIST_ID.
Proof.
  intros HR H HL. remember AddLst as ix eqn:Eix.
  destruct (process_went E C w accs ix w' HR H) as
    [| ps l adm payer m r f fa calc p L ata sys prog more -> Hp Hru Hl Hr Hf HLk Hprog S1 W1 W2 W3 W4
    | | | | | |ix E1 E2 Hno]; try discriminate; [|subst ix; contradiction].
  cbn [lam_step] in HL. rewrite Hprog, HLk in HL. split; [eauto|].
  apply bind_ok in HL as (l1 & HA & HL). destruct (Z.eqb_spec (mk f) (mk r)) as [E1|_].
  { exfalso. rewrite Hr, Hf in E1. symmetry in E1. revert E1. apply reserves_ne_accumulator. }
  apply bind_ok in HL as (l2 & HB & HL). unfold extend_rent in HL.
  destruct (add_core _ _ _ _ _ _ _ _ _ _ Hr Hf HA HB HL) as (N1 & N2 & N3 & _).
  unfold key_at. cbn [nth_error]. repeat split; auto.
  - rewrite Hr, Hf. apply reserves_ne_accumulator.
  - rewrite Hr. apply ata_not_pda, pda_list.
  - rewrite Hf. apply ata_not_pda, pda_list.
Qed.

(** Listing an LST costs nothing in the end: what adding it takes, removing it gives back, to the lamport. *)
Theorem C55_listing_refunded E C s accs s1 E2 C2 accs2 i s2 :
  reachable_lam Rs D s -> pdas_do_not_sign accs ->
  processL Rs D E C s accs AddLst = Ok s1 -> processL Rs D E2 C2 s1 accs2 (RemoveLst i) = Ok s2 ->
  key_at accs2 1 = key_at accs 1 -> key_at accs2 3 = key_at accs 3 -> key_at accs2 4 = key_at accs 4 ->
  (forall k, k = key_at accs 3 \/ k = key_at accs 4 -> w_tok (fst s) k = None /\ snd s k = 0) ->
  (forall l, the_list (fst s) = Some l ->
     snd s LST_STATE_LIST_ID = match l with [] => 0 | _ => rent_for Rs (80 * Z.of_nat (length l)) end) ->
  forall k, snd s2 k = snd s k.
Proof.
  intros HR Hns H1 H2 K1 K3 K4 Hfr HL k.
  assert (HR1 : reachable_lam Rs D s1).
  { destruct HR as (s0 & G & S0). exists s0. split; [exact G|]. econstructor; [exact S0|]. eapply stepl_controller; eassumption. }
  pose proof (C55_flows _ _ _ _ _ _ HR H1) as F1. pose proof (C55_flows _ _ _ _ _ _ HR1 H2) as F2.
  destruct (C55_rent_exempt s HR) as (HR0 & HI). apply processL_ok in H1 as (P1 & L1). apply processL_ok in H2 as (P2 & L2).
  destruct (add_effect E C (fst s) accs (fst s1) HR0 P1) as (l & e & A1 & A2 & _).
  destruct (add_apart E C (fst s) (snd s) accs _ _ HR0 P1 L1) as (_ & N1 & N2 & N3 & N4 & N5 & N6).
  destruct (Hfr _ (or_introl eq_refl)) as (T3 & Z3). destruct (Hfr _ (or_intror eq_refl)) as (T4 & Z4). specialize (HL l A1).
  specialize (N2 T3). specialize (N3 T4).
  unfold settled, rent_flows in F1, F2. rewrite A1, T3, T4 in F1. rewrite A2, K1, K3, K4 in F2.
  replace (Z.of_nat (length (l ++ [e]))) with (Z.of_nat (length l) + 1) in F2 by (rewrite app_length; cbn; lia).
  set (n := Z.of_nat (length l)) in *. set (P := key_at accs 1) in *. set (R := key_at accs 3) in *. set (F := key_at accs 4) in *.
  set (sz := token_size Rs (w_owner (fst s) (key_at accs 2)) (key_at accs 2)) in *.
  assert (Hn : 0 <= n) by (unfold n; lia).
  assert (Hsl : snd s LST_STATE_LIST_ID = if n + 1 =? 1 then 0 else rent_for Rs (80 * (n + 1 - 1))).
  { rewrite HL. destruct l as [|x l0]; [reflexivity|]. destruct (Z.eqb_spec (n + 1) 1) as [E9|_]; [unfold n in E9; cbn [length] in E9; lia|].
    f_equal. unfold n. lia. }
  assert (Hmono : snd s LST_STATE_LIST_ID <= rent_for Rs (80 * (n + 1))).
  { rewrite Hsl. destruct (n + 1 =? 1); [apply Z.lt_le_incl, HRs; lia|apply rent_mono; lia]. }
  rewrite <- Hsl in F2.
  unfold short in F1. rewrite Z3, Z4 in F1. replace (Z.max 0 (rent_for Rs (80 * (n + 1)) - snd s LST_STATE_LIST_ID)) with (rent_for Rs (80 * (n + 1)) - snd s LST_STATE_LIST_ID) in F1 by lia.
  set (c := Z.max 0 (rent_for Rs sz - 0)) in *. set (x := rent_for Rs (80 * (n + 1)) - snd s LST_STATE_LIST_ID) in *.
  unfold paid_out, received in F1, F2. cbn [map sumZ fl_from fl_to fl_amount] in F1, F2.
  assert (QR : snd s1 R = c).
  { rewrite F1, Z3. rewrite (proj2 (Z.eqb_neq P R)), Z.eqb_refl, (proj2 (Z.eqb_neq F R)), (proj2 (Z.eqb_neq LST_STATE_LIST_ID R)) by auto. lia. }
  assert (QF : snd s1 F = c).
  { rewrite F1, Z4. rewrite (proj2 (Z.eqb_neq P F)), Z.eqb_refl, (proj2 (Z.eqb_neq R F)), (proj2 (Z.eqb_neq LST_STATE_LIST_ID F)) by auto. lia. }
  assert (QL : snd s1 LST_STATE_LIST_ID = snd s LST_STATE_LIST_ID + x).
  { rewrite F1. rewrite (proj2 (Z.eqb_neq P LST_STATE_LIST_ID)), Z.eqb_refl, (proj2 (Z.eqb_neq F LST_STATE_LIST_ID)), (proj2 (Z.eqb_neq R LST_STATE_LIST_ID)) by auto. lia. }
  rewrite F2, QR, QF, QL, F1. destruct (P =? k), (R =? k), (F =? k), (LST_STATE_LIST_ID =? k); lia.
Qed.
End Flows.
