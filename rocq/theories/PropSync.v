(** C47: what SyncSolValue does, when it is accepted, and that any number of syncs, in any order, lead to
    the same figures. *)
From Coq Require Import ZArith List Bool Lia.
From Verif Require Import Base Ratio Calc State Controller Inversion ProcInv Spec CalcProofs InvProofs
  TokProofs AccessProofs ShapeProofs MoneyProofs Concrete ConcreteReach PropState PropAccess PropMoney.
Import ListNotations.
Open Scope Z_scope.

(* ------------------------------------------------------------------ *)
(** * Specification *)

(** The reserves account of an entry: the pool's associated token account for the entry's mint. *)
Definition reserves_of (D : Derive) (w : World) (ls : LstState) (r : key) : Prop :=
  d_create D POOL_STATE_ID (w_owner w (ls_mint ls)) (ls_mint ls) (pool_reserves_bump ls) = Some r.

(** [sync_case D E w accs i ps l ls r more v hi]: everything a sync of entry [i] depends on. The pool [ps]
    is neither rebalancing nor disabled; entry [i] is [ls], with reserves [r]; the caller passes the mint,
    the pool and the list (both writable), the reserves and the entry's calculator followed by whatever
    accounts [more] that calculator asks for; the calculator answers [(v, hi)], both 64-bit; and the new
    total fits in 64 bits. No signature and no other account is asked for. *)
Record sync_case (D : Derive) (E : Env) (w : World) (accs : list Meta) (i : Z)
  (ps : PoolState) (l : list LstState) (ls : LstState) (r : key) (more : list Meta) (v hi : Z) : Prop := {
  sc_index : 0 <= i <= U32_MAX;
  sc_pool : the_pool w = Some ps;
  sc_running : is_rebalancing ps = 0 /\ is_disabled ps = 0;
  sc_list : the_list w = Some l;
  sc_entry : nth_error l (Z.to_nat i) = Some ls;
  sc_reserves : reserves_of D w ls r;
  sc_accounts : exists m p t q c, accs = m :: p :: t :: q :: c :: more /\
    mk m = ls_mint ls /\ mk p = POOL_STATE_ID /\ mk t = LST_STATE_LIST_ID /\ mk q = r /\
    mk c = sol_value_calculator ls /\ is_writable p = true /\ is_writable t = true;
  sc_answer : e_lst_to_sol E w (sol_value_calculator ls) (ls_mint ls) more (balance w r) = Ok (v, hi);
  sc_answer_u64 : U64 v /\ U64 hi;
  sc_fits : total_sol_value ps - sol_value ls + v <= U64_MAX }.

(** [only_figures w w' ps l i ls v]: [w'] is [w] with the value of entry [i] (which is [ls]) recorded as [v] and the
    total moved by the difference; everything else, at every address, is as before. *)
Definition only_figures (w w' : World) (ps : PoolState) (l : list LstState) (i : Z) (ls : LstState) (v : Z) : Prop :=
  the_pool w' = Some (set_total ps (total_sol_value ps - sol_value ls + v)) /\
  the_list w' = Some (replace_nth l (Z.to_nat i) (set_sol_value ls v)) /\
  (forall k, k <> POOL_STATE_ID -> w_pool w' k = w_pool w k) /\
  (forall k, k <> LST_STATE_LIST_ID -> w_list w' k = w_list w k) /\
  w_auth w' = w_auth w /\ w_rec w' = w_rec w /\ w_tok w' = w_tok w /\ w_mint w' = w_mint w /\
  w_owner w' = w_owner w /\ w_exec w' = w_exec w.

(** The same figures, and everything else the same too. *)
Definition same_world (w w' : World) : Prop :=
  (forall k, w_pool w' k = w_pool w k) /\ (forall k, w_list w' k = w_list w k) /\
  w_auth w' = w_auth w /\ w_rec w' = w_rec w /\ w_tok w' = w_tok w /\ w_mint w' = w_mint w /\
  w_owner w' = w_owner w /\ w_exec w' = w_exec w.

(** The calculator's answers do not depend on the controller's own accounts. *)
Definition reads_no_controller_accounts (E : Env) : Prop :=
  forall w w', w_tok w' = w_tok w -> w_mint w' = w_mint w -> w_owner w' = w_owner w -> w_exec w' = w_exec w ->
    forall c m a x, e_lst_to_sol E w' c m a x = e_lst_to_sol E w c m a x.

(** A run of successful syncs of the entries [is], oldest first. *)
Inductive syncs (D : Derive) (E : Env) : World -> list Z -> World -> Prop :=
| syncs_nil w : syncs D E w [] w
| syncs_cons w accs i C w1 is w' :
    pdas_do_not_sign accs -> process D E C w accs (SyncSolValue i) = Ok w1 -> syncs D E w1 is w' ->
    syncs D E w (i :: is) w'.

(** While nothing but syncs happens, a calculator's lower answer for a mint and an amount is one figure,
    whatever accounts it is called with and whatever the recorded figures are. *)
Definition steady (E : Env) (w : World) (price : key -> key -> Z -> Z) : Prop :=
  forall w', w_tok w' = w_tok w -> w_mint w' = w_mint w ->
    forall c m a x v hi, e_lst_to_sol E w' c m a x = Ok (v, hi) -> v = price c m x.

(* ------------------------------------------------------------------ *)
(** * Proofs *)
Section WithDerive.
Variable D : Derive.
Hypothesis HD : derive_ok D.

Lemma nth_sum_le l n ls : Forall (fun x => 0 <= sol_value x) l -> nth_error l n = Some ls ->
  sol_value ls <= sumZ (map sol_value l).
Proof.
  revert n. induction l as [|a l IH]; intros [|n] F H; try discriminate; cbn in *; inversion F; subst.
  - injection H as ->. assert (0 <= sumZ (map sol_value l)); [|lia].
    clear -H3. induction H3; cbn; lia.
  - specialize (IH n H3 H). lia.
Qed.

Lemma entry_le_total w ps l n ls : reachable D w -> the_pool w = Some ps -> the_list w = Some l ->
  nth_error l n = Some ls -> sol_value ls <= total_sol_value ps.
Proof.
  intros Hr Hp Hl Hn. destruct (reachable_inv D HD w Hr) as ((l0 & au & Hl0 & _ & _ & _ & F & _ & P) & _).
  assert (l0 = l) by congruence. subst l0. rewrite Hp in P. destruct P as (_ & ->).
  eapply nth_sum_le; [|exact Hn]. eapply Forall_impl; [|exact F]. intros x Hx. unfold lst_ok, U64 in Hx. tauto.
Qed.

Lemma sync_case_of E C w accs i w' : process D E C w accs (SyncSolValue i) = Ok w' ->
  exists ps l ls r more v hi, sync_case D E w accs i ps l ls r more v hi /\
    w' = put_list (put_pool w POOL_STATE_ID (Some (set_total ps (total_sol_value ps - sol_value ls + v))))
           LST_STATE_LIST_ID (Some (replace_nth l (Z.to_nat i) (set_sol_value ls v))).
Proof.
  intros H. unfold process in H. apply guard_ok in H as (Hwf & H). cbn [ix_wfb] in Hwf.
  apply sync_proc_inv in H.
  destruct H as (m & p & t & q & ps & l & ls & c & -> & Hp & Ht & Wp & Wt & P & (A1 & A2) & L & N & M & R & Hc & Hs).
  apply sync_inv in Hs.
  destruct Hs as (tk & ps0 & l0 & ls0 & lo & hi & Tk & An & U1 & U2 & P0 & L0 & N0 & Hle & Hmax & ->).
  assert (ps0 = ps) by congruence. assert (l0 = l) by congruence. subst ps0 l0.
  assert (ls0 = ls) by congruence. subst ls0.
  exists ps, l, ls, (mk q), (cpi_accs c), lo, hi. split; [|reflexivity].
  unfold u32b in Hwf. apply andb_true_iff in Hwf as (W1 & W2). apply Z.leb_le in W1, W2.
  constructor; auto.
  - unfold reserves_of. rewrite M. exact R.
  - exists m, p, t, q, (cpi_prog c). repeat split; auto.
  - unfold balance. rewrite Tk, <- Hc, M. exact An.
Qed.

Lemma sync_case_ok E C w accs i ps l ls r more v hi : reachable D w ->
  sync_case D E w accs i ps l ls r more v hi ->
  process D E C w accs (SyncSolValue i) =
    Ok (put_list (put_pool w POOL_STATE_ID (Some (set_total ps (total_sol_value ps - sol_value ls + v))))
           LST_STATE_LIST_ID (Some (replace_nth l (Z.to_nat i) (set_sol_value ls v)))).
Proof.
  intros Hr [I P (A1 & A2) L N R (m & p & t & q & c & -> & Hm & Hp & Ht & Hq & Hc & Wp & Wt) An (U1 & U2) Fit].
  destruct (C39_listed_accounts_exist D w l ls HD Hr L (nth_error_In _ _ N)) as (_ & _ & r0 & f & tr & tf & _ & Cr & _ & _ & Tr & _).
  unfold reserves_of in R. assert (r0 = r) by congruence. subst r0.
  pose proof (entry_le_total w ps l _ ls Hr P L N) as Hle.
  unfold process. cbn [ix_wfb]. unfold u32b. rewrite (proj2 (Z.leb_le _ _) (proj1 I)), (proj2 (Z.leb_le _ _) (proj2 I)).
  cbn [andb guard]. unfold process_sync_sol_value, resolve_sync_sol_value, check_list_key. rewrite Ht, Z.eqb_refl. cbn [guard].
  unfold the_list in L. unfold the_pool in P.
  unfold try_lst_state_list at 1. rewrite L. cbn [of_option bind]. unfold try_match_lst_mint_on_list, nth_lst.
  rewrite N. cbn [of_option bind]. rewrite Hm, Z.eqb_refl. cbn [guard bind].
  unfold create_pool_reserves_address. rewrite R. cbn [of_option bind].
  unfold verify_keys_privs. cbn [keys_match mk]. rewrite Hm, Hp, Ht, Hq, !Z.eqb_refl. cbn [andb guard].
  unfold privileges_ok. cbn [forallb]. rewrite Wp, Wt. cbn [andb guard].
  unfold try_pool_state at 1. rewrite P. cbn [of_option bind].
  unfold verify_not_rebalancing_and_not_disabled, u8bool_is_true, u8bool_is_false. rewrite A1, A2. cbn [Z.eqb negb guard bind].
  unfold verify_lst_sol_val_calc_cpi, cpi_from_suffix, try_lst_state_list, nth_lst. cbn [bind]. rewrite L. cbn [of_option bind].
  rewrite N. cbn [of_option bind cpi_prog]. rewrite Hc, Z.eqb_refl. cbn [guard bind].
  unfold sync_sol_value_unchecked, token_account_balance. rewrite Tr. cbn [of_option bind].
  unfold invoke_lst_to_sol. cbn [cpi_prog cpi_accs]. unfold balance in An. rewrite Tr in An. rewrite Hc.
  rewrite (proj2 (decode_range_ok _ v hi) (conj An (conj U1 U2))). cbn [bind].
  unfold try_pool_state, try_lst_state_list, nth_lst. rewrite P. cbn [of_option bind]. rewrite L. cbn [of_option bind].
  rewrite N. cbn [of_option bind]. unfold sync_sol_value_with_retval, checked_sub, checked_add.
  rewrite (proj2 (Z.leb_le _ _)) by lia. cbn [bind]. rewrite (proj2 (Z.leb_le _ _)) by lia. reflexivity.
Qed.

(** C47, first half. A sync is accepted exactly in the situation described by [sync_case] — it needs
    nobody's signature — and then changes exactly the entry's figure and the total. *)
Theorem C47_accepted E C w accs i : reachable D w ->
  ((exists w', process D E C w accs (SyncSolValue i) = Ok w') <->
   (exists ps l ls r more v hi, sync_case D E w accs i ps l ls r more v hi)).
Proof.
  intros Hr. split.
  - intros (w' & H). destruct (sync_case_of E C w accs i w' H) as (ps & l & ls & r & more & v & hi & S & _).
    exists ps, l, ls, r, more, v, hi. exact S.
  - intros (ps & l & ls & r & more & v & hi & S). eexists. eapply sync_case_ok; eauto.
Qed.

Theorem C47_effect E C w accs i w' ps l ls r more v hi : reachable D w ->
  process D E C w accs (SyncSolValue i) = Ok w' -> sync_case D E w accs i ps l ls r more v hi ->
  only_figures w w' ps l i ls v.
Proof.
  intros Hr H S. rewrite (sync_case_ok E C w accs i ps l ls r more v hi Hr S) in H. injection H as <-.
  unfold only_figures, the_pool, the_list. cbn. rewrite !upd_same. repeat split; auto; intros k Hk; now apply upd_other.
Qed.

Lemma only_figures_figures w w' ps l i ls v : the_pool w = Some ps -> the_list w = Some l ->
  nth_error l (Z.to_nat i) = Some ls -> only_figures w w' ps l i ls v ->
  recorded w' i = v /\ total w' = total w - recorded w i + v.
Proof.
  intros P L N (P' & L' & _). unfold recorded, total. rewrite P, P', L, L', N. cbn [set_total total_sol_value].
  rewrite (nth_error_replace_same l (Z.to_nat i) (set_sol_value ls v) ls N). split; [reflexivity|lia].
Qed.

(** Syncing twice in a row is syncing once: the second call is accepted and changes nothing. *)
Theorem C47_again E C C' w accs i w1 : reachable D w -> pdas_do_not_sign accs -> reads_no_controller_accounts E ->
  process D E C w accs (SyncSolValue i) = Ok w1 ->
  exists w2, process D E C' w1 accs (SyncSolValue i) = Ok w2 /\ same_world w1 w2.
Proof.
  intros Hr Hs HE H. assert (Hr1 : reachable D w1).
  { destruct Hr as (w0 & G & St). exists w0. split; auto. econstructor; [exact St|]. eapply step_controller; eauto. }
  destruct (sync_case_of E C w accs i w1 H) as (ps & l & ls & r & more & v & hi & S & Hw).
  pose proof (sc_fits _ _ _ _ _ _ _ _ _ _ _ _ S) as Fit.
  destruct S as [I P (A1 & A2) L N R Ac An Un _].
  assert (N1 : nth_error (replace_nth l (Z.to_nat i) (set_sol_value ls v)) (Z.to_nat i) = Some (set_sol_value ls v)).
  { eapply nth_error_replace_same, N. }
  assert (S1 : sync_case D E w1 accs i (set_total ps (total_sol_value ps - sol_value ls + v))
    (replace_nth l (Z.to_nat i) (set_sol_value ls v)) (set_sol_value ls v) r more v hi).
  { subst w1. constructor; auto.
    - cbn [sol_value_calculator ls_mint set_sol_value]. rewrite <- An. apply HE; reflexivity.
    - cbn [total_sol_value set_total sol_value set_sol_value]. lia. }
  eexists. split; [eapply sync_case_ok; eauto|].
  subst w1. unfold same_world. cbn. repeat split.
  - intros k. unfold upd. destruct (k =? POOL_STATE_ID) eqn:Hk.
    + f_equal. change (set_total (set_total ps (total_sol_value ps - sol_value ls + v))
        (total_sol_value ps - sol_value ls + v - v + v) = set_total ps (total_sol_value ps - sol_value ls + v)).
      replace (total_sol_value ps - sol_value ls + v - v + v) with (total_sol_value ps - sol_value ls + v) by lia. reflexivity.
    + reflexivity.
  - intros k. unfold upd. destruct (k =? LST_STATE_LIST_ID) eqn:Hk; [|reflexivity].
    f_equal. apply replace_nth_self. exact N1.
Qed.

(* ------------------------------------------------------------------ *)
(** ** Runs of syncs *)
Definition entry_after (w : World) (price : key -> key -> Z -> Z) (is : list Z) (n : nat) (ls : LstState) (ls' : LstState) : Prop :=
  if existsb (fun i => Nat.eqb (Z.to_nat i) n) is
  then exists r, reserves_of D w ls r /\ ls' = set_sol_value ls (price (sol_value_calculator ls) (ls_mint ls) (balance w r))
  else ls' = ls.

Lemma reach_sync E C w accs i w1 : reachable D w -> pdas_do_not_sign accs ->
  process D E C w accs (SyncSolValue i) = Ok w1 -> reachable D w1.
Proof.
  intros (w0 & G & St) Hs H. exists w0. split; auto. econstructor; [exact St|]. eapply step_controller; eauto.
Qed.

Lemma replace_nth_nth {A} (l : list A) n m x y : nth_error l n = Some y ->
  nth_error (replace_nth l n x) m = if Nat.eqb n m then Some x else nth_error l m.
Proof.
  intros H. destruct (Nat.eqb n m) eqn:Hnm.
  - apply Nat.eqb_eq in Hnm. subst m. eapply nth_error_replace_same, H.
  - apply Nat.eqb_neq in Hnm. apply nth_error_replace_other. auto.
Qed.

Lemma nth_error_ext' {A} (l l' : list A) : (forall n, nth_error l n = nth_error l' n) -> l = l'.
Proof.
  revert l'. induction l as [|a l IH]; intros [|b l'] H; auto; try (specialize (H 0%nat); discriminate H).
  f_equal; [specialize (H 0%nat); cbn in H; congruence|]. apply IH. intros n. exact (H (S n)).
Qed.

Lemma syncs_spec E price : forall is w w', reachable D w -> steady E w price -> syncs D E w is w' ->
  reachable D w' /\ w_tok w' = w_tok w /\ w_mint w' = w_mint w /\ w_owner w' = w_owner w /\ w_exec w' = w_exec w /\
  w_auth w' = w_auth w /\ w_rec w' = w_rec w /\
  (forall ps, the_pool w = Some ps -> exists v, the_pool w' = Some (set_total ps v)) /\
  (forall l, the_list w = Some l -> exists l', the_list w' = Some l' /\ length l' = length l /\
     forall n ls, nth_error l n = Some ls -> exists ls', nth_error l' n = Some ls' /\ entry_after w price is n ls ls').
Proof.
  intros is w w' Hr Hst Hrun. revert Hr Hst. induction Hrun as [w|w accs i C w1 is w' Hs H Hrun IH]; intros Hr Hst.
  - repeat split; auto.
    + intros ps Hp. exists (total_sol_value ps). rewrite Hp. now destruct ps.
    + intros l Hl. exists l. repeat split; auto. intros n ls Hn. exists ls. split; auto. reflexivity.
  - pose proof (reach_sync E C w accs i w1 Hr Hs H) as Hr1.
    destruct (sync_case_of E C w accs i w1 H) as (ps & l & ls & r & more & v & hi & Sc & Hw).
    destruct (C47_effect E C w accs i w1 ps l ls r more v hi Hr H Sc) as (P1 & L1 & _ & _ & EA & ER & ET & EM & EO & EX).
    assert (Hst1 : steady E w1 price).
    { intros w2 T M. apply Hst; congruence. }
    destruct (IH Hr1 Hst1) as (Hr' & T & M & O & X & A & R & P & L).
    split; [exact Hr'|]. repeat (split; [congruence|]). split.
    + intros ps0 Hp0. assert (ps0 = ps) by (pose proof (sc_pool _ _ _ _ _ _ _ _ _ _ _ _ Sc); congruence). subst ps0.
      destruct (P _ P1) as (v' & Hv'). exists v'. rewrite Hv'. reflexivity.
    + intros l0 Hl0. assert (l0 = l) by (pose proof (sc_list _ _ _ _ _ _ _ _ _ _ _ _ Sc); congruence). subst l0.
      destruct (L _ L1) as (l' & Hl' & Hlen & Hnth). exists l'. split; auto.
      pose proof (sc_entry _ _ _ _ _ _ _ _ _ _ _ _ Sc) as N.
      split. { rewrite Hlen. apply replace_nth_length. }
      intros n x Hx. pose proof (replace_nth_nth l (Z.to_nat i) n (set_sol_value ls v) ls N) as Hn1.
      assert (Hv : v = price (sol_value_calculator ls) (ls_mint ls) (balance w r)).
      { eapply Hst; [reflexivity|reflexivity|]. exact (sc_answer _ _ _ _ _ _ _ _ _ _ _ _ Sc). }
      pose proof (sc_reserves _ _ _ _ _ _ _ _ _ _ _ _ Sc) as Rs.
      destruct (Nat.eqb (Z.to_nat i) n) eqn:Hin.
      * apply Nat.eqb_eq in Hin. subst n. assert (x = ls) by congruence. subst x.
        destruct (Hnth _ _ Hn1) as (ls' & Hls' & Ha). exists ls'. split; auto.
        unfold entry_after in *. cbn [existsb]. rewrite Nat.eqb_refl. cbn [orb].
        destruct (existsb (fun i0 => Nat.eqb (Z.to_nat i0) (Z.to_nat i)) is) eqn:Hex.
        -- destruct Ha as (r' & Hr'' & ->). exists r'. unfold reserves_of in *. cbn [ls_mint pool_reserves_bump set_sol_value sol_value_calculator] in *.
           rewrite EO in Hr''. split; auto. unfold balance. rewrite ET. destruct ls; reflexivity.
        -- subst ls'. exists r. split; auto. now rewrite <- Hv.
      * rewrite Hx in Hn1. destruct (Hnth _ _ Hn1) as (ls' & Hls' & Ha). exists ls'. split; auto.
        unfold entry_after in *. cbn [existsb]. rewrite Hin. cbn [orb].
        destruct (existsb (fun i0 => Nat.eqb (Z.to_nat i0) n) is) eqn:Hex; auto.
        destruct Ha as (r' & Hr'' & ->). exists r'. unfold reserves_of, balance in *. rewrite EO in Hr''. split; auto.
        now rewrite ET.
Qed.

(** After a run of syncs that visits every entry at least once, in any order and however wrong the figures
    were before, every entry is recorded at what its calculator says of the reserves, and the total is
    the sum of those. *)
Theorem C47_full_sync E price w is w' l l' : reachable D w -> steady E w price -> syncs D E w is w' ->
  the_list w = Some l -> the_list w' = Some l' ->
  (forall n, (n < length l)%nat -> exists i, In i is /\ Z.to_nat i = n) ->
  (forall n ls, nth_error l n = Some ls -> exists r, reserves_of D w ls r /\
     nth_error l' n = Some (set_sol_value ls (price (sol_value_calculator ls) (ls_mint ls) (balance w r)))) /\
  length l' = length l /\
  (the_pool w <> None -> total w' = sumZ (map sol_value l')).
Proof.
  intros Hr Hst Hrun Hl Hl' Hall.
  destruct (syncs_spec E price is w w' Hr Hst Hrun) as (Hr' & T & M & O & X & A & R & P & L).
  destruct (L l Hl) as (l0 & Hl0 & Hlen & Hn). assert (l0 = l') by congruence. subst l0. split; [|split; auto].
  - intros n ls Hnl. destruct (Hn n ls Hnl) as (ls' & Hls' & Ha).
    destruct (Hall n) as (i & Hi & Hin). { apply nth_error_Some. congruence. }
    unfold entry_after in Ha. rewrite (proj2 (existsb_exists _ _)) in Ha.
    + destruct Ha as (r & Hrs & ->). exists r. auto.
    + exists i. split; auto. now apply Nat.eqb_eq.
  - intros Hp. destruct (the_pool w) as [ps|] eqn:Hps; [|congruence]. destruct (P ps eq_refl) as (v & Hv).
    destruct (C01_total_is_sum D w' HD Hr') as (l1 & Hl1 & _ & Hsum). assert (l1 = l') by congruence. subst l1.
    unfold total. rewrite Hv. exact (Hsum _ Hv).
Qed.

(** The order of syncs, and repetitions, do not matter: two runs over the same entries end in the same
    figures. *)
Theorem C47_order E price w is1 w1 is2 w2 : reachable D w -> steady E w price ->
  syncs D E w is1 w1 -> syncs D E w is2 w2 -> (forall i, In i is1 <-> In i is2) ->
  the_pool w1 = the_pool w2 /\ the_list w1 = the_list w2 /\ w_tok w1 = w_tok w2 /\ w_mint w1 = w_mint w2 /\
  the_authorities w1 = the_authorities w2 /\ the_record w1 = the_record w2.
Proof.
  intros Hr Hst H1 H2 Hsame.
  destruct (syncs_spec E price is1 w w1 Hr Hst H1) as (Hr1 & T1 & M1 & O1 & X1 & A1 & R1 & P1 & L1).
  destruct (syncs_spec E price is2 w w2 Hr Hst H2) as (Hr2 & T2 & M2 & O2 & X2 & A2 & R2 & P2 & L2).
  destruct (C01_total_is_sum D w HD Hr) as (l & Hl & Hnone & _).
  destruct (L1 l Hl) as (l1 & Hl1 & Len1 & N1). destruct (L2 l Hl) as (l2 & Hl2 & Len2 & N2).
  assert (Heq : l1 = l2).
  { apply nth_error_ext'. intros n. destruct (nth_error l n) as [ls|] eqn:Hn.
    - destruct (N1 n ls Hn) as (a & Ha & Ea). destruct (N2 n ls Hn) as (b & Hb & Eb). rewrite Ha, Hb. f_equal.
      unfold entry_after in Ea, Eb.
      assert (Hex : existsb (fun i => Nat.eqb (Z.to_nat i) n) is1 = existsb (fun i => Nat.eqb (Z.to_nat i) n) is2).
      { apply eq_true_iff_eq. rewrite !existsb_exists. split; intros (i & Hi & He); exists i; split; auto; now apply Hsame. }
      rewrite Hex in Ea. destruct (existsb (fun i => Nat.eqb (Z.to_nat i) n) is2); [|congruence].
      destruct Ea as (ra & Ra & ->). destruct Eb as (rb & Rb & ->). unfold reserves_of in *. congruence.
    - apply nth_error_None in Hn. rewrite (proj2 (nth_error_None l1 n)), (proj2 (nth_error_None l2 n)); auto; lia. }
  split; [|split; [|split; [|split; [|split]]]]; try congruence.
  - destruct (C01_total_is_sum D w1 HD Hr1) as (la & Hla & Na & Sa). destruct (C01_total_is_sum D w2 HD Hr2) as (lb & Hlb & Nb & Sb).
    destruct (the_pool w) as [ps|] eqn:Hps.
    + destruct (P1 ps eq_refl) as (va & Hva). destruct (P2 ps eq_refl) as (vb & Hvb). rewrite Hva, Hvb. f_equal. f_equal.
      specialize (Sa _ Hva). specialize (Sb _ Hvb). cbn in Sa, Sb. congruence.
    + specialize (Hnone eq_refl). subst l.
      inversion H1; subst; [inversion H2; subst; [congruence|]|].
      * match goal with H : process _ _ _ _ _ _ = Ok _ |- _ => apply sync_case_of in H end.
        match goal with H : exists ps, _ |- _ => destruct H as (p & ? & ? & ? & ? & ? & ? & Sc & _) end.
        pose proof (sc_pool _ _ _ _ _ _ _ _ _ _ _ _ Sc). congruence.
      * match goal with H : process _ _ _ _ _ _ = Ok _ |- _ => apply sync_case_of in H end.
        match goal with H : exists ps, _ |- _ => destruct H as (p & ? & ? & ? & ? & ? & ? & Sc & _) end.
        pose proof (sc_pool _ _ _ _ _ _ _ _ _ _ _ _ Sc). congruence.
  - unfold the_authorities. congruence.
  - unfold the_record. congruence.
Qed.
End WithDerive.

(* ------------------------------------------------------------------ *)
(** * A case: both LSTs have appreciated since the last sync *)
Definition E_sync : Env := {|
  e_lst_to_sol := fun _ c _ _ x =>
    if c =? CA then Ok (x * 11 / 10, x * 11 / 10 + 1) else if c =? CB then Ok (3 * x, 3 * x) else Err ExternalErr;
  e_sol_to_lst := e_sol_to_lst E0; e_price_exact_in := e_price_exact_in E0;
  e_price_exact_out := e_price_exact_out E0; e_price_lp_to_mint := e_price_lp_to_mint E0;
  e_price_lp_to_redeem := e_price_lp_to_redeem E0 |}.
Definition price_sync (c m : key) (x : Z) : Z := if c =? CA then x * 11 / 10 else 3 * x.
Definition sync_accs_a := [ro MA; rw POOL_STATE_ID; rw LST_STATE_LIST_ID; ro RA; ro CA].
Definition S0 : res World := process D0 E_sync C0 W8 sync_accs_a (SyncSolValue 0).
Definition S01 : res World := process D0 E_sync C0 (get S0) sync_accs (SyncSolValue 1).
Definition S1 : res World := process D0 E_sync C0 W8 sync_accs (SyncSolValue 1).
Definition S11 : res World := process D0 E_sync C0 (get S1) sync_accs (SyncSolValue 1).
Definition S110 : res World := process D0 E_sync C0 (get S11) sync_accs_a (SyncSolValue 0).

Lemma S0_ok : process D0 E_sync C0 W8 sync_accs_a (SyncSolValue 0) = Ok (get S0).
Proof. unfold S0. apply okb_get. vm_compute. reflexivity. Qed.
Lemma S01_ok : process D0 E_sync C0 (get S0) sync_accs (SyncSolValue 1) = Ok (get S01).
Proof. unfold S01. apply okb_get. vm_compute. reflexivity. Qed.
Lemma S1_ok : process D0 E_sync C0 W8 sync_accs (SyncSolValue 1) = Ok (get S1).
Proof. unfold S1. apply okb_get. vm_compute. reflexivity. Qed.
Lemma S11_ok : process D0 E_sync C0 (get S1) sync_accs (SyncSolValue 1) = Ok (get S11).
Proof. unfold S11. apply okb_get. vm_compute. reflexivity. Qed.
Lemma S110_ok : process D0 E_sync C0 (get S11) sync_accs_a (SyncSolValue 0) = Ok (get S110).
Proof. unfold S110. apply okb_get. vm_compute. reflexivity. Qed.
Lemma no_pda_sync : pdas_do_not_sign sync_accs /\ pdas_do_not_sign sync_accs_a.
Proof. split; apply pdas_do_not_signb_ok; vm_compute; reflexivity. Qed.

Example C47_case :
  reachable D0 W8 /\ derive_ok D0 /\ reads_no_controller_accounts E_sync /\ steady E_sync W8 price_sync /\
  syncs D0 E_sync W8 [0; 1] (get S01) /\ syncs D0 E_sync W8 [1; 1; 0] (get S110) /\
  (exists l, the_list W8 = Some l /\ forall n, (n < length l)%nat -> exists i, In i [1; 1; 0] /\ Z.to_nat i = n) /\
  total W8 = 1897688 /\ total (get S110) = 2440506 /\
  recorded W8 0 = 1015064 /\ recorded (get S110) 0 = 1116570 /\ recorded W8 1 = 882624 /\ recorded (get S110) 1 = 1323936.
Proof.
  destruct no_pda_sync as (Nb & Na).
  split; [exact W8_reach|]. split; [exact D0_ok|]. split. { intros w w' _ _ _ _ c m a x. reflexivity. }
  split. { intros w' _ _ c m a x v hi. cbn [e_lst_to_sol E_sync]. unfold price_sync.
           destruct (c =? CA). { congruence. } destruct (c =? CB); congruence. }
  split.
  { eapply (syncs_cons D0 E_sync W8 sync_accs_a 0 C0 (get S0)); [exact Na|exact S0_ok|].
    eapply (syncs_cons D0 E_sync (get S0) sync_accs 1 C0 (get S01)); [exact Nb|exact S01_ok|apply syncs_nil]. }
  split.
  { eapply (syncs_cons D0 E_sync W8 sync_accs 1 C0 (get S1)); [exact Nb|exact S1_ok|].
    eapply (syncs_cons D0 E_sync (get S1) sync_accs 1 C0 (get S11)); [exact Nb|exact S11_ok|].
    eapply (syncs_cons D0 E_sync (get S11) sync_accs_a 0 C0 (get S110)); [exact Na|exact S110_ok|apply syncs_nil]. }
  split.
  { destruct (the_list W8) as [l|] eqn:Hl; [|vm_compute in Hl; discriminate]. exists l. split; auto.
    assert (Hlen : length l = 2%nat).
    { assert (H : match the_list W8 with Some l => length l | None => 0%nat end = 2%nat) by (vm_compute; reflexivity).
      rewrite Hl in H. exact H. }
    intros n Hn. rewrite Hlen in Hn. destruct n as [|[|n]]; [exists 0|exists 1|lia]; cbn; auto. }
  repeat split; vm_compute; reflexivity.
Qed.
