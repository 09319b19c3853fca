(** C11 and C12 at transaction level, C35. *)
From Coq Require Import ZArith List Bool Lia.
From Verif Require Import Base Ratio Calc State Controller Inversion ProcInv Spec CalcProofs InvProofs
  TokProofs AccessProofs ShapeProofs MoneyProofs Concrete ConcreteReach PropState PropAccess PropRebalance
  Serde SerdeProofs PropSerde Tx.
Import ListNotations.
Open Scope Z_scope.

Section WithDerive.
Variable D : Derive.

Lemma call_inv E C w accs data w' :
  process_instruction D E C S_CONTROLLER_ID w accs data = Ok w' ->
  exists ix, dec_ix data = Some ix /\ process D E C w accs ix = Ok w'.
Proof.
  intros H. unfold process_instruction in H. apply guard_ok in H as (_ & H).
  apply bind_ok in H as (ix & Hd & H). apply of_option_ok in Hd. eauto.
Qed.

Lemma steps_trans a b c : steps D a b -> steps D b c -> steps D a c.
Proof.
  intros H1 H2. induction H2 as [b|b w2 w3 H2 IH St]; [exact H1|].
  eapply steps_cons; [exact (IH H1)|exact St].
Qed.
Lemma steps_one a b : step D a b -> steps D a b.
Proof. intros. econstructor; [constructor|auto]. Qed.

Lemma inner_steps C w w' : inner D C w w' -> steps D w w'.
Proof.
  induction 1.
  - constructor.
  - eapply steps_trans; [apply steps_one, step_external; eassumption|assumption].
  - apply call_inv in H1 as (ix & _ & H1).
    eapply steps_trans; [eapply steps_one, step_controller; eassumption|assumption].
Qed.

Lemma exec_ix_steps C ix w w' : exec_ix D C ix w w' -> steps D w w'.
Proof.
  intros [E Hp Hs Hb H|Hp H].
  - rewrite Hp in H. apply call_inv in H as (i & _ & H).
    eapply steps_one, step_controller; eauto.
  - eapply inner_steps; eauto.
Qed.

Lemma exec_from_steps ixs k w w' : exec_from D ixs k w w' -> steps D w w'.
Proof.
  induction 1; [constructor|]. eapply steps_trans; [eapply exec_ix_steps; eauto|]. auto.
Qed.

Lemma reach_steps w w' : reachable D w -> steps D w w' -> reachable D w'.
Proof. intros (w0 & G & S) H. exists w0. split; auto. eapply steps_trans; eauto. Qed.

Lemma chain_reachable w : chain D w -> reachable D w.
Proof.
  induction 1 as [w G|w w' ixs Hc IH Hx].
  - exists w. split; auto. constructor.
  - eapply reach_steps; [exact IH|]. eapply exec_from_steps, Hx.
Qed.

Hypothesis HD : derive_ok D.

Lemma flag_rec w : reachable D w -> (pool_is_rebalancing w <-> the_record w <> None).
Proof. intros H. exact (proj1 (C14_flag_iff_record D w HD H)). Qed.

Lemma reach_step w w' : reachable D w -> step D w w' -> reachable D w'.
Proof. intros H S. eapply reach_steps; [exact H|now apply steps_one]. Qed.

(** Only StartRebalance raises the flag; EndRebalance clears it, and only EndRebalance does. *)
Lemma raises_flag E C w accs ix w' :
  reachable D w -> pdas_do_not_sign accs ->
  process D E C w accs ix = Ok w' -> ~ pool_is_rebalancing w -> pool_is_rebalancing w' ->
  exists a, ix = StartRebalance a.
Proof.
  intros Hr Hs H N P.
  assert (Hr' : reachable D w') by (eapply reach_step; [exact Hr|eapply step_controller; eauto]).
  rewrite (flag_rec w Hr) in N. rewrite (flag_rec w' Hr') in P.
  apply process_rec_effect in H. destruct ix; try (exfalso; apply N; congruence); eauto.
  exfalso. destruct H. congruence.
Qed.
Lemma end_clears E C w accs w' :
  reachable D w -> pdas_do_not_sign accs ->
  process D E C w accs EndRebalance = Ok w' -> ~ pool_is_rebalancing w'.
Proof.
  intros Hr Hs H.
  assert (Hr' : reachable D w') by (eapply reach_step; [exact Hr|eapply step_controller; eauto]).
  rewrite (flag_rec w' Hr'). apply process_rec_effect in H. destruct H. congruence.
Qed.
Lemma clears_flag E C w accs ix w' :
  reachable D w -> pdas_do_not_sign accs ->
  process D E C w accs ix = Ok w' -> pool_is_rebalancing w -> ~ pool_is_rebalancing w' ->
  ix = EndRebalance.
Proof.
  intros Hr Hs H N P.
  assert (Hr' : reachable D w') by (eapply reach_step; [exact Hr|eapply step_controller; eauto]).
  rewrite (flag_rec w Hr) in N. rewrite (flag_rec w' Hr') in P.
  apply process_rec_effect in H. destruct ix; try (exfalso; apply P; congruence); auto.
  exfalso. apply P. tauto.
Qed.
Lemma ext_flag w w' : external_step D w w' -> (pool_is_rebalancing w' <-> pool_is_rebalancing w).
Proof. intros H. unfold pool_is_rebalancing. now rewrite (x_pool _ _ _ H). Qed.

(** Some top-level instruction at index [>= k] is an EndRebalance of the controller. *)
Definition end_pending (ixs : list TopIx) (k : nat) : Prop :=
  exists n ix data, (k <= n)%nat /\ nth_error ixs n = Some ix /\ ti_prog ix = S_CONTROLLER_ID /\
    ti_data ix = 20 :: data.

Lemma call_pending E ixs k w accs ix w' :
  reachable D w -> pdas_do_not_sign accs ->
  process D E (mkCtx ixs k) w accs ix = Ok w' ->
  (pool_is_rebalancing w -> end_pending ixs (S k)) ->
  (pool_is_rebalancing w' -> end_pending ixs (S k)).
Proof.
  intros Hr Hs H I P.
  assert (Hr' : reachable D w') by (eapply reach_step; [exact Hr|eapply step_controller; eauto]).
  destruct (the_record w) as [r|] eqn:Er.
  - apply I. apply flag_rec; auto. congruence.
  - assert (N : ~ pool_is_rebalancing w) by (rewrite flag_rec by auto; congruence).
    destruct (raises_flag _ _ _ _ _ _ Hr Hs H N P) as (a & ->).
    apply C27_needs_end in H as (m & _ & n & ix & data & m' & H1 & H2 & H3 & H4 & _).
    cbn [cx_cur cx_ixs] in *. exists n, ix, data. repeat split; auto.
Qed.

Lemma inner_pending ixs k w w' :
  inner D (mkCtx ixs k) w w' -> reachable D w ->
  (pool_is_rebalancing w -> end_pending ixs (S k)) ->
  (pool_is_rebalancing w' -> end_pending ixs (S k)).
Proof.
  induction 1 as [w|w1 w2 w3 Hx Hi IH|E accs data w1 w2 w3 Hs Hb Hc Hi IH]; intros Hr I; auto.
  - apply IH.
    + eapply reach_step; [exact Hr|now apply step_external].
    + rewrite (ext_flag _ _ Hx). exact I.
  - apply call_inv in Hc as (ix & _ & Hc). apply IH.
    + eapply reach_step; [exact Hr|eapply step_controller; eauto].
    + eapply call_pending; eauto.
Qed.

Lemma exec_ix_pending ixs k ix w w' :
  nth_error ixs k = Some ix -> exec_ix D (mkCtx ixs k) ix w w' -> reachable D w ->
  (pool_is_rebalancing w -> end_pending ixs k) ->
  (pool_is_rebalancing w' -> end_pending ixs (S k)).
Proof.
  intros Hn Hx Hr I.
  destruct Hx as [E Hp Hs Hb H|Hp H].
  - rewrite Hp in H. apply call_inv in H as (i & Hd & H).
    destruct (the_record w) as [r|] eqn:Er.
    + (* rebalancing before: the pending end may be this very instruction *)
      assert (P0 : pool_is_rebalancing w) by (apply flag_rec; auto; congruence).
      destruct (I P0) as (n & ix' & data & Hle & Hn' & Hp' & Hd').
      destruct (Nat.eq_dec n k) as [->|].
      * rewrite Hn in Hn'. injection Hn' as <-. rewrite Hd' in Hd.
        assert (i = EndRebalance) as ->.
        { pose proof (proj2 (C22_end_rebalance (20 :: data)) (ex_intro _ data eq_refl)). congruence. }
        intros P. exfalso. eapply end_clears; eauto.
      * intros _. exists n, ix', data. repeat split; auto. lia.
    + eapply call_pending; eauto. intros P. apply flag_rec in P; auto. congruence.
  - eapply inner_pending; eauto. intros P. destruct (I P) as (n & ix' & data & Hle & Hn' & Hp' & Hd').
    destruct (Nat.eq_dec n k) as [->|].
    + rewrite Hn in Hn'. injection Hn' as <-. congruence.
    + exists n, ix', data. repeat split; auto. lia.
Qed.

Lemma exec_from_not_rebalancing ixs k w w' :
  exec_from D ixs k w w' -> reachable D w ->
  (pool_is_rebalancing w -> end_pending ixs k) -> ~ pool_is_rebalancing w'.
Proof.
  induction 1 as [w|k ix w1 w2 w3 Hn Hx Hf IH]; intros Hr I.
  - intros P. destruct (I P) as (n & ix & data & Hle & Hn & _).
    assert (n < length ixs)%nat by (apply nth_error_Some; congruence). lia.
  - apply IH.
    + eapply reach_steps; [exact Hr|eapply exec_ix_steps; eauto].
    + eapply exec_ix_pending; eauto.
Qed.

(** From a rebalancing state to a non-rebalancing one, some EndRebalance closed the rebalance. *)
Lemma split_at_end w1 w2 :
  reachable D w1 -> pool_is_rebalancing w1 -> steps D w1 w2 -> ~ pool_is_rebalancing w2 ->
  exists we E C accs we', steps_within D pool_is_rebalancing w1 we /\ pdas_do_not_sign accs /\
    process D E C we accs EndRebalance = Ok we' /\ steps D we' w2.
Proof.
  intros Hr P S. 
  assert (G : steps_within D pool_is_rebalancing w1 w2 \/
    exists we E C accs we', steps_within D pool_is_rebalancing w1 we /\ pdas_do_not_sign accs /\
    process D E C we accs EndRebalance = Ok we' /\ steps D we' w2).
  { induction S as [w|w1 w2 w3 S IH St].
    - left. now constructor.
    - destruct (IH Hr P) as [W|(we & E & C & accs & we' & A & B & B' & B'')].
      2:{ right. exists we, E, C, accs, we'. repeat split; auto. econstructor; eauto. }
      assert (P2 : pool_is_rebalancing w2) by (destruct W; auto).
      assert (Hr2 : reachable D w2) by (eapply reach_steps; eauto).
      assert (Hr3 : reachable D w3) by (eapply reach_step; eauto).
      destruct (the_record w3) as [r|] eqn:Er.
      + left. econstructor; eauto. apply flag_rec; auto. congruence.
      + assert (N : ~ pool_is_rebalancing w3) by (rewrite flag_rec by auto; congruence).
        destruct St as [X|E C accs ix Hs H].
        { exfalso. apply N. now apply (ext_flag _ _ X). }
        pose proof (clears_flag _ _ _ _ _ _ Hr2 Hs H P2 N) as ->.
        right. exists w2, E, C, accs, w3. repeat split; auto. constructor. }
  intros N. destruct G as [W|G]; auto. exfalso. apply N. destruct W; auto.
Qed.
End WithDerive.

(** C11. A transaction that starts while the pool is not rebalancing and commits — whatever its
    instructions, including other programs calling into the controller — leaves the pool not
    rebalancing. *)
Theorem C11_transaction D ixs w w' :
  derive_ok D -> reachable D w -> ~ pool_is_rebalancing w -> committed D ixs w w' ->
  ~ pool_is_rebalancing w'.
Proof.
  intros HD Hr N Hc. eapply (exec_from_not_rebalancing D HD ixs 0 w w'); eauto. tauto.
Qed.

(** ... so between transactions the pool is never rebalancing, and the rebalance record account never
    exists. *)
Theorem C11_between_transactions D w :
  derive_ok D -> chain D w -> ~ pool_is_rebalancing w /\ the_record w = None.
Proof.
  intros HD Hc. pose proof (chain_reachable D w Hc) as Hr.
  assert (N : ~ pool_is_rebalancing w).
  { induction Hc as [w G|w w' ixs Hc IH Hx].
    - intros (ps & Hp & _). destruct G as (G & _). congruence.
    - pose proof (chain_reachable D w Hc) as Hr0.
      exact (C11_transaction D ixs w w' HD Hr0 (IH Hr0) Hx). }
  split; auto. rewrite (flag_rec D HD w Hr) in N. destruct (the_record w); auto. exfalso. apply N. discriminate.
Qed.

(** C12 for whole transactions: when a StartRebalance runs (as a top-level instruction, or called by
    another program's instruction) in a transaction whose remaining instructions all succeed, an
    EndRebalance follows in it while the pool is still rebalancing, and after it the pool's total is at
    least what it was when StartRebalance had measured the reserves and nothing had left ([wm]). *)
Theorem C12_transaction D E ixs k w accs a ws w1 w' :
  derive_ok D -> reachable D w -> pdas_do_not_sign accs ->
  process D E (mkCtx ixs k) w accs (StartRebalance a) = Ok ws ->
  inner D (mkCtx ixs k) ws w1 -> exec_from D ixs (S k) w1 w' ->
  exists wm we E' C' accs' we',
    start_flow E w accs (sr_src_lst_calc_accs a) (sr_src_lst_index a) (sr_dst_lst_index a) wm
      (sr_amount a) ws /\
    steps_within D pool_is_rebalancing ws we /\
    process D E' C' we accs' EndRebalance = Ok we' /\ steps D we' w' /\
    total wm <= total we' /\ ~ pool_is_rebalancing w'.
Proof.
  intros HD Hr Hs H Hi Hf.
  assert (Hrs : reachable D ws) by (eapply reach_step; [exact Hr|eapply step_controller; eauto]).
  assert (Ps : pool_is_rebalancing ws).
  { apply (flag_rec D HD); auto. apply process_rec_effect in H. tauto. }
  assert (Hr1 : reachable D w1) by (eapply reach_steps; [exact Hrs|eapply inner_steps; eauto]).
  assert (N : ~ pool_is_rebalancing w').
  { eapply (exec_from_not_rebalancing D HD ixs (S k) w1 w'); eauto.
    eapply inner_pending; eauto. intros _.
    pose proof H as H0. apply C27_needs_end in H0 as (m & _ & n & ix & data & m' & H1 & H2 & H3 & H4 & _).
    cbn [cx_cur cx_ixs] in *. exists n, ix, data. repeat split; auto. }
  assert (S : steps D ws w').
  { eapply steps_trans; [eapply inner_steps; eauto|eapply exec_from_steps; eauto]. }
  destruct (split_at_end D HD ws w' Hrs Ps S N) as (we & E' & C' & accs' & we' & W & Hs' & HE & S').
  destruct (C12_rebalance_keeps_value D E _ w accs a ws we E' C' accs' we' HD Hr Hs H W HE)
    as (wm & F & T & _).
  exists wm, we, E', C', accs', we'. repeat split; auto.
Qed.

(** The example rebalance as one committed transaction: start, a user's own token transfer, end; and
    the same transaction without the end never commits. *)
Definition start_top : TopIx := mkTop S_CONTROLLER_ID start_accs (enc_ix (StartRebalance start_args)).
Definition user_top : TopIx := mkTop SPL_TOKEN_2022_ID [] [12].
Definition reb_tx : list TopIx := [start_top; user_top; end_ix].

Example C11_case : reachable D0 W8 /\ ~ pool_is_rebalancing W8 /\ pool_is_rebalancing W9 /\
  (exists w', committed D0 reb_tx W8 w' /\ total W8 <= total w') /\
  process_instruction D0 E0 (mkCtx [start_top; user_top] 0) S_CONTROLLER_ID W8 start_accs (ti_data start_top)
    = Err (Ctl NoSucceedingEndRebalance).
Proof.
  split; [exact W8_reach|]. split.
  { intros (ps & Hp & Hb). vm_compute in Hp. injection Hp as <-. cbn in Hb. congruence. }
  split; [exact W9_rebalancing|]. split; [|vm_compute; reflexivity].
  exists (get (process_instruction D0 E0 (mkCtx reb_tx 2) S_CONTROLLER_ID W10 end_accs [20])). split.
  - eapply exec_next with (w2 := W9); [reflexivity| |].
    { eapply exec_controller with (E := E0); [reflexivity|apply pdas_do_not_signb_ok; vm_compute; reflexivity|vm_compute; reflexivity|].
      assert (X : process_instruction D0 E0 (mkCtx reb_tx 0) S_CONTROLLER_ID W8 start_accs (ti_data start_top) = R9)
        by (vm_compute; reflexivity).
      cbn [ti_prog ti_accs start_top]. rewrite X. unfold W9. apply okb_get. vm_compute. reflexivity. }
    eapply exec_next with (w2 := W10); [reflexivity| |].
    { apply exec_other; [cbn; discriminate|]. eapply inner_ext; [|apply inner_done].
      eapply transfer_external with (amt := 5000) (s := true) (auth := USER).
      + apply base_u64. exact (proj1 (reachable_inv D0 D0_ok _ W9_reach)).
      + exact (proj1 (reachable_ata D0 D0_ok _ W9_reach)).
      + lia.
      + unfold USER. cbn. unfold POOL_STATE_ID, LST_STATE_LIST_ID, DISABLE_POOL_AUTHORITY_LIST_ID,
          REBALANCE_RECORD_ID, PROTOCOL_FEE_ID. intuition lia.
      + apply okb_get. vm_compute. reflexivity. }
    eapply exec_next; [reflexivity| |].
    { eapply exec_controller with (E := E0); [reflexivity|apply pdas_do_not_signb_ok; vm_compute; reflexivity|vm_compute; reflexivity|].
      cbn [ti_prog ti_accs ti_data end_ix]. apply okb_get. vm_compute. reflexivity. }
    apply (exec_done D0 reb_tx).
  - vm_compute. discriminate.
Qed.

(* ------------------------------------------------------------------ *)
(** * C35 *)

(** [E'] answers a query only as [E] does, but may fail where [E] answers. *)
Definition fails_more (E' E : Env) : Prop :=
  (forall w p m a x v, e_lst_to_sol E' w p m a x = Ok v -> e_lst_to_sol E w p m a x = Ok v) /\
  (forall w p m a x v, e_sol_to_lst E' w p m a x = Ok v -> e_sol_to_lst E w p m a x = Ok v) /\
  (forall w p s d a x y v, e_price_exact_in E' w p s d a x y = Ok v -> e_price_exact_in E w p s d a x y = Ok v) /\
  (forall w p s d a x y v, e_price_exact_out E' w p s d a x y = Ok v -> e_price_exact_out E w p s d a x y = Ok v) /\
  (forall w p m a x y v, e_price_lp_to_mint E' w p m a x y = Ok v -> e_price_lp_to_mint E w p m a x y = Ok v) /\
  (forall w p m a x y v, e_price_lp_to_redeem E' w p m a x y = Ok v -> e_price_lp_to_redeem E w p m a x y = Ok v).

Definition le {A} (r r' : res A) : Prop := forall v, r = Ok v -> r' = Ok v.
Lemma le_refl {A} (r : res A) : le r r. Proof. intros v H. exact H. Qed.
Lemma le_bind {A B} (m m' : res A) (f f' : A -> res B) :
  le m m' -> (forall a, le (f a) (f' a)) -> le (bind m f) (bind m' f').
Proof.
  intros Hm Hf v H. apply bind_ok in H as (a & Ha & H). rewrite (Hm _ Ha). cbn. now apply Hf.
Qed.
Lemma le_guard {A} b e (k k' : res A) : le k k' -> le (guard b e k) (guard b e k').
Proof. intros H v. destruct b; cbn; auto. Qed.
Lemma le_dr r r' : le r r' -> le (decode_range r) (decode_range r').
Proof.
  intros H v. unfold decode_range. intros K. apply bind_ok in K as (a & Ha & K).
  unfold of_ext in *. destruct r; [|discriminate]. rewrite (H _ eq_refl). injection Ha as <-. exact K.
Qed.
Lemma le_du r r' : le r r' -> le (decode_u64 r) (decode_u64 r').
Proof.
  intros H v. unfold decode_u64. intros K. apply bind_ok in K as (a & Ha & K).
  unfold of_ext in *. destruct r; [|discriminate]. rewrite (H _ eq_refl). injection Ha as <-. exact K.
Qed.

Section Mono.
Variables (D : Derive) (E E' : Env).
Hypothesis HE : fails_more E' E.

Lemma le_lts w c m x : le (invoke_lst_to_sol E' w c m x) (invoke_lst_to_sol E w c m x).
Proof. destruct HE as (H & _). unfold invoke_lst_to_sol. apply le_dr. intros v. apply H. Qed.
Lemma le_stl w c m x : le (invoke_sol_to_lst E' w c m x) (invoke_sol_to_lst E w c m x).
Proof. destruct HE as (_ & H & _). unfold invoke_sol_to_lst. apply le_dr. intros v. apply H. Qed.
Lemma le_pin w c s d x y : le (invoke_price_exact_in E' w c s d x y) (invoke_price_exact_in E w c s d x y).
Proof. destruct HE as (_ & _ & H & _). unfold invoke_price_exact_in. apply le_du. intros v. apply H. Qed.
Lemma le_pout w c s d x y : le (invoke_price_exact_out E' w c s d x y) (invoke_price_exact_out E w c s d x y).
Proof. destruct HE as (_ & _ & _ & H & _). unfold invoke_price_exact_out. apply le_du. intros v. apply H. Qed.
Lemma le_pm w c m x y : le (invoke_price_lp_to_mint E' w c m x y) (invoke_price_lp_to_mint E w c m x y).
Proof. destruct HE as (_ & _ & _ & _ & H & _). unfold invoke_price_lp_to_mint. apply le_du. intros v. apply H. Qed.
Lemma le_pr w c m x y : le (invoke_price_lp_to_redeem E' w c m x y) (invoke_price_lp_to_redeem E w c m x y).
Proof. destruct HE as (_ & _ & _ & _ & _ & H). unfold invoke_price_lp_to_redeem. apply le_du. intros v. apply H. Qed.

Ltac le1 :=
  match goal with
  | |- le ?x ?x => apply le_refl
  | |- le (bind _ _) (bind _ _) => apply le_bind; [|intros]
  | |- le (guard _ _ _) (guard _ _ _) => apply le_guard
  | |- le (invoke_lst_to_sol _ _ _ _ _) _ => apply le_lts
  | |- le (invoke_sol_to_lst _ _ _ _ _) _ => apply le_stl
  | |- le (invoke_price_exact_in _ _ _ _ _ _ _) _ => apply le_pin
  | |- le (invoke_price_exact_out _ _ _ _ _ _ _) _ => apply le_pout
  | |- le (invoke_price_lp_to_mint _ _ _ _ _ _) _ => apply le_pm
  | |- le (invoke_price_lp_to_redeem _ _ _ _ _ _) _ => apply le_pr
  | |- le (match ?x with _ => _ end) _ => destruct x
  | |- le (sync_sol_value_unchecked _ _ _ _ _ _ _ _) _ => unfold sync_sol_value_unchecked
  | |- le (sync_src _ _ _ _ _) _ => unfold sync_src
  | |- le (sync_dst _ _ _ _ _) _ => unfold sync_dst
  | |- le (sync_liq _ _ _ _ _) _ => unfold sync_liq
  | |- le (swap_settle _ _ _ _ _ _ _ _ _ _ _) _ => unfold swap_settle
  | |- le (verify_keys_privs _ _ _ _ _) _ => unfold verify_keys_privs
  end.

Lemma process_le C w accs ix : le (process D E' C w accs ix) (process D E C w accs ix).
Proof.
  unfold process. apply le_guard. destruct ix; try apply le_refl.
  - unfold process_sync_sol_value. repeat le1.
  - unfold process_swap_exact_in. repeat le1.
  - unfold process_swap_exact_out. repeat le1.
  - unfold process_add_liquidity. repeat le1.
  - unfold process_remove_liquidity. repeat le1.
  - unfold process_set_sol_value_calculator. repeat le1.
  - unfold process_start_rebalance. repeat le1.
  - unfold process_end_rebalance. repeat le1.
Qed.
End Mono.

(** C35 (i). No failure of a called program is swallowed: making some of the calculator's or pricing
    program's answers fail can only turn a successful instruction into a failed one; it never makes it
    succeed with another outcome. *)
Theorem C35_no_swallowed_failure D E E' C w accs ix w' :
  fails_more E' E -> process D E' C w accs ix = Ok w' -> process D E C w accs ix = Ok w'.
Proof. intros H. apply process_le. exact H. Qed.

Definition E_fail : Env := {|
  e_lst_to_sol := e_lst_to_sol E0; e_sol_to_lst := fun _ _ _ _ _ => Err ExternalErr;
  e_price_exact_in := e_price_exact_in E0; e_price_exact_out := e_price_exact_out E0;
  e_price_lp_to_mint := e_price_lp_to_mint E0; e_price_lp_to_redeem := e_price_lp_to_redeem E0 |}.
Example C35_case : fails_more E_fail E0 /\ E_fail <> E0 /\
  okb (process D0 E_fail C0 W5 sync_accs (SyncSolValue 1)) = true /\
  process D0 E_fail C0 W5 swap_accs (SwapExactIn swap_in_args) = Err ExternalErr.
Proof.
  split; [repeat split; intros; auto; discriminate|].
  split.
  { intros H. apply (f_equal (fun e => okb (e_sol_to_lst e W5 CA MA [] 5))) in H. vm_compute in H. discriminate. }
  split; vm_compute; reflexivity.
Qed.
