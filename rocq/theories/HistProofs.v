(** Proofs behind C44: recorded values stay covered by the reserves, and what each step does to the value
    behind the LP tokens. *)
From Coq Require Import ZArith List Bool Lia.
From Verif Require Import Base Ratio Calc State Controller Inversion ProcInv Spec CalcProofs InvProofs
  TokProofs AccessProofs ShapeProofs MoneyProofs Concrete PropAccess PropTok PropMoney PropLp JupRefresh PropDeploy HistSpec.
Import ListNotations.
Open Scope Z_scope.

Lemma worth_floor r m x : rates_ok r ->
  worth_at r m x * snd (r m) <= x * fst (r m) < (worth_at r m x + 1) * snd (r m).
Proof.
  intros H. destruct (H m) as (H1 & H2). unfold worth_at.
  pose proof (Z.mul_div_le (x * fst (r m)) (snd (r m)) H2).
  pose proof (Z.mul_succ_div_gt (x * fst (r m)) (snd (r m)) H2). lia.
Qed.
Lemma worth_le r m x y : rates_ok r -> x <= y -> worth_at r m x <= worth_at r m y.
Proof.
  intros H Hxy. destruct (H m). unfold worth_at. apply Z.div_le_mono; auto. apply Z.mul_le_mono_nonneg_r; lia.
Qed.
Lemma worth_ge0 r m x : rates_ok r -> 0 <= x -> 0 <= worth_at r m x.
Proof. intros H Hx. destruct (H m). unfold worth_at. apply Z.div_pos; auto. apply Z.mul_nonneg_nonneg; lia. Qed.
Lemma worth_rise r r' m x : rates_ok r -> rates_ok r' -> rates_rise r r' -> 0 <= x -> worth_at r m x <= worth_at r' m x.
Proof.
  intros H H' Hr Hx. destruct (H m) as (A & B), (H' m) as (A' & B'). specialize (Hr m).
  pose proof (worth_floor r m x H) as (Q & _).
  unfold worth_at at 2. apply Z.div_le_lower_bound; auto. 
  set (v := worth_at r m x) in *. pose proof (worth_ge0 r m x H Hx) as Hv. fold v in Hv.
  destruct (r m) as [n d], (r' m) as [n' d']. cbn [fst snd] in *.
  (* v d <= x n ; n d' <= n' d ; goal d' v <= x n' *)
  assert (Q1 : v * d * d' <= x * n * d') by (apply Z.mul_le_mono_nonneg_r; lia).
  assert (Q2 : x * (n * d') <= x * (n' * d)) by (apply Z.mul_le_mono_nonneg_l; lia).
  assert (Q3 : d * (d' * v) <= d * (x * n')) by lia.
  apply Z.mul_le_mono_pos_l in Q3; auto.
Qed.


Lemma worth_val_ok r : rates_ok r -> val_ok (worth_at r).
Proof. intros H m. split; [intros x; now apply worth_ge0|intros x y; now apply worth_le]. Qed.
Lemma val_ge0 V m x : val_ok V -> 0 <= x -> 0 <= V m x. Proof. intros H. apply H. Qed.
Lemma val_le V m x y : val_ok V -> x <= y -> V m x <= V m y. Proof. intros H. apply H. Qed.
(** The calculators listed in [w] value at [V]. *)
Definition truthful (E : Env) (V : valuation) (w : World) : Prop :=
  forall l ls w0 accs, the_list w = Some l -> In ls l ->
    forall x v, valued E w0 (sol_value_calculator ls) (ls_mint ls) accs x v -> v = V (ls_mint ls) x.

Section Hist.
Variables (D : Derive) (HD : derive_ok D).

(** The reserves account of a listed LST. *)
Lemma reserve_account w l ls k : ata_inv D w -> the_list w = Some l -> In ls l -> reserves_at D w ls k ->
  w_mint w (ls_mint ls) <> None /\
  exists t, w_tok w k = Some t /\ ta_mint t = ls_mint ls /\ ta_owner t = POOL_STATE_ID.
Proof.
  intros (Ha & Hl & _) Hll Hin Hk. pose proof (proj1 (Forall_forall _ _) (Hl _ Hll) _ Hin) as (_ & Hm & r & f & F1 & _ & Hr & _).
  split; [exact Hm|]. apply (find_create D HD) in F1. unfold reserves_at in Hk. assert (r = k) by congruence. subst r.
  destruct (w_tok w k) as [t|] eqn:Ht; [|congruence]. destruct (Ha _ _ _ _ _ (or_introl eq_refl) Hk) as (_ & B).
  destruct (B t Ht) as (B1 & B2 & _). eauto.
Qed.
Lemma same_mint_index l i j a b : NoDup (map ls_mint l) -> nth_error l i = Some a -> nth_error l j = Some b ->
  ls_mint a = ls_mint b -> i = j.
Proof.
  intros Hn Hi Hj He. pose proof (proj1 (NoDup_nth_error (map ls_mint l)) Hn i j) as H. apply H.
  - rewrite map_length. apply nth_error_Some. congruence.
  - rewrite (map_nth_error ls_mint _ _ Hi), (map_nth_error ls_mint _ _ Hj). now f_equal.
Qed.

(** Covered, except possibly entry [X]. *)
Definition cov (r : valuation) (X : option nat) (w : World) : Prop :=
  forall l i ls k, the_list w = Some l -> nth_error l i = Some ls -> reserves_at D w ls k -> X <> Some i ->
    sol_value ls <= r (ls_mint ls) (balance w k).
Lemma covered_cov r w : covered D r w <-> cov r None w.
Proof.
  split.
  - intros H l i ls k Hl Hi Hk _. apply nth_error_In in Hi. eauto.
  - intros H l ls k Hl Hi Hk. apply In_nth_error in Hi as (i & Hi). eapply H; eauto. discriminate.
Qed.

Lemma cov_reval r X E w i res c m accs w' l ls :
  revalued E w i res c m accs w' -> the_list w = Some l -> nth_error l (Z.to_nat i) = Some ls ->
  ls_mint ls = m -> reserves_at D w ls res ->
  (forall v, valued E w c m accs (balance w res) v -> v = r m (balance w res)) ->
  cov r X w ->
  cov r (if match X with Some x => Nat.eqb x (Z.to_nat i) | None => true end then None else X) w' /\
  (X <> Some (Z.to_nat i) -> total w <= total w') /\ w_owner w' = w_owner w /\ w_tok w' = w_tok w /\
  exists l', the_list w' = Some l' /\ map strip l' = map strip l.
Proof.
  intros (v & hi & ps & l0 & ls0 & _ & Hv & Hp & Hl & Hn & Hp' & Hl' & _ & _ & Ht & _ & Ho & _) Hl0 Hn0 Hm Hk Hval Hc.
  assert (l0 = l) by congruence. subst l0. assert (ls0 = ls) by congruence. subst ls0.
  pose proof (Hval v (ex_intro _ hi Hv)) as ->.
  split; [|split; [|csplit; auto]].
  - intros l1 j ls1 k1 Hl1 Hj Hk1 HX. rewrite Hl' in Hl1. injection Hl1 as <-.
    unfold reserves_at in Hk1. rewrite Ho in Hk1. unfold balance. rewrite Ht. fold (balance w k1).
    destruct (Nat.eq_dec j (Z.to_nat i)) as [->|Hne].
    + rewrite (nth_error_replace_same _ _ _ ls) in Hj by auto. injection Hj as <-. cbn in Hk1 |- *.
      unfold reserves_at in Hk. assert (k1 = res) by congruence. subst k1. rewrite Hm. lia.
    + rewrite nth_error_replace_other in Hj by auto. eapply (Hc l j); eauto.
      destruct X as [x|]; [|discriminate]. destruct (Nat.eqb_spec x (Z.to_nat i)); congruence.
  - intros HX. unfold total. rewrite Hp, Hp'. cbn [total_sol_value set_total].
    pose proof (Hc l _ ls res Hl Hn0 Hk HX) as Q. rewrite Hm in Q. lia.
  - eexists. split; [exact Hl'|]. clear -Hn0. revert l Hn0. generalize (Z.to_nat i). induction n; intros [|x l] H; try discriminate; cbn in *.
    + injection H as ->. reflexivity.
    + f_equal. auto.
Qed.

Lemma cov_move r X w w' : val_ok r ->
  the_list w' = the_list w -> w_owner w' = w_owner w ->
  (forall l i ls k, the_list w = Some l -> nth_error l i = Some ls -> reserves_at D w ls k -> X <> Some i ->
     balance w k <= balance w' k) ->
  cov r None w -> cov r X w'.
Proof.
  intros Hr Hl Ho Hb Hc l i ls k Hl' Hi Hk HX. rewrite Hl in Hl'. unfold reserves_at in Hk. rewrite Ho in Hk.
  etransitivity; [eapply (Hc l i ls k); eauto; discriminate|]. apply val_le; eauto.
Qed.

(** Instructions that measure nothing and pay nothing out of reserves. *)
Lemma cov_quiet r w w' l l' : val_ok r -> ata_inv D w -> ata_inv D w' -> tokens_u64 w' ->
  the_list w = Some l -> the_list w' = Some l' ->
  (forall ls', In ls' l' -> sol_value ls' = 0 \/
     exists ls, In ls l /\ ls_mint ls = ls_mint ls' /\ pool_reserves_bump ls = pool_reserves_bump ls' /\
       sol_value ls = sol_value ls') ->
  (forall k, w_mint w k <> None -> w_owner w' k = w_owner w k) ->
  not_drained POOL_STATE_ID w w' ->
  covered D r w -> covered D r w'.
Proof.
  intros Hr Ha Ha' Hu Hl Hl' Hsub Ho Hnd Hc l1 ls' k Hl1 Hin Hk. assert (l1 = l') by congruence. subst l1.
  destruct (Hsub _ Hin) as [->|(ls & Hi & E1 & E2 & E3)].
  - destruct (reserve_account _ _ _ _ Ha' Hl' Hin Hk) as (_ & t & Ht & _).
    apply val_ge0; auto. unfold balance. rewrite Ht. apply (proj1 Hu) in Ht. unfold U64 in Ht. lia.
  - pose proof (proj1 (proj2 Ha) _ Hl) as HF. pose proof (proj1 (Forall_forall _ _) HF _ Hi) as (_ & Hm & _).
    assert (Hk0 : reserves_at D w ls k).
    { unfold reserves_at in *. rewrite E1, E2. rewrite <- Hk. f_equal. symmetry. apply Ho. now rewrite <- E1. }
    destruct (reserve_account _ _ _ _ Ha Hl Hi Hk0) as (_ & t & Ht & _ & Hot).
    rewrite <- E3, <- E1. etransitivity; [eapply Hc; eauto|]. apply val_le; auto. eapply Hnd; eauto.
Qed.

(** The calculators of [w'] being honest, so were those of [w] with the same listing. *)
Definition speaks (E : Env) (r : valuation) (c m : key) : Prop :=
  forall w0 accs x v, valued E w0 c m accs x v -> v = r m x.
Lemma honest_strip E r w w' l l' i ls : truthful E r w' -> the_list w = Some l -> the_list w' = Some l' ->
  map strip l' = map strip l -> nth_error l i = Some ls -> speaks E r (sol_value_calculator ls) (ls_mint ls).
Proof.
  intros Hh Hl Hl' He Hi w0 accs. apply (map_nth_error strip) in Hi. rewrite <- He in Hi.
  rewrite nth_error_map in Hi. destruct (nth_error l' i) as [ls'|] eqn:Hi'; [|discriminate]. cbn in Hi.
  injection Hi as _ _ _ E1 E2. apply nth_error_In in Hi'. rewrite <- E1, <- E2. exact (Hh l' ls' w0 accs Hl' Hi').
Qed.
Lemma strip_nth l l' i ls : map strip l' = map strip l -> nth_error l i = Some ls ->
  exists ls', nth_error l' i = Some ls' /\ ls_mint ls' = ls_mint ls /\ pool_reserves_bump ls' = pool_reserves_bump ls /\
    sol_value_calculator ls' = sol_value_calculator ls.
Proof.
  intros He Hi. apply (map_nth_error strip) in Hi. rewrite <- He in Hi.
  rewrite nth_error_map in Hi. destruct (nth_error l' i) as [ls'|] eqn:Hi'; [|discriminate]. cbn in Hi.
  injection Hi as E0 E1 E2 E3 E4. exists ls'. csplit; auto.
Qed.

(** A swap. *)
Lemma swap_cov r E w accs n m i j w2 si so fee w' l lsrc ldst :
  val_ok r -> inv w -> ata_inv D w -> pdas_do_not_sign accs -> shape w w' ->
  swap_flow E w accs n m i j w2 si so fee w' -> 0 <= si -> 0 <= so -> 0 <= fee -> 0 <= i -> 0 <= j ->
  the_list w = Some l -> nth_error l (Z.to_nat i) = Some lsrc -> nth_error l (Z.to_nat j) = Some ldst ->
  swap_parties D w accs lsrc ldst ->
  speaks E r (group_prog (group accs 12 n)) (ls_mint lsrc) ->
  speaks E r (group_prog (group accs (12 + Z.to_nat n) m)) (ls_mint ldst) ->
  cov r None w -> cov r None w' /\ total w <= total w2.
Proof.
  intros Hr Hi Ha Hn Hsh HF Hsi Hso Hfee Hi0 Hj0 Hl N1 N2 HQ Hs1 Hs2 Hc.
  pose proof (parties_distinct _ _ _ _ _ _ _ _ N1 N2 HQ) as Hij.
  destruct HQ as (Hne & M1 & M2 & _ & (us & US & USm & USo & USs) & _ & (rs & RS & RSm) & (rd & RD & RDm & RDo) & _ & D1 & D2 & _).
  destruct HF as (w1 & w3 & w4 & R1 & R2 & SC & _ & HB & R3 & R4).
  destruct (cov_reval r None _ _ _ _ _ _ _ _ l lsrc R1 Hl N1 M1) as (C1 & T1 & O1 & K1 & l1 & L1 & E1);
    [unfold reserves_at; now rewrite M1|intros v Hv; rewrite <- M1 in *; eapply (Hs1 w _); eauto|exact Hc|].
  destruct (strip_nth _ _ _ _ E1 N2) as (ld1 & N21 & Md1 & Bd1 & _).
  assert (Q1 : ls_mint ld1 = sw_dst_mint accs) by congruence.
  destruct (cov_reval r None _ _ _ _ _ _ _ _ l1 ld1 R2 L1 N21 Q1) as (C2 & T2 & O2 & K2 & l2 & L2 & E2);
    [unfold reserves_at; rewrite Q1, O1, Bd1; exact D2
    |intros v Hv; rewrite <- M2 in *; eapply (Hs2 w1 _); eauto|exact C1|].
  cbn in C1, C2. split; [|specialize (T1 ltac:(discriminate)); specialize (T2 ltac:(discriminate)); lia].
  destruct SC as (SP & SL & _). rewrite L2 in SL. rewrite E1 in E2.
  (* w3 has the owners of w *)
  destruct R4 as (v4 & h4 & p4 & l4 & s4 & Z4). assert (O4 : w_owner w' = w_owner w4) by tauto. assert (K4 : w_tok w' = w_tok w4) by tauto.
  pose proof (ex_intro (fun v => exists hi ps l ls, _) v4 (ex_intro _ h4 (ex_intro _ p4 (ex_intro _ l4 (ex_intro _ s4 Z4)))) : revalued E w4 j (sw_dst_reserves accs) (group_prog (group accs (12 + Z.to_nat n) m)) (sw_dst_mint accs) (group_accs (group accs (12 + Z.to_nat n) m)) w') as R4.
  assert (O3 : w_owner w4 = w_owner w3) by (destruct R3 as (? & ? & ? & ? & ? & ?); tauto).
  assert (O23 : w_owner w3 = w_owner w2) by (destruct Hsh as (Hsh & _); congruence).
  assert (C3 : cov r (Some (Z.to_nat j)) w3).
  { apply (cov_move r _ w2); auto; [now rewrite SL, L2|].
    intros lz x lx k Hlz Hx Hk Hnx. rewrite L2 in Hlz. injection Hlz as <-.
    destruct (strip_nth l l2 (Z.to_nat j) ldst E2 N2) as (ld2 & N22 & Md2 & Bd2 & _).
    symmetry in E2. destruct (strip_nth l2 l x lx E2 Hx) as (lx0 & Hx0 & Mx & Bx & _).
    assert (Hk0 : reserves_at D w lx0 k) by (unfold reserves_at in *; rewrite Mx, Bx; congruence).
    destruct (reserve_account _ _ _ _ Ha Hl (nth_error_In _ _ Hx0) Hk0) as (_ & t & Ht & Hmt & Hot).
    pose proof (signer_users _ _ _ _ Hn US USo USs _ US) as (Nu & _).
    rewrite HB. rewrite (on_other k (sw_user_src accs)) by (intros ->; congruence).
    rewrite (on_other k (sw_dst_reserves accs)).
    2:{ intros ->. apply Hnx. f_equal. symmetry. destruct Hi as ((la & _ & Hla & _ & Hnd & _) & _).
        assert (la = l) by congruence. subst la. eapply (same_mint_index l); eauto. congruence. }
    unfold on. repeat match goal with |- context [if ?b then _ else _] => destruct b end; lia. }
  destruct (strip_nth l l2 (Z.to_nat i) lsrc E2 N1) as (ls2 & N12 & Ms2 & Bs2 & _).
  destruct (strip_nth l l2 (Z.to_nat j) ldst E2 N2) as (ld2 & N22 & Md2 & Bd2 & _).
  destruct (cov_reval r (Some (Z.to_nat j)) _ _ _ _ _ _ _ _ l2 ls2 R3 SL N12) as (C4 & _ & _ & _ & l3 & L3 & E3);
    [congruence|unfold reserves_at; rewrite Ms2, Bs2, M1, O23, O2, O1; exact D1
    |intros v Hv; rewrite <- M1 in *; eapply (Hs1 w3 _); eauto|exact C3|].
  destruct (Nat.eqb_spec (Z.to_nat j) (Z.to_nat i)); [lia|].
  destruct (strip_nth l2 l3 (Z.to_nat j) ld2 E3 N22) as (ld3 & N33 & Md3 & Bd3 & _).
  destruct (cov_reval r (Some (Z.to_nat j)) _ _ _ _ _ _ _ _ l3 ld3 R4 L3 N33) as (C5 & _);
    [congruence|unfold reserves_at; rewrite Md3, Bd3, Md2, Bd2, M2, O3, O23, O2, O1; exact D2
    |intros v Hv; rewrite <- M2 in *; eapply (Hs2 w4 _); eauto|exact C4|].
  rewrite Nat.eqb_refl in C5. exact C5.
Qed.

(** A deposit or a redemption: measure, move tokens, measure again. *)
Lemma liq_cov r E w accs g i w1 w2 w' l ls :
  val_ok r -> inv w -> ata_inv D w -> shape w w' ->
  revalued E w i (lq_reserves accs) (group_prog g) (lq_mint accs) (group_accs g) w1 ->
  same_controller_accounts w1 w2 ->
  (forall k t, w_tok w k = Some t -> ta_owner t = POOL_STATE_ID -> k <> lq_reserves accs -> balance w1 k <= balance w2 k) ->
  revalued E w2 i (lq_reserves accs) (group_prog g) (lq_mint accs) (group_accs g) w' ->
  the_list w = Some l -> nth_error l (Z.to_nat i) = Some ls -> liq_parties D w accs ls ->
  speaks E r (group_prog g) (ls_mint ls) ->
  cov r None w -> cov r None w' /\ total w <= total w1.
Proof.
  intros Hr Hi Ha Hsh R1 SC HB R2 Hl N1 HQ Hs Hc.
  destruct HQ as (M1 & _ & _ & (rs & RS & RSm) & _ & D1 & _).
  destruct (cov_reval r None _ _ _ _ _ _ _ _ l ls R1 Hl N1 M1) as (C1 & T1 & O1 & K1 & l1 & L1 & E1);
    [unfold reserves_at; now rewrite M1|intros v Hv; rewrite <- M1 in *; eapply (Hs w _); eauto|exact Hc|].
  cbn in C1. split; [|apply T1; discriminate].
  destruct SC as (SP & SL & _). rewrite L1 in SL.
  assert (O2 : w_owner w' = w_owner w2) by (destruct R2 as (? & ? & ? & ? & ? & ?); tauto).
  assert (O12 : w_owner w2 = w_owner w1) by (destruct Hsh as (Hsh & _); congruence).
  assert (C2 : cov r (Some (Z.to_nat i)) w2).
  { apply (cov_move r _ w1); auto; [now rewrite SL, L1|].
    intros lz x lx k Hlz Hx Hk Hnx. rewrite L1 in Hlz. injection Hlz as <-.
    symmetry in E1. destruct (strip_nth l1 l x lx E1 Hx) as (lx0 & Hx0 & Mx & Bx & _).
    assert (Hk0 : reserves_at D w lx0 k) by (unfold reserves_at in *; rewrite Mx, Bx; congruence).
    destruct (reserve_account _ _ _ _ Ha Hl (nth_error_In _ _ Hx0) Hk0) as (_ & t & Ht & Hmt & Hot).
    apply (HB k t); auto. intros ->. apply Hnx. f_equal. symmetry. destruct Hi as ((la & _ & Hla & _ & Hnd & _) & _).
    assert (la = l) by congruence. subst la. eapply (same_mint_index l); eauto. congruence. }
  destruct (strip_nth l l1 (Z.to_nat i) ls E1 N1) as (ls1 & N11 & Ms1 & Bs1 & _).
  destruct (cov_reval r (Some (Z.to_nat i)) _ _ _ _ _ _ _ _ l1 ls1 R2 SL N11) as (C4 & _);
    [congruence|unfold reserves_at; rewrite Ms1, Bs1, M1, O12, O1; exact D1
    |intros v Hv; rewrite <- M1 in *; eapply (Hs w2 _); eauto|exact C2|].
  rewrite Nat.eqb_refl in C4. exact C4.
Qed.

Lemma add_cov r E w accs n i w1 tr fee lp w' l ls t :
  val_ok r -> inv w -> ata_inv D w -> pdas_do_not_sign accs -> shape w w' ->
  add_flow E w accs n i w1 tr fee lp w' -> 0 <= tr -> 0 <= fee -> 0 <= lp ->
  the_list w = Some l -> nth_error l (Z.to_nat i) = Some ls -> liq_parties D w accs ls ->
  w_tok w (lq_user_lst accs) = Some t -> ta_owner t = key_at accs 0 -> signed_by accs (key_at accs 0) ->
  speaks E r (group_prog (group accs 11 n)) (ls_mint ls) ->
  cov r None w -> cov r None w' /\ total w <= total w1.
Proof.
  intros Hr Hi Ha Hn Hsh (w2 & R1 & SC & _ & HB & R2) H1 H2 H3 Hl N1 HQ US USo USs Hs Hc.
  eapply (liq_cov r E w accs _ i w1 w2 w' l ls); eauto.
  intros k tk Hk Hko Hne. rewrite HB.
  pose proof (signer_users _ _ _ _ Hn US USo USs _ US) as (Nu & _).
  rewrite (on_other k (lq_user_lst accs)) by (intros ->; congruence).
  unfold on. repeat match goal with |- context [if ?b then _ else _] => destruct b end; lia.
Qed.
Lemma remove_cov r E w accs n i w1 lp tu fee w' l ls t :
  val_ok r -> inv w -> ata_inv D w -> pdas_do_not_sign accs -> shape w w' ->
  remove_flow E w accs n i w1 lp tu fee w' -> 0 <= tu -> 0 <= fee ->
  the_list w = Some l -> nth_error l (Z.to_nat i) = Some ls -> liq_parties D w accs ls ->
  w_tok w (lq_user_lp accs) = Some t -> ta_owner t = key_at accs 0 -> signed_by accs (key_at accs 0) ->
  speaks E r (group_prog (group accs 11 n)) (ls_mint ls) ->
  cov r None w -> cov r None w' /\ total w <= total w1.
Proof.
  intros Hr Hi Ha Hn Hsh (w2 & R1 & SC & _ & HB & R2) H1 H2 Hl N1 HQ US USo USs Hs Hc.
  eapply (liq_cov r E w accs _ i w1 w2 w' l ls); eauto.
  intros k tk Hk Hko Hne. rewrite HB.
  pose proof (signer_users _ _ _ _ Hn US USo USs _ US) as (Nu & _).
  rewrite (on_other k (lq_user_lp accs)) by (intros ->; congruence).
  rewrite (on_other k (lq_reserves accs)) by auto.
  unfold on. repeat match goal with |- context [if ?b then _ else _] => destruct b end; lia.
Qed.

(** The start of a rebalance. *)
Lemma start_cov r E C w accs a w' :
  val_ok r -> inv w -> ata_inv D w -> process D E C w accs (StartRebalance a) = Ok w' -> truthful E r w' ->
  cov r None w -> cov r None w' /\ total w <= backing w' /\ the_record w = None.
Proof.
  intros Hr Hi Ha H Hh Hc. pose proof (process_rec_effect _ _ _ _ _ _ _ H) as (Hrn & _).
  pose proof (process_wf _ _ _ _ _ _ _ H) as Hwf. wf Hwf.
  unfold process in H. apply guard_ok in H as (_ & H). apply start_rebalance_inv in H.
  destruct H as (reb_auth & pool_state & lst_state_list & rebalance_record & src_lst_mint & dst_lst_mint &
    src_pool_reserves & dst_pool_reserves & withdraw_to & instructions & system_program &
    src_lst_token_program & cs & cd & ps & l & lsrc & ldst & ts & td & w1 & w2 & ps2 & w3 & w4 & ps4 &
    Hac & Hn & HP & HL & HR & HT & Hwr & Hsg & Hra & Hp & Hact & Hl & N1 & N2 & M1 & M2 & Hin & D1 & D2 &
    C1 & C2 & Hts & Hmin & Htd & Hmax & _ & S1 & S2 & Hp2 & T & S3 & Hr4 & Hp4 & ->).
  unfold nth_lst in N1, N2.
  assert (HX : exists l', the_list w4 = Some l' /\ map strip l' = map strip l).
  { assert (HV : vals_only w w4).
    { eapply vals_trans; [eapply sync_vals, S1|]. eapply vals_trans; [eapply sync_vals, S2|].
      eapply vals_trans; [eapply ctl_vals, transfer_ctl, T|]. eapply sync_vals, S3. }
    destruct (vals_list _ _ _ HV Hl) as (l' & Hv & He). eauto. }
  destruct HX as (l4 & L4 & E4).
  assert (Hs1 : speaks E r (sol_value_calculator lsrc) (ls_mint lsrc)) by exact (honest_strip E r w _ l l4 _ lsrc Hh Hl L4 E4 N1).
  assert (Hs2 : speaks E r (sol_value_calculator ldst) (ls_mint ldst)) by exact (honest_strip E r w _ l l4 _ ldst Hh Hl L4 E4 N2).
  rewrite <- C1 in Hs1. rewrite <- C2 in Hs2. rewrite M1 in Hs1. rewrite M2 in Hs2.
  pose proof (transfer_shape _ _ _ _ _ _ _ _ _ T) as (OT & _).
  pose proof (ctl_same_ctl _ _ (transfer_ctl _ _ _ _ _ _ _ _ _ T)) as (SP & SL & _).
  apply transfer_balance in T as (TB & _).
  apply sync_revalued in S1, S2, S3.
  destruct (cov_reval r None _ _ _ _ _ _ _ _ l lsrc S1 Hl N1 M1) as (V1 & T1 & O1 & K1 & l1 & L1 & E1);
    [unfold reserves_at; now rewrite M1|intros v Hv; eapply (Hs1 w _); eauto|exact Hc|].
  destruct (strip_nth _ _ _ _ E1 N2) as (ld1 & N21 & Md1 & Bd1 & _).
  assert (Q1 : ls_mint ld1 = mk dst_lst_mint) by congruence.
  destruct (cov_reval r None _ _ _ _ _ _ _ _ l1 ld1 S2 L1 N21 Q1) as (V2 & T2 & O2 & K2 & l2 & L2 & E2);
    [unfold reserves_at; rewrite Q1, O1, Bd1; exact D2|intros v Hv; eapply (Hs2 w1 _); eauto|exact V1|].
  cbn in V1, V2. rewrite L2 in SL. rewrite E1 in E2.
  split.
  2:{ split; [|exact Hrn]. unfold backing, the_record. cbn [w_rec put_pool put_rec]. rewrite upd_same. cbn [old_total_sol_value].
      assert (HT2 : total w2 = total_sol_value ps2) by (unfold total, the_pool; now rewrite Hp2).
      specialize (T1 ltac:(discriminate)). specialize (T2 ltac:(discriminate)). lia. }
  assert (C3 : cov r (Some (Z.to_nat (sr_src_lst_index a))) w3).
  { apply (cov_move r _ w2); auto; [now rewrite SL, L2|].
    intros lz x lx k Hlz Hx Hk Hnx. rewrite L2 in Hlz. injection Hlz as <-.
    destruct (strip_nth l l2 _ lsrc E2 N1) as (ls2 & N12 & Ms2 & Bs2 & _).
    symmetry in E2. destruct (strip_nth l2 l x lx E2 Hx) as (lx0 & Hx0 & Mx & Bx & _).
    assert (Hk0 : reserves_at D w lx0 k) by (unfold reserves_at in *; rewrite Mx, Bx; congruence).
    destruct (reserve_account _ _ _ _ Ha Hl (nth_error_In _ _ Hx0) Hk0) as (_ & t & Ht & Hmt & Hot).
    rewrite TB. rewrite (on_other k (mk src_pool_reserves)).
    2:{ intros ->. apply Hnx. f_equal. symmetry. destruct Hi as ((la & _ & Hla & _ & Hnd & _) & _).
        assert (la = l) by (unfold the_list in Hla; congruence). subst la. eapply (same_mint_index l); eauto.
        destruct (proj2 (proj1 Ha _ _ _ _ _ (or_introl eq_refl) D1) _ Hts) as (Hq & _). congruence. }
    unfold on. repeat match goal with |- context [if ?b then _ else _] => destruct b end; lia. }
  destruct (strip_nth l l2 _ lsrc E2 N1) as (ls2 & N12 & Ms2 & Bs2 & _).
  destruct (cov_reval r (Some (Z.to_nat (sr_src_lst_index a))) _ _ _ _ _ _ _ _ l2 ls2 S3 SL N12) as (V4 & _);
    [congruence|unfold reserves_at; rewrite Ms2, Bs2, M1, OT, O2, O1; exact D1
    |intros v Hv; eapply (Hs1 w3 _); eauto|exact C3|].
  rewrite Nat.eqb_refl in V4. exact V4.
Qed.

(** The end of a rebalance. *)
Lemma end_cov r E C w accs w' :
  val_ok r -> process D E C w accs EndRebalance = Ok w' -> truthful E r w' ->
  cov r None w -> cov r None w' /\ backing w <= total w' /\ the_record w' = None.
Proof.
  intros Hr H Hh Hc. pose proof (process_rec_effect _ _ _ _ _ _ _ H) as (_ & Hrn).
  unfold process in H. apply guard_ok in H as (_ & H). apply end_rebalance_inv in H.
  destruct H as (ra & pst & lst & rr & dm & dr & c & ps & l & rec & ld & w2 & ps2 & _ & _ & _ & _ & _ & _ & _ &
    _ & _ & Hp & _ & Hl & Hrec & Hn & Hm & Hd & Hcc & S & Hp2 & Hle & ->). unfold nth_lst in Hn.
  destruct (vals_list _ _ l (sync_vals _ _ _ _ _ _ _ S) Hl) as (l' & L' & E').
  assert (Hs : speaks E r (sol_value_calculator ld) (ls_mint ld)) by exact (honest_strip E r w _ l l' _ ld Hh Hl L' E' Hn).
  rewrite <- Hcc, Hm in Hs. apply sync_revalued in S.
  destruct (cov_reval r None _ _ _ _ _ _ _ _ l ld S Hl Hn Hm) as (V1 & _);
    [unfold reserves_at; rewrite Hm; exact Hd|intros v Hv; eapply (Hs _ _); eauto|exact Hc|].
  split; [exact V1|]. split; [|exact Hrn]. unfold backing, the_record. rewrite Hrec.
  unfold total, the_pool. cbn [w_pool put_rec]. rewrite Hp2. exact Hle.
Qed.

(** A plain measurement; the change of a calculator. *)
Lemma sync_cov r E C w accs i w' :
  val_ok r -> process D E C w accs (SyncSolValue i) = Ok w' -> truthful E r w' ->
  cov r None w -> cov r None w' /\ total w <= total w'.
Proof.
  intros Hr H Hh Hc. unfold process in H. apply guard_ok in H as (_ & H). apply sync_proc_inv in H.
  destruct H as (lm & pst & lsl & pr & ps & l & ls & c & _ & _ & _ & _ & _ & Hp & _ & Hl & Hn & Hm & Hd & Hcc & S). unfold nth_lst in Hn.
  destruct (vals_list _ _ l (sync_vals _ _ _ _ _ _ _ S) Hl) as (l' & L' & E').
  assert (Hs : speaks E r (sol_value_calculator ls) (ls_mint ls)) by exact (honest_strip E r w _ l l' _ ls Hh Hl L' E' Hn).
  rewrite <- Hcc, Hm in Hs. apply sync_revalued in S.
  destruct (cov_reval r None _ _ _ _ _ _ _ _ l ls S Hl Hn Hm) as (V1 & T & _);
    [unfold reserves_at; rewrite Hm; exact Hd|intros v Hv; eapply (Hs _ _); eauto|exact Hc|].
  split; [exact V1|]. apply T. discriminate.
Qed.
Lemma set_calc_cov r E C w accs i w' :
  val_ok r -> process D E C w accs (SetSolValueCalculator i) = Ok w' -> truthful E r w' ->
  cov r None w -> cov r None w' /\ total w <= total w'.
Proof.
  intros Hr H Hh Hc. unfold process in H. apply guard_ok in H as (_ & H). apply set_calculator_inv in H.
  destruct H as (adm & lm & pst & pr & lsl & ps & l & ls & c & _ & _ & _ & _ & _ & _ & _ & Hp & _ & Hl & Hn & Hm & Hd & _ & S). unfold nth_lst in Hn.
  set (lc := replace_nth l (Z.to_nat i) (set_calculator ls (mk (cpi_prog c)))) in *.
  set (wc := put_list w LST_STATE_LIST_ID (Some lc)) in *.
  assert (Lc : the_list wc = Some lc) by apply the_list_put.
  assert (Nc : nth_error lc (Z.to_nat i) = Some (set_calculator ls (mk (cpi_prog c)))).
  { unfold lc. eapply nth_error_replace_same; eauto. }
  destruct (vals_list _ _ lc (sync_vals _ _ _ _ _ _ _ S) Lc) as (l' & L' & E').
  pose proof (honest_strip E r wc w' lc l' _ _ Hh Lc L' E' Nc) as Hs. cbn [sol_value_calculator set_calculator ls_mint] in Hs.
  rewrite Hm in Hs. apply sync_revalued in S.
  assert (Hcc : cov r None wc).
  { intros lz x lx k Hlz Hx Hk _. rewrite Lc in Hlz. injection Hlz as <-.
    assert (exists lx0, nth_error l x = Some lx0 /\ ls_mint lx0 = ls_mint lx /\ pool_reserves_bump lx0 = pool_reserves_bump lx /\
      sol_value lx0 = sol_value lx) as (lx0 & Hx0 & Q1 & Q2 & Q3).
    { unfold lc in Hx. destruct (Nat.eq_dec x (Z.to_nat i)) as [->|Hne].
      - rewrite (nth_error_replace_same _ _ _ ls) in Hx by auto. injection Hx as <-. exists ls. auto.
      - rewrite nth_error_replace_other in Hx by auto. exists lx. auto. }
    rewrite <- Q3, <- Q1. apply (Hc l x lx0 k Hl Hx0); [|discriminate]. unfold reserves_at in *. rewrite Q1, Q2. exact Hk. }
  destruct (cov_reval r None _ _ _ _ _ _ _ _ lc _ S Lc Nc Hm) as (V1 & T & _);
    [unfold reserves_at; cbn [ls_mint set_calculator pool_reserves_bump]; rewrite Hm; exact Hd
    |intros v Hv; eapply (Hs _ _); eauto|exact Hcc|].
  split; [exact V1|]. change (total w) with (total wc). apply T. discriminate.
Qed.

Lemma lp_supply_same w w' ps : the_pool w = Some ps -> the_pool w' <> None ->
  (forall q, the_pool w' = Some q -> lp_token_mint q = lp_token_mint ps) ->
  lp_supply w = supply w (lp_token_mint ps) /\ lp_supply w' = supply w' (lp_token_mint ps).
Proof.
  intros Hp Hn Hq. unfold lp_supply. rewrite Hp. split; auto. destruct (the_pool w') as [q|] eqn:E; [|congruence].
  now rewrite (Hq q eq_refl).
Qed.
Lemma supply_nonneg w m : inv w -> 0 <= supply w m.
Proof.
  intros (Hb & _). pose proof (proj2 (base_u64 _ Hb)) as H. unfold supply. destruct (w_mint w m) as [i|] eqn:E; [|lia].
  apply H in E. unfold U64 in E. lia.
Qed.
Lemma total_nonneg w : inv w -> 0 <= total w.
Proof.
  intros (Hb & _). unfold total. destruct (the_pool w) as [ps|] eqn:E; [|lia].
  pose proof (base_pool _ _ Hb E) as (Ht & _). unfold U64 in Ht. lia.
Qed.
Lemma active_no_record w ps : inv w -> the_pool w = Some ps -> active ps -> the_record w = None.
Proof.
  intros (_ & Hf) Hp (Hr & _). unfold flag_inv in Hf. rewrite Hp in Hf.
  destruct Hf as [(_ & H)|(Hx & _)]; [exact H|]. congruence.
Qed.

(** The programs at the head of the account groups. *)
Lemma group_first accs q n p1 g1 rest :
  skipn q accs = (p1 :: g1) ++ rest -> Z.of_nat (length (p1 :: g1)) = n ->
  group accs q n = p1 :: g1 /\ skipn (q + Z.to_nat n) accs = rest.
Proof.
  intros Hs Hn. unfold group. rewrite <- Hn, Nat2Z.id. split.
  - rewrite Hs, firstn_app, firstn_all, Nat.sub_diag. cbn [firstn]. apply app_nil_r.
  - assert (Hss : forall (x : list Meta) a b, skipn (a + b) x = skipn b (skipn a x)).
    { intros x a. revert x. induction a; intros x b; [reflexivity|]. destruct x; [cbn; now rewrite skipn_nil|]. cbn. apply IHa. }
    rewrite Hss, Hs, skipn_app, skipn_all, Nat.sub_diag. reflexivity.
Qed.

(** Each paying call, seen from the recorded values. *)
Lemma swap_in_call r E C w accs a w' :
  val_ok r -> inv w -> ata_inv D w -> pdas_do_not_sign accs ->
  process D E C w accs (SwapExactIn a) = Ok w' -> truthful E r w' ->
  cov r None w -> cov r None w' /\ total w <= total w'.
Proof.
  intros Hr Hi Ha Hn H Hh Hc. pose proof (process_wf _ _ _ _ _ _ _ H) as Hwf. wf Hwf.
  pose proof (process_shape D _ _ _ _ _ _ H) as Hsh. cbn in Hsh.
  pose proof (C28_suffix_split D _ _ _ _ _ _ H) as HG.
  destruct (swap_in_parties D _ _ _ _ _ _ H) as (l & lsrc & ldst & Hl & N1 & N2 & HQ).
  destruct (process_list_effect D _ _ _ _ _ _ _ H Hl) as (l' & Hl' & [(Hx & _)|(q & _ & He)]); [discriminate|].
  inversion He; subst; try contradiction.
  apply swap_in_run in H; [|exact (proj1 Hi)]. cbv zeta in H.
  destruct H as (w2 & ? & ? & ? & so & ? & fee & HF & H). destruct a as [n m i j mo amt]. cbv beta iota in HG.
  cbn [si_src_lst_index si_dst_lst_index si_amount si_src_lst_value_calc_accs si_dst_lst_value_calc_accs] in *.
  destruct HG as (g1 & g2 & g3 & p1 & p2 & p3 & psx & lx & ls1 & ls2 & Hsk & Hn1 & Hn2 & _ & Hlx & X1 & X2 & Y1 & Y2 & _).
  assert (lx = l) by congruence. subst lx. assert (ls1 = lsrc) by congruence. assert (ls2 = ldst) by congruence. subst ls1 ls2.
  destruct (group_first _ _ _ _ _ _ Hsk Hn1) as (G1 & Hsk2). destruct (group_first _ _ _ _ _ _ Hsk2 Hn2) as (G2 & _).
  destruct (swap_cov r E w accs n m i j w2 amt so fee w' l lsrc ldst) as (V & T); auto; try lia.
  - rewrite G1. cbn [group_prog]. rewrite Y1. eapply honest_strip; [exact Hh|exact Hl|exact Hl'|assumption|eassumption].
  - rewrite G2. cbn [group_prog]. rewrite Y2. eapply honest_strip; [exact Hh|exact Hl|exact Hl'|assumption|eassumption].
  - split; [exact V|]. lia.
Qed.
Lemma swap_out_call r E C w accs a w' :
  val_ok r -> inv w -> ata_inv D w -> pdas_do_not_sign accs ->
  process D E C w accs (SwapExactOut a) = Ok w' -> truthful E r w' ->
  cov r None w -> cov r None w' /\ total w <= total w'.
Proof.
  intros Hr Hi Ha Hn H Hh Hc. pose proof (process_wf _ _ _ _ _ _ _ H) as Hwf. wf Hwf.
  pose proof (process_shape D _ _ _ _ _ _ H) as Hsh. cbn in Hsh.
  pose proof (C28_suffix_split D _ _ _ _ _ _ H) as HG.
  destruct (swap_out_parties D _ _ _ _ _ _ H) as (l & lsrc & ldst & Hl & N1 & N2 & HQ).
  destruct (process_list_effect D _ _ _ _ _ _ _ H Hl) as (l' & Hl' & [(Hx & _)|(q & _ & He)]); [discriminate|].
  inversion He; subst; try contradiction.
  apply swap_out_run in H; [|exact (proj1 Hi)]. cbv zeta in H.
  destruct H as (w2 & ? & ? & ? & ? & si & fee & HF & H). destruct a as [n m i j mo amt]. cbv beta iota in HG.
  cbn [so_src_lst_index so_dst_lst_index so_amount so_src_lst_value_calc_accs so_dst_lst_value_calc_accs] in *.
  destruct HG as (g1 & g2 & g3 & p1 & p2 & p3 & psx & lx & ls1 & ls2 & Hsk & Hn1 & Hn2 & _ & Hlx & X1 & X2 & Y1 & Y2 & _).
  assert (lx = l) by congruence. subst lx. assert (ls1 = lsrc) by congruence. assert (ls2 = ldst) by congruence. subst ls1 ls2.
  destruct (group_first _ _ _ _ _ _ Hsk Hn1) as (G1 & Hsk2). destruct (group_first _ _ _ _ _ _ Hsk2 Hn2) as (G2 & _).
  destruct (swap_cov r E w accs n m i j w2 si amt fee w' l lsrc ldst) as (V & T); auto; try lia.
  - rewrite G1. cbn [group_prog]. rewrite Y1. eapply honest_strip; [exact Hh|exact Hl|exact Hl'|assumption|eassumption].
  - rewrite G2. cbn [group_prog]. rewrite Y2. eapply honest_strip; [exact Hh|exact Hl|exact Hl'|assumption|eassumption].
  - split; [exact V|]. lia.
Qed.
Lemma revalued_total E w i res c m accs w1 w2 :
  revalued E w i res c m accs w1 -> revalued E w i res c m accs w2 -> total w1 = total w2.
Proof.
  intros (v & h & p & lx & lsx & _ & V1 & P1 & L1 & X1 & P1' & _)
    (v' & h' & p' & lx' & lsx' & _ & V2 & P2 & L2 & X2 & P2' & _).
  rewrite V2 in V1. injection V1 as <- <-. assert (p' = p) by congruence. assert (lx' = lx) by congruence. subst.
  assert (lsx' = lsx) by congruence. subst. unfold total. rewrite P1', P2'. reflexivity.
Qed.
Lemma add_call r E C w accs a w' :
  val_ok r -> reachable D w -> pdas_do_not_sign accs ->
  process D E C w accs (AddLiquidity a) = Ok w' -> truthful E r w' -> cov r None w ->
  cov r None w' /\ exists ps w1, the_pool w = Some ps /\ lq_lp_mint accs = lp_token_mint ps /\
    revalued E w (al_lst_index a) (lq_reserves accs) (group_prog (group accs 11 (al_lst_value_calc_accs a))) (lq_mint accs)
      (group_accs (group accs 11 (al_lst_value_calc_accs a))) w1 /\ total w <= total w1.
Proof.
  intros Hr Hre Hn H Hh Hc. pose proof (reachable_inv D HD _ Hre) as Hi. pose proof (reachable_ata D HD _ Hre) as Ha.
  pose proof (process_wf _ _ _ _ _ _ _ H) as Hwf. wf Hwf.
  pose proof (process_shape D _ _ _ _ _ _ H) as Hsh. cbn in Hsh.
  pose proof (C28_suffix_split D _ _ _ _ _ _ H) as HG.
  destruct (add_parties D _ _ _ _ _ _ H) as (l & ls & t & Hl & N1 & _ & HQ & US & USo & USs).
  destruct (process_list_effect D _ _ _ _ _ _ _ H Hl) as (l' & Hl' & [(Hx & _)|(q & _ & He)]); [discriminate|].
  inversion He; subst; try contradiction.
  assert (Hsp : speaks E r (group_prog (group accs 11 (al_lst_value_calc_accs a))) (ls_mint ls)).
  { destruct a as [n i amt mn]. cbv beta iota in HG. cbn [al_lst_value_calc_accs al_lst_index] in *.
    destruct HG as (g1 & g3 & p1 & p3 & psx & lx & ls1 & Hsk & Hn1 & _ & Hlx & X1 & Y1 & _).
    assert (lx = l) by congruence. subst lx. assert (ls1 = ls) by congruence. subst ls1.
    destruct (group_first _ _ _ _ _ _ Hsk Hn1) as (G1 & _). rewrite G1. cbn [group_prog]. rewrite Y1.
    eapply honest_strip; [exact Hh|exact Hl|exact Hl'|assumption|eassumption]. }
  apply add_run in H; [|exact (proj1 Hi)]. cbv zeta in H.
  destruct H as (w1 & sol & hi & after & tr & fee & lp & HF & Hrest).
  assert (Hlpm : exists ps, the_pool w = Some ps /\ lq_lp_mint accs = lp_token_mint ps) by tauto.
  destruct Hlpm as (ps & Hp & Hlm).
  destruct (add_cov r E w accs (al_lst_value_calc_accs a) (al_lst_index a) w1 tr fee lp w' l ls t) as (V & T); eauto; try lia.
  split; [exact V|]. exists ps, w1. csplit; auto. destruct HF as (w2 & R1 & _). exact R1.
Qed.
Lemma remove_call r E C w accs a w' :
  val_ok r -> reachable D w -> pdas_do_not_sign accs ->
  process D E C w accs (RemoveLiquidity a) = Ok w' -> truthful E r w' -> cov r None w ->
  cov r None w' /\ exists ps w1, the_pool w = Some ps /\ lq_lp_mint accs = lp_token_mint ps /\
    revalued E w (rl_lst_index a) (lq_reserves accs) (group_prog (group accs 11 (rl_lst_value_calc_accs a))) (lq_mint accs)
      (group_accs (group accs 11 (rl_lst_value_calc_accs a))) w1 /\ total w <= total w1.
Proof.
  intros Hr Hre Hn H Hh Hc. pose proof (reachable_inv D HD _ Hre) as Hi. pose proof (reachable_ata D HD _ Hre) as Ha.
  pose proof (process_wf _ _ _ _ _ _ _ H) as Hwf. wf Hwf.
  pose proof (process_shape D _ _ _ _ _ _ H) as Hsh. cbn in Hsh.
  pose proof (C28_suffix_split D _ _ _ _ _ _ H) as HG.
  destruct (remove_parties D _ _ _ _ _ _ H) as (l & ls & t & Hl & N1 & HQ & US & USo & USs).
  destruct (process_list_effect D _ _ _ _ _ _ _ H Hl) as (l' & Hl' & [(Hx & _)|(q & _ & He)]); [discriminate|].
  inversion He; subst; try contradiction.
  assert (Hsp : speaks E r (group_prog (group accs 11 (rl_lst_value_calc_accs a))) (ls_mint ls)).
  { destruct a as [n i amt mn]. cbv beta iota in HG. cbn [rl_lst_value_calc_accs rl_lst_index] in *.
    destruct HG as (g1 & g3 & p1 & p3 & psx & lx & ls1 & Hsk & Hn1 & _ & Hlx & X1 & Y1 & _).
    assert (lx = l) by congruence. subst lx. assert (ls1 = ls) by congruence. subst ls1.
    destruct (group_first _ _ _ _ _ _ Hsk Hn1) as (G1 & _). rewrite G1. cbn [group_prog]. rewrite Y1.
    eapply honest_strip; [exact Hh|exact Hl|exact Hl'|assumption|eassumption]. }
  apply remove_run in H; [|exact (proj1 Hi)]. cbv zeta in H.
  destruct H as (w1 & sol & after & tu & hi & fee & HF & Hrest).
  assert (Hlpm : exists ps, the_pool w = Some ps /\ lq_lp_mint accs = lp_token_mint ps) by tauto.
  destruct Hlpm as (ps & Hp & Hlm).
  destruct (remove_cov r E w accs (rl_lst_value_calc_accs a) (rl_lst_index a) w1 (rl_lp_token_amount a) tu fee w' l ls t) as (V & T); eauto; try lia.
  split; [exact V|]. exists ps, w1. csplit; auto. destruct HF as (w2 & R1 & _). exact R1.
Qed.

(** A deposit or a redemption lowers the price of the LP token, as measured just before, by at most z/S. *)
Definition priced_within (E : Env) (w : World) (accs : list Meta) (ix : Ix) (w' : World) (z : Z) : Prop :=
  let within n i := forall w1,
    revalued E w i (lq_reserves accs) (group_prog (group accs 11 n)) (lq_mint accs) (group_accs (group accs 11 n)) w1 ->
    0 < supply w (lq_lp_mint accs) ->
    supply w' (lq_lp_mint accs) * total w1 <= (total w' + z) * supply w (lq_lp_mint accs) in
  match ix with
  | AddLiquidity a => within (al_lst_value_calc_accs a) (al_lst_index a)
  | RemoveLiquidity a => within (rl_lst_value_calc_accs a) (rl_lst_index a)
  | _ => True
  end.

(** What one call does to the value behind the LP tokens. *)
Lemma call_step r w z w' E C accs ix :
  val_ok r -> reachable D w -> covered D r w ->
  pdas_do_not_sign accs -> process D E C w accs ix = Ok w' -> truthful E r w' ->
  0 <= z -> priced_within E w accs ix w' z ->
  covered D r w' /\
  (0 < lp_supply w -> backing w' * lp_supply w >= backing w * lp_supply w' - z * lp_supply w).
Proof.
  intros Hr Hre Hc Hn H Hh Hz Hrw.
  pose proof (reachable_inv D HD _ Hre) as Hi. pose proof (reachable_ata D HD _ Hre) as Ha.
  pose proof (reach_ctl _ _ _ _ _ _ _ Hre Hn H) as Hre'.
  pose proof (reachable_inv D HD _ Hre') as Hi'. pose proof (reachable_ata D HD _ Hre') as Ha'.
  pose proof (process_shape D _ _ _ _ _ _ H) as Hsh.
  destruct (the_pool w) as [ps|] eqn:Hp.
  2:{ (* before Initialize: nothing listed *)
      destruct Hi as ((l & au & Hl & _ & _ & _ & _ & _ & Hm) & _). rewrite Hp in Hm. subst l.
      split; [|unfold lp_supply at 1; rewrite Hp; lia].
      destruct (process_list_effect D _ _ _ _ _ _ _ H Hl) as (l' & Hl' & [(_ & ->)|(q & Hq & _)]); [|congruence].
      intros l0 ls k Hl0 Hin _. assert (l0 = []) by congruence. subst l0. destruct Hin. }
  destruct (process_pool_effect D _ _ _ _ _ _ _ H Hp) as (ps' & Hp' & Hpe).
  pose proof (pool_effect_lp _ _ _ _ _ Hpe) as Hlpm.
  assert (HS : lp_supply w = supply w (lp_token_mint ps)) by (unfold lp_supply; now rewrite Hp).
  assert (HS' : lp_supply w' = supply w' (lp_token_mint ps)) by (unfold lp_supply; now rewrite Hp', Hlpm).
  rewrite HS, HS'. clear HS HS'.
  destruct (proj1 Hi) as (l & au & Hl & Hau & Hnd & Hrest).
  (* supply unchanged unless liquidity is added or removed *)
  assert (Hsup : match ix with AddLiquidity _ | RemoveLiquidity _ => True | _ =>
    supply w' (lp_token_mint ps) = supply w (lp_token_mint ps) end).
  { destruct (Z.eq_dec (supply w' (lp_token_mint ps)) (supply w (lp_token_mint ps))) as [He|He]; [destruct ix; auto|].
    destruct (C10_supply D HD _ _ _ _ _ _ _ Hre H He) as (_ & _ & _ & Hx). destruct ix; auto; contradiction. }
  pose proof (supply_nonneg w (lp_token_mint ps) Hi) as HS0.
  assert (Hsame : supply w' (lp_token_mint ps) = supply w (lp_token_mint ps) -> backing w <= backing w' ->
    0 < supply w (lp_token_mint ps) ->
    backing w' * supply w (lp_token_mint ps) >= backing w * supply w' (lp_token_mint ps) - z * supply w (lp_token_mint ps)).
  { intros -> Hb _. nia. }
  pose proof (process_rec_effect D _ _ _ _ _ _ H) as Hrec.
  assert (Hquiet : pays_from_reserves ix = false -> the_record w' = the_record w -> total w' = total w ->
    (exists l', the_list w' = Some l' /\ forall ls', In ls' l' -> sol_value ls' = 0 \/
       exists ls, In ls l /\ ls_mint ls = ls_mint ls' /\ pool_reserves_bump ls = pool_reserves_bump ls' /\
         sol_value ls = sol_value ls') -> supply w' (lp_token_mint ps) = supply w (lp_token_mint ps) ->
    covered D r w' /\ (0 < supply w (lp_token_mint ps) ->
    backing w' * supply w (lp_token_mint ps) >= backing w * supply w' (lp_token_mint ps) - z * supply w (lp_token_mint ps))).
  { intros Hpay Hrw' Ht (l' & Hl' & Hsub) Hse. split.
    - apply (cov_quiet r w w' l l'); auto.
      + exact (base_u64 _ (proj1 Hi')).
      + intros k Hk. eapply (proj1 (steps_keep D HD w w' Hre (steps_cons _ _ _ _ (steps_refl _ _) (step_controller _ _ _ _ _ _ _ Hn H)))); auto.
      + apply (proj1 (process_not_drained D _ _ _ _ _ _ (proj1 Hi) Hn H)). exact Hpay.
    - apply Hsame; auto. unfold backing. rewrite Hrw', Ht. lia. }
  assert (Hbk : active ps -> the_record w' = the_record w -> backing w = total w /\ backing w' = total w').
  { intros Hact Hre1. pose proof (active_no_record _ _ Hi Hp Hact) as Hno. unfold backing. now rewrite Hre1, Hno. }
  assert (Htot : forall q, the_pool w' = Some q -> total_sol_value q = total_sol_value ps -> total w' = total w).
  { intros q Hq He. unfold total. now rewrite Hq, Hp. }
  assert (Hlist : exists l', the_list w' = Some l' /\ list_effect D accs ps l ix l' ).
  { destruct (process_list_effect D _ _ _ _ _ _ _ H Hl) as (l' & Hl' & [(-> & _)|(q & Hq & He)]).
    - inversion Hpe; contradiction.
    - assert (q = ps) by congruence. subst q. eauto. }
  destruct Hlist as (l' & Hl' & Hle).
  destruct ix as [i|a|a|a|a|i|i| |i|i| |t lp| | |amt| |i| | |a| | |];
  try (apply Hquiet; [reflexivity|exact Hrec|
     inversion Hpe; subst; try contradiction;
       apply (Htot _ Hp'); try reflexivity; destruct t, lp; reflexivity|
     exists l'; split; [exact Hl'|]; intros ls' Hin; right; exists ls';
       solve [inversion Hle; subst; try contradiction; auto]|exact Hsup]).
  - (* Sync *)
    apply covered_cov in Hc. destruct (sync_cov r _ _ _ _ _ _ Hr H Hh Hc) as (V & T). rewrite <- covered_cov in V.
    split; [exact V|]. apply Hsame; auto. inversion Hpe; subst; try contradiction. destruct (Hbk H1 Hrec) as (-> & ->). exact T.
  - (* SwapExactIn *)
    apply covered_cov in Hc. destruct (swap_in_call r _ _ _ _ _ _ Hr Hi Ha Hn H Hh Hc) as (V & T). rewrite <- covered_cov in V.
    split; [exact V|]. apply Hsame; auto. inversion Hpe; subst; try contradiction. destruct (Hbk H1 Hrec) as (-> & ->). exact T.
  - (* SwapExactOut *)
    apply covered_cov in Hc. destruct (swap_out_call r _ _ _ _ _ _ Hr Hi Ha Hn H Hh Hc) as (V & T). rewrite <- covered_cov in V.
    split; [exact V|]. apply Hsame; auto. inversion Hpe; subst; try contradiction. destruct (Hbk H1 Hrec) as (-> & ->). exact T.
  - (* AddLiquidity *)
    apply covered_cov in Hc. destruct (add_call r _ _ _ _ _ _ Hr Hre Hn H Hh Hc) as (V & q & w1 & Hq & Hlm & R1 & T). rewrite <- covered_cov in V.
    assert (q = ps) by congruence. subst q.
    split; [exact V|]. intros HS. inversion Hpe; subst; try contradiction. destruct (Hbk H1 Hrec) as (-> & ->).
    cbn [priced_within] in Hrw. rewrite Hlm in Hrw. specialize (Hrw w1 R1 HS).
    pose proof (supply_nonneg w' (lp_token_mint ps) Hi'). nia.
  - (* RemoveLiquidity *)
    apply covered_cov in Hc. destruct (remove_call r _ _ _ _ _ _ Hr Hre Hn H Hh Hc) as (V & q & w1 & Hq & Hlm & R1 & T). rewrite <- covered_cov in V.
    assert (q = ps) by congruence. subst q.
    split; [exact V|]. intros HS. inversion Hpe; subst; try contradiction. destruct (Hbk H1 Hrec) as (-> & ->).
    cbn [priced_within] in Hrw. rewrite Hlm in Hrw. specialize (Hrw w1 R1 HS).
    pose proof (supply_nonneg w' (lp_token_mint ps) Hi'). nia.
  - (* DisableLstInput *)
    apply Hquiet; [reflexivity|exact Hrec|inversion Hpe; subst; try contradiction; now apply (Htot _ Hp')| |exact Hsup].
    exists l'. split; [exact Hl'|]. intros ls' Hin. inversion Hle as [| |i0 ls m E1 E2 E3 Ei El|i0 ls m E1 E2 E3 Ei El|m c b1 b2 E1 E2 E3 E4 E5 Ei El|i0 ls m E1 E2 E3 E4 Ei El|]; subst; try contradiction.
    right. apply In_replace_nth in Hin as [->|Hin]; [exists ls|exists ls']; csplit; auto. eapply nth_error_In; eauto.
  - (* EnableLstInput *)
    apply Hquiet; [reflexivity|exact Hrec|inversion Hpe; subst; try contradiction; now apply (Htot _ Hp')| |exact Hsup].
    exists l'. split; [exact Hl'|]. intros ls' Hin. inversion Hle as [| |i0 ls m E1 E2 E3 Ei El|i0 ls m E1 E2 E3 Ei El|m c b1 b2 E1 E2 E3 E4 E5 Ei El|i0 ls m E1 E2 E3 E4 Ei El|]; subst; try contradiction.
    right. apply In_replace_nth in Hin as [->|Hin]; [exists ls|exists ls']; csplit; auto. eapply nth_error_In; eauto.
  - (* AddLst *)
    apply Hquiet; [reflexivity|exact Hrec|inversion Hpe; subst; try contradiction; now apply (Htot _ Hp')| |exact Hsup].
    exists l'. split; [exact Hl'|]. intros ls' Hin. inversion Hle as [| |i0 ls m E1 E2 E3 Ei El|i0 ls m E1 E2 E3 Ei El|m c b1 b2 E1 E2 E3 E4 E5 Ei El|i0 ls m E1 E2 E3 E4 Ei El|]; subst; try contradiction.
    apply in_app_or in Hin as [Hin|[<-|[]]]; [right; exists ls'; csplit; auto|left; reflexivity].
  - (* RemoveLst *)
    apply Hquiet; [reflexivity|exact Hrec|inversion Hpe; subst; try contradiction; now apply (Htot _ Hp')| |exact Hsup].
    exists l'. split; [exact Hl'|]. intros ls' Hin. inversion Hle as [| |i0 ls m E1 E2 E3 Ei El|i0 ls m E1 E2 E3 Ei El|m c b1 b2 E1 E2 E3 E4 E5 Ei El|i0 ls m E1 E2 E3 E4 Ei El|]; subst; try contradiction.
    apply In_remove_nth in Hin. right; exists ls'; csplit; auto.
  - (* SetSolValueCalculator *)
    apply covered_cov in Hc. destruct (set_calc_cov r _ _ _ _ _ _ Hr H Hh Hc) as (V & T). rewrite <- covered_cov in V.
    split; [exact V|]. apply Hsame; auto. inversion Hpe; subst; try contradiction. destruct (Hbk H2 Hrec) as (-> & ->). exact T.
  - (* StartRebalance *)
    apply covered_cov in Hc. destruct (start_cov r _ _ _ _ _ _ Hr Hi Ha H Hh Hc) as (V & T & Hno). rewrite <- covered_cov in V.
    split; [exact V|]. apply Hsame; auto. unfold backing at 1. now rewrite Hno.
  - (* EndRebalance *)
    apply covered_cov in Hc. destruct (end_cov r _ _ _ _ _ Hr H Hh Hc) as (V & T & Hno). rewrite <- covered_cov in V.
    split; [exact V|]. apply Hsame; auto. unfold backing at 2. now rewrite Hno.
Qed.

(** ** Histories in which the calculators asked value at [V] *)
Inductive gen_step (V : valuation) (w : World) (z : Z) (w' : World) : Prop :=
| gen_external : external_step D w w' -> z = 0 -> gen_step V w z w'
| gen_call E C accs ix :
    pdas_do_not_sign accs -> process D E C w accs ix = Ok w' -> truthful E V w' ->
    0 <= z -> priced_within E w accs ix w' z -> gen_step V w z w'.
Inductive gen_history (M : Z) (V0 : valuation) (w0 : World) : Z -> valuation -> World -> Prop :=
| gen_start : val_ok V0 -> M <= lp_supply w0 -> gen_history M V0 w0 0 V0 w0
| gen_go z V w z' w' : gen_history M V0 w0 z V w -> gen_step V w z' w' -> M <= lp_supply w' ->
    gen_history M V0 w0 (z + z') V w'
| gen_accrue z V w V' : gen_history M V0 w0 z V w -> val_rise V V' -> val_ok V' -> gen_history M V0 w0 z V' w.

Lemma covered_rise V V' w : val_ok V -> val_ok V' -> val_rise V V' -> reachable D w ->
  covered D V w -> covered D V' w.
Proof.
  intros H H' Hr Hw Hc l ls k Hl Hin Hk. etransitivity; [eapply Hc; eauto|]. apply Hr.
  destruct (reserve_account _ _ _ _ (reachable_ata D HD _ Hw) Hl Hin Hk) as (_ & t & Ht & _).
  unfold balance. rewrite Ht. pose proof (base_u64 _ (proj1 (reachable_inv D HD _ Hw))) as (Hu & _).
  specialize (Hu _ _ Ht). unfold U64 in Hu. lia.
Qed.
(** What one step of other programs does. *)
Lemma external_step_value r w w' : val_ok r -> reachable D w -> covered D r w ->
  external_step D w w' ->
  covered D r w' /\ backing w' = backing w /\ lp_supply w' <= lp_supply w.
Proof.
  intros Hr Hre Hc Hx. pose proof (reach_ext D _ _ Hre Hx) as Hre'.
  pose proof (reachable_inv D HD _ Hre) as Hi. pose proof (reachable_ata D HD _ Hre) as Ha.
  split; [|split].
  - destruct (proj1 Hi) as (l & _ & Hl & _).
    apply (cov_quiet r w w' l l); auto.
    + exact (reachable_ata D HD _ Hre').
    + apply (x_u64 _ _ _ Hx).
    + rewrite (x_list _ _ _ Hx). exact Hl.
    + intros ls Hin. right. exists ls. auto.
    + intros k Hk. destruct (w_mint w k) as [i|] eqn:Hm; [|congruence]. apply (x_mint _ _ _ Hx _ _ Hm).
    + intros k t Ht Ho. destruct (x_tok _ _ _ Hx _ _ Ht (or_introl Ho)) as (t' & Ht' & _ & _ & Hle & _).
      unfold balance. now rewrite Ht, Ht'.
  - unfold backing, total. now rewrite (x_rec _ _ _ Hx), (x_pool _ _ _ Hx).
  - unfold lp_supply. rewrite (x_pool _ _ _ Hx). destruct (the_pool w) as [ps|] eqn:Hp; [|lia].
    destruct Ha as (_ & _ & Hlp). destruct (Hlp _ Hp) as (_ & i & Hm & Hau).
    destruct (x_mint _ _ _ Hx _ _ Hm) as (_ & i' & Hm' & Hs). unfold supply. rewrite Hm, Hm'. apply Hs, Hau.
Qed.

Lemma lp_supply_ge0 w : reachable D w -> 0 <= lp_supply w.
Proof.
  intros H. unfold lp_supply. destruct (the_pool w); [|lia]. apply supply_nonneg. exact (reachable_inv D HD _ H).
Qed.

Lemma gen_end M r0 w0 z r w : reachable D w0 -> covered D r0 w0 ->
  gen_history M r0 w0 z r w -> val_ok r /\ reachable D w /\ covered D r w /\ 0 <= z /\ M <= lp_supply w /\ M <= lp_supply w0.
Proof.
  intros H0 Hc0 H. induction H as [|z r w z' w' H IH Hs HM|z r w r' H IH Hr Hok]; auto.
  - csplit; auto. lia.
  - destruct IH as (I1 & I2 & I3 & I4 & I5 & I6). destruct Hs as [Hx ->|E C accs ix Hn Hp Hh Hz Hrw].
    + destruct (external_step_value r w w' I1 I2 I3 Hx) as (A & _). csplit; auto; try lia.
      eapply reach_ext; eauto.
    + destruct (call_step r w z' w' E C accs ix I1 I2 I3 Hn Hp Hh Hz Hrw) as (A & _). csplit; auto; try lia.
      eapply reach_ctl; eauto.
  - destruct IH as (I1 & I2 & I3 & I4 & I5 & I6). csplit; auto. apply (covered_rise r); auto.
Qed.

Lemma gen_value M r0 w0 z r w : reachable D w0 -> covered D r0 w0 -> 0 < M ->
  gen_history M r0 w0 z r w ->
  (backing w * M + z * lp_supply w) * lp_supply w0 >= backing w0 * M * lp_supply w.
Proof.
  intros H0 Hc0 HM H. induction H as [Hok HM0|z r w z' w' H IH Hs HM'|z r w r' H IH Hr Hok]; [|  |exact IH].
  - rewrite Z.mul_0_l, Z.add_0_r. lia.
  - destruct (gen_end M r0 w0 z r w H0 Hc0 H) as (I1 & I2 & I3 & I4 & I5 & I6).
    assert (Hst : backing w' * lp_supply w >= backing w * lp_supply w' - z' * lp_supply w /\ 0 <= z').
    { destruct Hs as [Hx ->|E C accs ix Hn Hp Hh Hz Hrw].
      - destruct (external_step_value r w w' I1 I2 I3 Hx) as (_ & -> & Hle). split; [|lia].
        assert (0 <= backing w).
        { pose proof (reachable_inv D HD _ I2) as Hi. unfold backing. destruct (the_record w) as [rec|] eqn:Hrec; [|apply total_nonneg; exact Hi].
          destruct Hi as (_ & Hf). unfold flag_inv in Hf. destruct (the_pool w) as [ps|]; [|congruence].
          destruct Hf as [(_ & Hno)|(_ & _ & rc & l & Hrc & _ & Hu & _)]; [congruence|]. unfold U64 in Hu. assert (rc = rec) by congruence. subst rc. lia. }
        nia.
      - split; [|exact Hz]. destruct (call_step r w z' w' E C accs ix I1 I2 I3 Hn Hp Hh Hz Hrw) as (_ & A). apply A. lia. }
    destruct Hst as (Hst & Hz').
    set (B := backing w) in *. set (B' := backing w') in *. set (B0 := backing w0) in *.
    set (S1 := lp_supply w) in *. set (S' := lp_supply w') in *. set (S0 := lp_supply w0) in *.
    clearbody B B' B0 S1 S' S0. clear -IH Hst Hz' HM I4 I5 I6 HM'.
    assert (Q : S1 * ((B' * M + (z + z') * S') * S0) >= S1 * (B0 * M * S')).
    { assert (Q1 : (B' * S1) * (M * S0) >= (B * S' - z' * S1) * (M * S0)) by (apply Z.le_ge, Z.mul_le_mono_nonneg_r; [apply Z.mul_nonneg_nonneg; lia|lia]).
      assert (Q2 : S' * ((B * M + z * S1) * S0) >= S' * (B0 * M * S1)) by (apply Z.le_ge, Z.mul_le_mono_nonneg_l; lia).
      assert (Q3 : 0 <= z' * S1 * S0 * (S' - M)) by (repeat apply Z.mul_nonneg_nonneg; lia).
      replace (S1 * ((B' * M + (z + z') * S') * S0)) with ((B' * S1) * (M * S0) + (z + z') * S' * S1 * S0) by ring.
      replace (S1 * (B0 * M * S')) with (S' * (B0 * M * S1)) by ring.
      replace ((B * S' - z' * S1) * (M * S0)) with (S' * B * M * S0 - z' * S1 * M * S0) in Q1 by ring.
      replace (S' * ((B * M + z * S1) * S0)) with (S' * B * M * S0 + z * S' * S1 * S0) in Q2 by ring.
      replace (z' * S1 * S0 * (S' - M)) with (z' * S' * S1 * S0 - z' * S1 * M * S0) in Q3 by ring.
      replace ((z + z') * S' * S1 * S0) with (z * S' * S1 * S0 + z' * S' * S1 * S0) by ring. lia. }
    apply Z.ge_le in Q. apply Z.mul_le_mono_pos_l in Q; lia.
Qed.

End Hist.
