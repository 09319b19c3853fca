(** Proofs behind C56: the records overstate the reserves by no more than what the LSTs lost, and every measurement
    takes off the total no more than it takes off the overstatement. *)
From Coq Require Import ZArith List Bool Lia.
From Verif Require Import Base Ratio Calc State Controller Inversion ProcInv Spec CalcProofs InvProofs
  TokProofs AccessProofs ShapeProofs MoneyProofs Concrete PropAccess PropTok PropMoney PropLp JupRefresh PropDeploy
  HistSpec HistProofs LossSpec.
Import ListNotations.
Open Scope Z_scope.

Lemma sum_move {A} (f f' : A -> Z) (l : list A) X :
  (forall a, 0 <= f a) -> (forall i a, nth_error l i = Some a -> X <> Some i -> f' a <= f a) ->
  sumZ (map f' l) - match X with Some i => match nth_error l i with Some a => f' a | None => 0 end | None => 0 end
  <= sumZ (map f l).
Proof.
  intros Hf. revert X. induction l as [|a l IH]; intros X H.
  - cbn. destruct X as [[|n]|]; cbn; lia.
  - cbn [map sumZ]. pose proof (Hf a).
    assert (Hle : forall i b, nth_error l i = Some b -> X <> Some (Datatypes.S i) -> f' b <= f b).
    { intros i b Hb HX. apply (H (Datatypes.S i) b); auto. }
    destruct X as [[|n]|].
    + cbn [nth_error]. specialize (IH None ltac:(intros i b Hb _; apply (Hle i b Hb); discriminate)). cbv beta iota in IH. lia.
    + cbn [nth_error]. specialize (IH (Some n)).
      assert (Q : forall i b, nth_error l i = Some b -> Some n <> Some i -> f' b <= f b).
      { intros i b Hb Hne. apply (Hle i b Hb). congruence. }
      specialize (IH Q). pose proof (H 0%nat a eq_refl ltac:(discriminate)). cbv beta iota in IH |- *. lia.
    + specialize (IH None ltac:(intros i b Hb _; apply (Hle i b Hb); discriminate)).
      pose proof (H 0%nat a eq_refl ltac:(discriminate)). cbv beta iota in IH |- *. lia.
Qed.
Lemma map_replace {A B} (f : A -> B) l n x : map f (replace_nth l n x) = replace_nth (map f l) n (f x).
Proof. revert n. induction l as [|a l IH]; intros [|n]; cbn; auto. now rewrite IH. Qed.

Section Loss.
Variables (D : Derive) (HD : derive_ok D).

(** The overstatement of one entry; of all but entry [X]. *)
Definition ov (V : valuation) (w : World) (ls : LstState) : Z :=
  Z.max 0 (sol_value ls - V (ls_mint ls) (reserves_of D w ls)).
Definition ov_at (V : valuation) (w : World) (X : option nat) : Z :=
  match X with Some i => match nth_error (listed w) i with Some ls => ov V w ls | None => 0 end | None => 0 end.
Definition ovx (V : valuation) (X : option nat) (w : World) : Z := overstated D V w - ov_at V w X.
Lemma ov_ge0 V w ls : 0 <= ov V w ls. Proof. unfold ov. lia. Qed.
Lemma ovx_none V w : ovx V None w = overstated D V w. Proof. unfold ovx, ov_at. lia. Qed.
Lemma overstated_ge0 V w : 0 <= overstated D V w.
Proof. apply sumZ_nonneg, Forall_forall. intros x Hx. apply in_map_iff in Hx as (ls & <- & _). lia. Qed.

Lemma ov_reval V X E w i res c m accs w' l ls :
  revalued E w i res c m accs w' -> the_list w = Some l -> nth_error l (Z.to_nat i) = Some ls ->
  ls_mint ls = m -> reserves_at D w ls res ->
  (forall v, valued E w c m accs (balance w res) v -> v = V m (balance w res)) ->
  ovx V (if match X with Some x => Nat.eqb x (Z.to_nat i) | None => true end then None else X) w' <= ovx V X w /\
  (X <> Some (Z.to_nat i) ->
     total w - ovx V X w <= total w' - ovx V X w') /\ w_owner w' = w_owner w /\ w_tok w' = w_tok w /\
  exists l', the_list w' = Some l' /\ map strip l' = map strip l.
Proof.
  intros (v & hi & ps & l0 & ls0 & _ & Hv & Hp & Hl & Hn & Hp' & Hl' & _ & _ & Ht & _ & Ho & _) Hl0 Hn0 Hm Hk Hval.
  assert (l0 = l) by congruence. subst l0. assert (ls0 = ls) by congruence. subst ls0.
  pose proof (Hval v (ex_intro _ hi Hv)) as ->.
  assert (Hres : forall x, reserves_of D w' x = reserves_of D w x).
  { intros x. unfold reserves_of. rewrite Ho. destruct (d_create D _ _ _ _); auto. unfold balance. now rewrite Ht. }
  assert (Hov : forall x, ov V w' x = ov V w x) by (intros x; unfold ov; now rewrite Hres).
  assert (Hnew : ov V w (set_sol_value ls (V m (balance w res))) = 0).
  { unfold ov, reserves_of. cbn [ls_mint set_sol_value sol_value pool_reserves_bump]. unfold reserves_at in Hk. rewrite Hk, Hm. lia. }
  assert (Hold : sol_value ls - V m (balance w res) <= ov V w ls).
  { unfold ov, reserves_of. unfold reserves_at in Hk. rewrite Hk, Hm. lia. }
  assert (Hsum : overstated D V w' = overstated D V w - ov V w ls).
  { unfold overstated, listed. rewrite Hl', Hl.
    rewrite (map_ext _ (ov V w)) by (intros x; apply Hov).
    rewrite map_replace, (sumZ_replace _ _ _ (ov V w ls)) by (now apply map_nth_error).
    rewrite Hnew. change (fun ls0 => Z.max 0 (sol_value ls0 - V (ls_mint ls0) (reserves_of D w ls0))) with (ov V w). lia. }
  assert (Hat : forall j, ov_at V w' (Some j) = if Nat.eqb j (Z.to_nat i) then 0 else ov_at V w (Some j)).
  { intros j. unfold ov_at, listed. rewrite Hl', Hl. destruct (Nat.eqb_spec j (Z.to_nat i)) as [->|Hne].
    - rewrite (nth_error_replace_same _ _ _ ls) by auto. now rewrite Hov.
    - rewrite nth_error_replace_other by auto. destruct (nth_error l j); auto. }
  assert (Hti : ov_at V w (Some (Z.to_nat i)) = ov V w ls) by (unfold ov_at, listed; now rewrite Hl, Hn0).
  pose proof (ov_ge0 V w ls) as H0.
  split; [|split; [|csplit; auto]].
  - unfold ovx. rewrite Hsum. destruct X as [x|]; [|cbn [ov_at]; lia].
    destruct (Nat.eqb_spec x (Z.to_nat i)) as [->|Hne].
    + rewrite Hti. cbn [ov_at]. lia.
    + rewrite Hat. destruct (Nat.eqb_spec x (Z.to_nat i)); [contradiction|]. lia.
  - intros HX. unfold ovx. rewrite Hsum. unfold total. rewrite Hp, Hp'. cbn [total_sol_value set_total].
    destruct X as [x|]; [|cbn [ov_at]; lia].
    rewrite Hat. destruct (Nat.eqb_spec x (Z.to_nat i)) as [->|Hne]; [contradiction|]. lia.
  - eexists. split; [exact Hl'|]. clear -Hn0. revert l Hn0. generalize (Z.to_nat i). induction n; intros [|x l] H; try discriminate; cbn in *.
    + injection H as ->. reflexivity.
    + f_equal. auto.
Qed.

Lemma ov_move V X w w' : val_ok V ->
  the_list w' = the_list w -> w_owner w' = w_owner w ->
  (forall l i ls k, the_list w = Some l -> nth_error l i = Some ls -> reserves_at D w ls k -> X <> Some i ->
     balance w k <= balance w' k) ->
  ovx V X w' <= overstated D V w.
Proof.
  intros Hr Hl Ho Hb. unfold ovx, overstated, ov_at, listed. rewrite Hl. destruct (the_list w) as [l|] eqn:El.
  2:{ destruct X as [[|n]|]; cbn; lia. }
  apply (sum_move (ov V w) (ov V w') l X); [apply ov_ge0|].
  intros i ls Hi HX. unfold ov, reserves_of. rewrite Ho.
  destruct (d_create D POOL_STATE_ID (w_owner w (ls_mint ls)) (ls_mint ls) (pool_reserves_bump ls)) as [k|] eqn:Hk; [|lia].
  pose proof (Hb l i ls k eq_refl Hi Hk HX) as Hle. pose proof (val_le V (ls_mint ls) _ _ Hr Hle). lia.
Qed.

(** Instructions that measure nothing and pay nothing out of reserves. *)
Lemma ov_quiet V w w' l l' : val_ok V -> ata_inv D w ->
  the_list w = Some l -> the_list w' = Some l' ->
  sumZ (map (ov V w') l') <= sumZ (map (ov V w') l) ->
  (forall k, w_mint w k <> None -> w_owner w' k = w_owner w k) ->
  not_drained POOL_STATE_ID w w' ->
  overstated D V w' <= overstated D V w.
Proof.
  intros Hr Ha Hl Hl' Hsub Ho Hnd. unfold overstated, listed. rewrite Hl, Hl'. etransitivity; [exact Hsub|].
  pose proof (sum_move (ov V w) (ov V w') l None (ov_ge0 V w)) as Q. cbv beta iota in Q. rewrite Z.sub_0_r in Q. apply Q. clear Q.
  intros i ls Hin _. apply nth_error_In in Hin.
  pose proof (proj1 (proj2 Ha) _ Hl) as HF. pose proof (proj1 (Forall_forall _ _) HF _ Hin) as (_ & Hm & _).
  unfold ov, reserves_of. rewrite (Ho _ Hm).
  destruct (d_create D POOL_STATE_ID (w_owner w (ls_mint ls)) (ls_mint ls) (pool_reserves_bump ls)) as [k|] eqn:Hk; [|lia].
  destruct (reserve_account D HD _ _ _ _ Ha Hl Hin Hk) as (_ & t & Ht & _ & Hot).
  pose proof (val_le V (ls_mint ls) (balance w k) (balance w' k) Hr (Hnd k t Ht Hot)). lia.
Qed.
(** A swap. *)
Lemma swap_ov r E w accs n m i j w2 si so fee w' l lsrc ldst :
  val_ok r -> inv w -> ata_inv D w -> pdas_do_not_sign accs -> shape w w' ->
  swap_flow E w accs n m i j w2 si so fee w' -> 0 <= si -> 0 <= so -> 0 <= fee -> 0 <= i -> 0 <= j ->
  the_list w = Some l -> nth_error l (Z.to_nat i) = Some lsrc -> nth_error l (Z.to_nat j) = Some ldst ->
  swap_parties D w accs lsrc ldst ->
  speaks E r (group_prog (group accs 12 n)) (ls_mint lsrc) ->
  speaks E r (group_prog (group accs (12 + Z.to_nat n) m)) (ls_mint ldst) ->
  overstated D r w' <= overstated D r w /\ total w - overstated D r w <= total w2 - overstated D r w'.
Proof.
  intros Hr Hi Ha Hn Hsh HF Hsi Hso Hfee Hi0 Hj0 Hl N1 N2 HQ Hs1 Hs2.
  pose proof (parties_distinct _ _ _ _ _ _ _ _ N1 N2 HQ) as Hij.
  destruct HQ as (Hne & M1 & M2 & _ & (us & US & USm & USo & USs) & _ & (rs & RS & RSm) & (rd & RD & RDm & RDo) & _ & D1 & D2 & _).
  destruct HF as (w1 & w3 & w4 & R1 & R2 & SC & _ & HB & R3 & R4).
  destruct (ov_reval r None _ _ _ _ _ _ _ _ l lsrc R1 Hl N1 M1) as (C1 & T1 & O1 & K1 & l1 & L1 & E1);
    [unfold reserves_at; now rewrite M1|intros v Hv; rewrite <- M1 in *; eapply (Hs1 w _); eauto|].
  destruct (strip_nth _ _ _ _ E1 N2) as (ld1 & N21 & Md1 & Bd1 & _).
  assert (Q1 : ls_mint ld1 = sw_dst_mint accs) by congruence.
  destruct (ov_reval r None _ _ _ _ _ _ _ _ l1 ld1 R2 L1 N21 Q1) as (C2 & T2 & O2 & K2 & l2 & L2 & E2);
    [unfold reserves_at; rewrite Q1, O1, Bd1; exact D2
    |intros v Hv; rewrite <- M2 in *; eapply (Hs2 w1 _); eauto|].
  specialize (T1 ltac:(discriminate)). specialize (T2 ltac:(discriminate)). cbv beta iota in C1, C2. rewrite !ovx_none in C1, C2, T1, T2.
  cut (overstated D r w' <= overstated D r w2); [lia|].
  destruct SC as (SP & SL & _). rewrite L2 in SL. rewrite E1 in E2.
  (* w3 has the owners of w *)
  destruct R4 as (v4 & h4 & p4 & l4 & s4 & Z4). assert (O4 : w_owner w' = w_owner w4) by tauto. assert (K4 : w_tok w' = w_tok w4) by tauto.
  pose proof (ex_intro (fun v => exists hi ps l ls, _) v4 (ex_intro _ h4 (ex_intro _ p4 (ex_intro _ l4 (ex_intro _ s4 Z4)))) : revalued E w4 j (sw_dst_reserves accs) (group_prog (group accs (12 + Z.to_nat n) m)) (sw_dst_mint accs) (group_accs (group accs (12 + Z.to_nat n) m)) w') as R4.
  assert (O3 : w_owner w4 = w_owner w3) by (destruct R3 as (? & ? & ? & ? & ? & ?); tauto).
  assert (O23 : w_owner w3 = w_owner w2) by (destruct Hsh as (Hsh & _); congruence).
  assert (C3 : ovx r (Some (Z.to_nat j)) w3 <= overstated D r w2).
  { apply (ov_move r _ w2); auto; [now rewrite SL, L2|].
    intros lz x lx k Hlz Hx Hk Hnx. rewrite L2 in Hlz. injection Hlz as <-.
    destruct (strip_nth l l2 (Z.to_nat j) ldst E2 N2) as (ld2 & N22 & Md2 & Bd2 & _).
    symmetry in E2. destruct (strip_nth l2 l x lx E2 Hx) as (lx0 & Hx0 & Mx & Bx & _).
    assert (Hk0 : reserves_at D w lx0 k) by (unfold reserves_at in *; rewrite Mx, Bx; congruence).
    destruct (reserve_account D HD _ _ _ _ Ha Hl (nth_error_In _ _ Hx0) Hk0) as (_ & t & Ht & Hmt & Hot).
    pose proof (signer_users _ _ _ _ Hn US USo USs _ US) as (Nu & _).
    rewrite HB. rewrite (on_other k (sw_user_src accs)) by (intros ->; congruence).
    rewrite (on_other k (sw_dst_reserves accs)).
    2:{ intros ->. apply Hnx. f_equal. symmetry. destruct Hi as ((la & _ & Hla & _ & Hnd & _) & _).
        assert (la = l) by congruence. subst la. eapply (same_mint_index l); eauto. congruence. }
    unfold on. repeat match goal with |- context [if ?b then _ else _] => destruct b end; lia. }
  destruct (strip_nth l l2 (Z.to_nat i) lsrc E2 N1) as (ls2 & N12 & Ms2 & Bs2 & _).
  destruct (strip_nth l l2 (Z.to_nat j) ldst E2 N2) as (ld2 & N22 & Md2 & Bd2 & _).
  destruct (ov_reval r (Some (Z.to_nat j)) _ _ _ _ _ _ _ _ l2 ls2 R3 SL N12) as (C4 & _ & _ & _ & l3 & L3 & E3);
    [congruence|unfold reserves_at; rewrite Ms2, Bs2, M1, O23, O2, O1; exact D1
    |intros v Hv; rewrite <- M1 in *; eapply (Hs1 w3 _); eauto|].
  destruct (Nat.eqb_spec (Z.to_nat j) (Z.to_nat i)); [lia|].
  destruct (strip_nth l2 l3 (Z.to_nat j) ld2 E3 N22) as (ld3 & N33 & Md3 & Bd3 & _).
  destruct (ov_reval r (Some (Z.to_nat j)) _ _ _ _ _ _ _ _ l3 ld3 R4 L3 N33) as (C5 & _);
    [congruence|unfold reserves_at; rewrite Md3, Bd3, Md2, Bd2, M2, O3, O23, O2, O1; exact D2
    |intros v Hv; rewrite <- M2 in *; eapply (Hs2 w4 _); eauto|].
  rewrite Nat.eqb_refl in C5. rewrite ovx_none in C5. lia.
Qed.

(** A deposit or a redemption: measure, move tokens, measure again. *)
Lemma liq_ov r E w accs g i w1 w2 w' l ls :
  val_ok r -> inv w -> ata_inv D w -> shape w w' ->
  revalued E w i (lq_reserves accs) (group_prog g) (lq_mint accs) (group_accs g) w1 ->
  same_controller_accounts w1 w2 ->
  (forall k t, w_tok w k = Some t -> ta_owner t = POOL_STATE_ID -> k <> lq_reserves accs -> balance w1 k <= balance w2 k) ->
  revalued E w2 i (lq_reserves accs) (group_prog g) (lq_mint accs) (group_accs g) w' ->
  the_list w = Some l -> nth_error l (Z.to_nat i) = Some ls -> liq_parties D w accs ls ->
  speaks E r (group_prog g) (ls_mint ls) ->
  overstated D r w' <= overstated D r w /\ total w - overstated D r w <= total w1 - overstated D r w'.
Proof.
  intros Hr Hi Ha Hsh R1 SC HB R2 Hl N1 HQ Hs.
  destruct HQ as (M1 & _ & _ & (rs & RS & RSm) & _ & D1 & _).
  destruct (ov_reval r None _ _ _ _ _ _ _ _ l ls R1 Hl N1 M1) as (C1 & T1 & O1 & K1 & l1 & L1 & E1);
    [unfold reserves_at; now rewrite M1|intros v Hv; rewrite <- M1 in *; eapply (Hs w _); eauto|].
  specialize (T1 ltac:(discriminate)). cbv beta iota in C1. rewrite !ovx_none in C1, T1.
  cut (overstated D r w' <= overstated D r w1); [lia|].
  destruct SC as (SP & SL & _). rewrite L1 in SL.
  assert (O2 : w_owner w' = w_owner w2) by (destruct R2 as (? & ? & ? & ? & ? & ?); tauto).
  assert (O12 : w_owner w2 = w_owner w1) by (destruct Hsh as (Hsh & _); congruence).
  assert (C2 : ovx r (Some (Z.to_nat i)) w2 <= overstated D r w1).
  { apply (ov_move r _ w1); auto; [now rewrite SL, L1|].
    intros lz x lx k Hlz Hx Hk Hnx. rewrite L1 in Hlz. injection Hlz as <-.
    symmetry in E1. destruct (strip_nth l1 l x lx E1 Hx) as (lx0 & Hx0 & Mx & Bx & _).
    assert (Hk0 : reserves_at D w lx0 k) by (unfold reserves_at in *; rewrite Mx, Bx; congruence).
    destruct (reserve_account D HD _ _ _ _ Ha Hl (nth_error_In _ _ Hx0) Hk0) as (_ & t & Ht & Hmt & Hot).
    apply (HB k t); auto. intros ->. apply Hnx. f_equal. symmetry. destruct Hi as ((la & _ & Hla & _ & Hnd & _) & _).
    assert (la = l) by congruence. subst la. eapply (same_mint_index l); eauto. congruence. }
  destruct (strip_nth l l1 (Z.to_nat i) ls E1 N1) as (ls1 & N11 & Ms1 & Bs1 & _).
  destruct (ov_reval r (Some (Z.to_nat i)) _ _ _ _ _ _ _ _ l1 ls1 R2 SL N11) as (C4 & _);
    [congruence|unfold reserves_at; rewrite Ms1, Bs1, M1, O12, O1; exact D1
    |intros v Hv; rewrite <- M1 in *; eapply (Hs w2 _); eauto|].
  rewrite Nat.eqb_refl in C4. rewrite ovx_none in C4. lia.
Qed.

Lemma add_ov r E w accs n i w1 tr fee lp w' l ls t :
  val_ok r -> inv w -> ata_inv D w -> pdas_do_not_sign accs -> shape w w' ->
  add_flow E w accs n i w1 tr fee lp w' -> 0 <= tr -> 0 <= fee -> 0 <= lp ->
  the_list w = Some l -> nth_error l (Z.to_nat i) = Some ls -> liq_parties D w accs ls ->
  w_tok w (lq_user_lst accs) = Some t -> ta_owner t = key_at accs 0 -> signed_by accs (key_at accs 0) ->
  speaks E r (group_prog (group accs 11 n)) (ls_mint ls) ->
  overstated D r w' <= overstated D r w /\ total w - overstated D r w <= total w1 - overstated D r w'.
Proof.
  intros Hr Hi Ha Hn Hsh (w2 & R1 & SC & _ & HB & R2) H1 H2 H3 Hl N1 HQ US USo USs Hs.
  eapply (liq_ov r E w accs _ i w1 w2 w' l ls); eauto.
  intros k tk Hk Hko Hne. rewrite HB.
  pose proof (signer_users _ _ _ _ Hn US USo USs _ US) as (Nu & _).
  rewrite (on_other k (lq_user_lst accs)) by (intros ->; congruence).
  unfold on. repeat match goal with |- context [if ?b then _ else _] => destruct b end; lia.
Qed.
Lemma remove_ov r E w accs n i w1 lp tu fee w' l ls t :
  val_ok r -> inv w -> ata_inv D w -> pdas_do_not_sign accs -> shape w w' ->
  remove_flow E w accs n i w1 lp tu fee w' -> 0 <= tu -> 0 <= fee ->
  the_list w = Some l -> nth_error l (Z.to_nat i) = Some ls -> liq_parties D w accs ls ->
  w_tok w (lq_user_lp accs) = Some t -> ta_owner t = key_at accs 0 -> signed_by accs (key_at accs 0) ->
  speaks E r (group_prog (group accs 11 n)) (ls_mint ls) ->
  overstated D r w' <= overstated D r w /\ total w - overstated D r w <= total w1 - overstated D r w'.
Proof.
  intros Hr Hi Ha Hn Hsh (w2 & R1 & SC & _ & HB & R2) H1 H2 Hl N1 HQ US USo USs Hs.
  eapply (liq_ov r E w accs _ i w1 w2 w' l ls); eauto.
  intros k tk Hk Hko Hne. rewrite HB.
  pose proof (signer_users _ _ _ _ Hn US USo USs _ US) as (Nu & _).
  rewrite (on_other k (lq_user_lp accs)) by (intros ->; congruence).
  rewrite (on_other k (lq_reserves accs)) by auto.
  unfold on. repeat match goal with |- context [if ?b then _ else _] => destruct b end; lia.
Qed.

(** The start of a rebalance. *)
Lemma start_ov r E C w accs a w' :
  val_ok r -> inv w -> ata_inv D w -> process D E C w accs (StartRebalance a) = Ok w' -> truthful E r w' ->
  overstated D r w' <= overstated D r w /\ total w - overstated D r w <= backing w' - overstated D r w' /\ the_record w = None.
Proof.
  intros Hr Hi Ha H Hh. pose proof (process_rec_effect _ _ _ _ _ _ _ H) as (Hrn & _).
  pose proof (process_wf _ _ _ _ _ _ _ H) as Hwf. wf Hwf.
  unfold process in H. apply guard_ok in H as (_ & H). apply start_rebalance_inv in H.
  destruct H as (reb_auth & pool_state & lst_state_list & rebalance_record & src_lst_mint & dst_lst_mint &
    src_pool_reserves & dst_pool_reserves & withdraw_to & instructions & system_program &
    src_lst_token_program & cs & cd & ps & l & lsrc & ldst & ts & td & w1 & w2 & ps2 & w3 & w4 & ps4 &
    Hac & Hn & HP & HL & HR & HT & Hwr & Hsg & Hra & Hp & Hact & Hl & N1 & N2 & M1 & M2 & Hin & D1 & D2 &
    C1 & C2 & Hts & Hmin & Htd & Hmax & _ & S1 & S2 & Hp2 & T & S3 & Hr4 & Hp4 & ->).
  unfold nth_lst in N1, N2.
  assert (HX : exists l', the_list w4 = Some l' /\ map strip l' = map strip l).
  { assert (HV : vals_only w w4).
    { eapply vals_trans; [eapply sync_vals, S1|]. eapply vals_trans; [eapply sync_vals, S2|].
      eapply vals_trans; [eapply ctl_vals, transfer_ctl, T|]. eapply sync_vals, S3. }
    destruct (vals_list _ _ _ HV Hl) as (l' & Hv & He). eauto. }
  destruct HX as (l4 & L4 & E4).
  assert (Hs1 : speaks E r (sol_value_calculator lsrc) (ls_mint lsrc)) by exact (honest_strip E r w _ l l4 _ lsrc Hh Hl L4 E4 N1).
  assert (Hs2 : speaks E r (sol_value_calculator ldst) (ls_mint ldst)) by exact (honest_strip E r w _ l l4 _ ldst Hh Hl L4 E4 N2).
  rewrite <- C1 in Hs1. rewrite <- C2 in Hs2. rewrite M1 in Hs1. rewrite M2 in Hs2.
  pose proof (transfer_shape _ _ _ _ _ _ _ _ _ T) as (OT & _).
  pose proof (ctl_same_ctl _ _ (transfer_ctl _ _ _ _ _ _ _ _ _ T)) as (SP & SL & _).
  apply transfer_balance in T as (TB & _).
  apply sync_revalued in S1, S2, S3.
  destruct (ov_reval r None _ _ _ _ _ _ _ _ l lsrc S1 Hl N1 M1) as (V1 & T1 & O1 & K1 & l1 & L1 & E1);
    [unfold reserves_at; now rewrite M1|intros v Hv; eapply (Hs1 w _); eauto|].
  destruct (strip_nth _ _ _ _ E1 N2) as (ld1 & N21 & Md1 & Bd1 & _).
  assert (Q1 : ls_mint ld1 = mk dst_lst_mint) by congruence.
  destruct (ov_reval r None _ _ _ _ _ _ _ _ l1 ld1 S2 L1 N21 Q1) as (V2 & T2 & O2 & K2 & l2 & L2 & E2);
    [unfold reserves_at; rewrite Q1, O1, Bd1; exact D2|intros v Hv; eapply (Hs2 w1 _); eauto|].
  specialize (T1 ltac:(discriminate)). specialize (T2 ltac:(discriminate)). cbv beta iota in V1, V2. rewrite !ovx_none in V1, V2, T1, T2.
  rewrite L2 in SL. rewrite E1 in E2.
  assert (HB : backing (put_pool (put_rec w4 REBALANCE_RECORD_ID (Some (mkRec (total_sol_value ps2) (sr_dst_lst_index a)))) POOL_STATE_ID (Some (set_rebalancing ps4 1))) = total w2).
  { unfold backing, the_record. cbn [w_rec put_pool put_rec]. rewrite upd_same. cbn [old_total_sol_value].
    unfold total, the_pool. now rewrite Hp2. }
  match goal with |- overstated D r ?W <= _ /\ _ => cut (overstated D r W <= overstated D r w2); [intros Hcut; split; [lia|split; [rewrite HB; lia|exact Hrn]]|] end.
  match goal with |- overstated D r ?W <= _ => change (overstated D r W) with (overstated D r w4) end.
  assert (C3 : ovx r (Some (Z.to_nat (sr_src_lst_index a))) w3 <= overstated D r w2).
  { apply (ov_move r _ w2); auto; [now rewrite SL, L2|].
    intros lz x lx k Hlz Hx Hk Hnx. rewrite L2 in Hlz. injection Hlz as <-.
    destruct (strip_nth l l2 _ lsrc E2 N1) as (ls2 & N12 & Ms2 & Bs2 & _).
    symmetry in E2. destruct (strip_nth l2 l x lx E2 Hx) as (lx0 & Hx0 & Mx & Bx & _).
    assert (Hk0 : reserves_at D w lx0 k) by (unfold reserves_at in *; rewrite Mx, Bx; congruence).
    destruct (reserve_account D HD _ _ _ _ Ha Hl (nth_error_In _ _ Hx0) Hk0) as (_ & t & Ht & Hmt & Hot).
    rewrite TB. rewrite (on_other k (mk src_pool_reserves)).
    2:{ intros ->. apply Hnx. f_equal. symmetry. destruct Hi as ((la & _ & Hla & _ & Hnd & _) & _).
        assert (la = l) by (unfold the_list in Hla; congruence). subst la. eapply (same_mint_index l); eauto.
        destruct (proj2 (proj1 Ha _ _ _ _ _ (or_introl eq_refl) D1) _ Hts) as (Hq & _). congruence. }
    unfold on. repeat match goal with |- context [if ?b then _ else _] => destruct b end; lia. }
  destruct (strip_nth l l2 _ lsrc E2 N1) as (ls2 & N12 & Ms2 & Bs2 & _).
  destruct (ov_reval r (Some (Z.to_nat (sr_src_lst_index a))) _ _ _ _ _ _ _ _ l2 ls2 S3 SL N12) as (V4 & _);
    [congruence|unfold reserves_at; rewrite Ms2, Bs2, M1, OT, O2, O1; exact D1
    |intros v Hv; eapply (Hs1 w3 _); eauto|].
  rewrite Nat.eqb_refl in V4. rewrite ovx_none in V4. lia.
Qed.

(** The end of a rebalance. *)
Lemma end_ov r E C w accs w' :
  val_ok r -> process D E C w accs EndRebalance = Ok w' -> truthful E r w' ->
  overstated D r w' <= overstated D r w /\ backing w <= total w' /\ the_record w' = None.
Proof.
  intros Hr H Hh. pose proof (process_rec_effect _ _ _ _ _ _ _ H) as (_ & Hrn).
  unfold process in H. apply guard_ok in H as (_ & H). apply end_rebalance_inv in H.
  destruct H as (ra & pst & lst & rr & dm & dr & c & ps & l & rec & ld & w2 & ps2 & _ & _ & _ & _ & _ & _ & _ &
    _ & _ & Hp & _ & Hl & Hrec & Hn & Hm & Hd & Hcc & S & Hp2 & Hle & ->). unfold nth_lst in Hn.
  destruct (vals_list _ _ l (sync_vals _ _ _ _ _ _ _ S) Hl) as (l' & L' & E').
  assert (Hs : speaks E r (sol_value_calculator ld) (ls_mint ld)) by exact (honest_strip E r w _ l l' _ ld Hh Hl L' E' Hn).
  rewrite <- Hcc, Hm in Hs. apply sync_revalued in S.
  destruct (ov_reval r None _ _ _ _ _ _ _ _ l ld S Hl Hn Hm) as (V1 & _);
    [unfold reserves_at; rewrite Hm; exact Hd|intros v Hv; eapply (Hs _ _); eauto|].
  cbv beta iota in V1. rewrite !ovx_none in V1. split; [exact V1|]. split; [|exact Hrn]. unfold backing, the_record. rewrite Hrec.
  unfold total, the_pool. cbn [w_pool put_rec]. rewrite Hp2. exact Hle.
Qed.

(** A plain measurement; the change of a calculator. *)
Lemma sync_ov r E C w accs i w' :
  val_ok r -> process D E C w accs (SyncSolValue i) = Ok w' -> truthful E r w' ->
  overstated D r w' <= overstated D r w /\ total w - overstated D r w <= total w' - overstated D r w'.
Proof.
  intros Hr H Hh. unfold process in H. apply guard_ok in H as (_ & H). apply sync_proc_inv in H.
  destruct H as (lm & pst & lsl & pr & ps & l & ls & c & _ & _ & _ & _ & _ & Hp & _ & Hl & Hn & Hm & Hd & Hcc & S). unfold nth_lst in Hn.
  destruct (vals_list _ _ l (sync_vals _ _ _ _ _ _ _ S) Hl) as (l' & L' & E').
  assert (Hs : speaks E r (sol_value_calculator ls) (ls_mint ls)) by exact (honest_strip E r w _ l l' _ ls Hh Hl L' E' Hn).
  rewrite <- Hcc, Hm in Hs. apply sync_revalued in S.
  destruct (ov_reval r None _ _ _ _ _ _ _ _ l ls S Hl Hn Hm) as (V1 & T & _);
    [unfold reserves_at; rewrite Hm; exact Hd|intros v Hv; eapply (Hs _ _); eauto|].
  cbv beta iota in V1. specialize (T ltac:(discriminate)). rewrite !ovx_none in V1, T. split; [exact V1|exact T].
Qed.
Lemma set_calc_ov r E C w accs i w' :
  val_ok r -> process D E C w accs (SetSolValueCalculator i) = Ok w' -> truthful E r w' ->
  overstated D r w' <= overstated D r w /\ total w - overstated D r w <= total w' - overstated D r w'.
Proof.
  intros Hr H Hh. unfold process in H. apply guard_ok in H as (_ & H). apply set_calculator_inv in H.
  destruct H as (adm & lm & pst & pr & lsl & ps & l & ls & c & _ & _ & _ & _ & _ & _ & _ & Hp & _ & Hl & Hn & Hm & Hd & _ & S). unfold nth_lst in Hn.
  set (lc := replace_nth l (Z.to_nat i) (set_calculator ls (mk (cpi_prog c)))) in *.
  set (wc := put_list w LST_STATE_LIST_ID (Some lc)) in *.
  assert (Lc : the_list wc = Some lc) by apply the_list_put.
  assert (Nc : nth_error lc (Z.to_nat i) = Some (set_calculator ls (mk (cpi_prog c)))).
  { unfold lc. eapply nth_error_replace_same; eauto. }
  destruct (vals_list _ _ lc (sync_vals _ _ _ _ _ _ _ S) Lc) as (l' & L' & E').
  pose proof (honest_strip E r wc w' lc l' _ _ Hh Lc L' E' Nc) as Hs. cbn [sol_value_calculator set_calculator ls_mint] in Hs.
  rewrite Hm in Hs. apply sync_revalued in S.
  assert (Hcc : overstated D r wc = overstated D r w).
  { unfold overstated, listed. rewrite Lc. unfold the_list. rewrite Hl. unfold lc. change (reserves_of D wc) with (reserves_of D w).
    rewrite map_replace, (sumZ_replace _ _ _ (Z.max 0 (sol_value ls - r (ls_mint ls) (reserves_of D w ls)))).
    - change (reserves_of D w (set_calculator ls (mk (cpi_prog c)))) with (reserves_of D w ls). cbn [sol_value ls_mint set_calculator]. lia.
    - apply (map_nth_error (fun ls0 => Z.max 0 (sol_value ls0 - r (ls_mint ls0) (reserves_of D w ls0)))). exact Hn. }
  destruct (ov_reval r None _ _ _ _ _ _ _ _ lc _ S Lc Nc Hm) as (V1 & T & _);
    [unfold reserves_at; cbn [ls_mint set_calculator pool_reserves_bump]; rewrite Hm; exact Hd
    |intros v Hv; eapply (Hs _ _); eauto|].
  cbv beta iota in V1. specialize (T ltac:(discriminate)). rewrite !ovx_none, Hcc in V1, T. split; [exact V1|exact T].
Qed.

(** Each paying call, seen from the recorded values. *)
Lemma swap_in_call_ov r E C w accs a w' :
  val_ok r -> inv w -> ata_inv D w -> pdas_do_not_sign accs ->
  process D E C w accs (SwapExactIn a) = Ok w' -> truthful E r w' ->
  overstated D r w' <= overstated D r w /\ total w - overstated D r w <= total w' - overstated D r w'.
Proof.
  intros Hr Hi Ha Hn H Hh. pose proof (process_wf _ _ _ _ _ _ _ H) as Hwf. wf Hwf.
  pose proof (process_shape D _ _ _ _ _ _ H) as Hsh. cbn in Hsh.
  pose proof (C28_suffix_split D _ _ _ _ _ _ H) as HG.
  destruct (swap_in_parties D _ _ _ _ _ _ H) as (l & lsrc & ldst & Hl & N1 & N2 & HQ).
  destruct (process_list_effect D _ _ _ _ _ _ _ H Hl) as (l' & Hl' & [(Hx & _)|(q & _ & He)]); [discriminate|].
  inversion He; subst; try contradiction.
  apply swap_in_run in H; [|exact (proj1 Hi)]. cbv zeta in H.
  destruct H as (w2 & ? & ? & ? & so & ? & fee & HF & H). destruct a as [n m i j mo amt]. cbv beta iota in HG.
  cbn [si_src_lst_index si_dst_lst_index si_amount si_src_lst_value_calc_accs si_dst_lst_value_calc_accs] in *.
  destruct HG as (g1 & g2 & g3 & p1 & p2 & p3 & psx & lx & ls1 & ls2 & Hsk & Hn1 & Hn2 & _ & Hlx & X1 & X2 & Y1 & Y2 & _).
  assert (lx = l) by congruence. subst lx. assert (ls1 = lsrc) by congruence. assert (ls2 = ldst) by congruence. subst ls1 ls2.
  destruct (group_first _ _ _ _ _ _ Hsk Hn1) as (G1 & Hsk2). destruct (group_first _ _ _ _ _ _ Hsk2 Hn2) as (G2 & _).
  destruct (swap_ov r E w accs n m i j w2 amt so fee w' l lsrc ldst) as (V & T); auto; try lia.
  - rewrite G1. cbn [group_prog]. rewrite Y1. eapply honest_strip; [exact Hh|exact Hl|exact Hl'|assumption|eassumption].
  - rewrite G2. cbn [group_prog]. rewrite Y2. eapply honest_strip; [exact Hh|exact Hl|exact Hl'|assumption|eassumption].
Qed.
Lemma swap_out_call_ov r E C w accs a w' :
  val_ok r -> inv w -> ata_inv D w -> pdas_do_not_sign accs ->
  process D E C w accs (SwapExactOut a) = Ok w' -> truthful E r w' ->
  overstated D r w' <= overstated D r w /\ total w - overstated D r w <= total w' - overstated D r w'.
Proof.
  intros Hr Hi Ha Hn H Hh. pose proof (process_wf _ _ _ _ _ _ _ H) as Hwf. wf Hwf.
  pose proof (process_shape D _ _ _ _ _ _ H) as Hsh. cbn in Hsh.
  pose proof (C28_suffix_split D _ _ _ _ _ _ H) as HG.
  destruct (swap_out_parties D _ _ _ _ _ _ H) as (l & lsrc & ldst & Hl & N1 & N2 & HQ).
  destruct (process_list_effect D _ _ _ _ _ _ _ H Hl) as (l' & Hl' & [(Hx & _)|(q & _ & He)]); [discriminate|].
  inversion He; subst; try contradiction.
  apply swap_out_run in H; [|exact (proj1 Hi)]. cbv zeta in H.
  destruct H as (w2 & ? & ? & ? & ? & si & fee & HF & H). destruct a as [n m i j mo amt]. cbv beta iota in HG.
  cbn [so_src_lst_index so_dst_lst_index so_amount so_src_lst_value_calc_accs so_dst_lst_value_calc_accs] in *.
  destruct HG as (g1 & g2 & g3 & p1 & p2 & p3 & psx & lx & ls1 & ls2 & Hsk & Hn1 & Hn2 & _ & Hlx & X1 & X2 & Y1 & Y2 & _).
  assert (lx = l) by congruence. subst lx. assert (ls1 = lsrc) by congruence. assert (ls2 = ldst) by congruence. subst ls1 ls2.
  destruct (group_first _ _ _ _ _ _ Hsk Hn1) as (G1 & Hsk2). destruct (group_first _ _ _ _ _ _ Hsk2 Hn2) as (G2 & _).
  destruct (swap_ov r E w accs n m i j w2 si amt fee w' l lsrc ldst) as (V & T); auto; try lia.
  - rewrite G1. cbn [group_prog]. rewrite Y1. eapply honest_strip; [exact Hh|exact Hl|exact Hl'|assumption|eassumption].
  - rewrite G2. cbn [group_prog]. rewrite Y2. eapply honest_strip; [exact Hh|exact Hl|exact Hl'|assumption|eassumption].
Qed.
Lemma add_call_ov r E C w accs a w' :
  val_ok r -> reachable D w -> pdas_do_not_sign accs ->
  process D E C w accs (AddLiquidity a) = Ok w' -> truthful E r w' ->
  overstated D r w' <= overstated D r w /\ exists ps w1, the_pool w = Some ps /\ lq_lp_mint accs = lp_token_mint ps /\
    revalued E w (al_lst_index a) (lq_reserves accs) (group_prog (group accs 11 (al_lst_value_calc_accs a))) (lq_mint accs)
      (group_accs (group accs 11 (al_lst_value_calc_accs a))) w1 /\ total w - overstated D r w <= total w1 - overstated D r w'.
Proof.
  intros Hr Hre Hn H Hh. pose proof (reachable_inv D HD _ Hre) as Hi. pose proof (reachable_ata D HD _ Hre) as Ha.
  pose proof (process_wf _ _ _ _ _ _ _ H) as Hwf. wf Hwf.
  pose proof (process_shape D _ _ _ _ _ _ H) as Hsh. cbn in Hsh.
  pose proof (C28_suffix_split D _ _ _ _ _ _ H) as HG.
  destruct (add_parties D _ _ _ _ _ _ H) as (l & ls & t & Hl & N1 & _ & HQ & US & USo & USs).
  destruct (process_list_effect D _ _ _ _ _ _ _ H Hl) as (l' & Hl' & [(Hx & _)|(q & _ & He)]); [discriminate|].
  inversion He; subst; try contradiction.
  assert (Hsp : speaks E r (group_prog (group accs 11 (al_lst_value_calc_accs a))) (ls_mint ls)).
  { destruct a as [n i amt mn]. cbv beta iota in HG. cbn [al_lst_value_calc_accs al_lst_index] in *.
    destruct HG as (g1 & g3 & p1 & p3 & psx & lx & ls1 & Hsk & Hn1 & _ & Hlx & X1 & Y1 & _).
    assert (lx = l) by congruence. subst lx. assert (ls1 = ls) by congruence. subst ls1.
    destruct (group_first _ _ _ _ _ _ Hsk Hn1) as (G1 & _). rewrite G1. cbn [group_prog]. rewrite Y1.
    eapply honest_strip; [exact Hh|exact Hl|exact Hl'|assumption|eassumption]. }
  apply add_run in H; [|exact (proj1 Hi)]. cbv zeta in H.
  destruct H as (w1 & sol & hi & after & tr & fee & lp & HF & Hrest).
  assert (Hlpm : exists ps, the_pool w = Some ps /\ lq_lp_mint accs = lp_token_mint ps) by tauto.
  destruct Hlpm as (ps & Hp & Hlm).
  destruct (add_ov r E w accs (al_lst_value_calc_accs a) (al_lst_index a) w1 tr fee lp w' l ls t) as (V & T); eauto; try lia.
  split; [exact V|]. exists ps, w1. csplit; auto. destruct HF as (w2 & R1 & _). exact R1.
Qed.
Lemma remove_call_ov r E C w accs a w' :
  val_ok r -> reachable D w -> pdas_do_not_sign accs ->
  process D E C w accs (RemoveLiquidity a) = Ok w' -> truthful E r w' ->
  overstated D r w' <= overstated D r w /\ exists ps w1, the_pool w = Some ps /\ lq_lp_mint accs = lp_token_mint ps /\
    revalued E w (rl_lst_index a) (lq_reserves accs) (group_prog (group accs 11 (rl_lst_value_calc_accs a))) (lq_mint accs)
      (group_accs (group accs 11 (rl_lst_value_calc_accs a))) w1 /\ total w - overstated D r w <= total w1 - overstated D r w'.
Proof.
  intros Hr Hre Hn H Hh. pose proof (reachable_inv D HD _ Hre) as Hi. pose proof (reachable_ata D HD _ Hre) as Ha.
  pose proof (process_wf _ _ _ _ _ _ _ H) as Hwf. wf Hwf.
  pose proof (process_shape D _ _ _ _ _ _ H) as Hsh. cbn in Hsh.
  pose proof (C28_suffix_split D _ _ _ _ _ _ H) as HG.
  destruct (remove_parties D _ _ _ _ _ _ H) as (l & ls & t & Hl & N1 & HQ & US & USo & USs).
  destruct (process_list_effect D _ _ _ _ _ _ _ H Hl) as (l' & Hl' & [(Hx & _)|(q & _ & He)]); [discriminate|].
  inversion He; subst; try contradiction.
  assert (Hsp : speaks E r (group_prog (group accs 11 (rl_lst_value_calc_accs a))) (ls_mint ls)).
  { destruct a as [n i amt mn]. cbv beta iota in HG. cbn [rl_lst_value_calc_accs rl_lst_index] in *.
    destruct HG as (g1 & g3 & p1 & p3 & psx & lx & ls1 & Hsk & Hn1 & _ & Hlx & X1 & Y1 & _).
    assert (lx = l) by congruence. subst lx. assert (ls1 = ls) by congruence. subst ls1.
    destruct (group_first _ _ _ _ _ _ Hsk Hn1) as (G1 & _). rewrite G1. cbn [group_prog]. rewrite Y1.
    eapply honest_strip; [exact Hh|exact Hl|exact Hl'|assumption|eassumption]. }
  apply remove_run in H; [|exact (proj1 Hi)]. cbv zeta in H.
  destruct H as (w1 & sol & after & tu & hi & fee & HF & Hrest).
  assert (Hlpm : exists ps, the_pool w = Some ps /\ lq_lp_mint accs = lp_token_mint ps) by tauto.
  destruct Hlpm as (ps & Hp & Hlm).
  destruct (remove_ov r E w accs (rl_lst_value_calc_accs a) (rl_lst_index a) w1 (rl_lp_token_amount a) tu fee w' l ls t) as (V & T); eauto; try lia.
  split; [exact V|]. exists ps, w1. csplit; auto. destruct HF as (w2 & R1 & _). exact R1.
Qed.


(** What one call does to the value behind the LP tokens. *)
Lemma call_step_ov r w z w' E C accs ix :
  val_ok r -> reachable D w ->
  pdas_do_not_sign accs -> process D E C w accs ix = Ok w' -> truthful E r w' ->
  0 <= z -> priced_within E w accs ix w' z ->
  overstated D r w' <= overstated D r w /\
  (0 < lp_supply w ->
     (backing w - (overstated D r w - overstated D r w')) * lp_supply w' <= (backing w' + z) * lp_supply w).
Proof.
  intros Hr Hre Hn H Hh Hz Hrw.
  pose proof (reachable_inv D HD _ Hre) as Hi. pose proof (reachable_ata D HD _ Hre) as Ha.
  pose proof (reach_ctl _ _ _ _ _ _ _ Hre Hn H) as Hre'.
  pose proof (reachable_inv D HD _ Hre') as Hi'. pose proof (reachable_ata D HD _ Hre') as Ha'.
  pose proof (process_shape D _ _ _ _ _ _ H) as Hsh.
  destruct (the_pool w) as [ps|] eqn:Hp.
  2:{ (* before Initialize: nothing listed *)
      destruct Hi as ((l & au & Hl & _ & _ & _ & _ & _ & Hm) & _). rewrite Hp in Hm. subst l.
      split; [|unfold lp_supply at 1; rewrite Hp; lia].
      destruct (process_list_effect D _ _ _ _ _ _ _ H Hl) as (l' & Hl' & [(_ & ->)|(q & Hq & _)]); [|congruence].
      unfold overstated, listed. rewrite Hl, Hl'. reflexivity. }
  destruct (process_pool_effect D _ _ _ _ _ _ _ H Hp) as (ps' & Hp' & Hpe).
  pose proof (pool_effect_lp _ _ _ _ _ Hpe) as Hlpm.
  assert (HS : lp_supply w = supply w (lp_token_mint ps)) by (unfold lp_supply; now rewrite Hp).
  assert (HS' : lp_supply w' = supply w' (lp_token_mint ps)) by (unfold lp_supply; now rewrite Hp', Hlpm).
  rewrite HS, HS'. clear HS HS'.
  destruct (proj1 Hi) as (l & au & Hl & Hau & Hnd & Hrest).
  (* supply unchanged unless liquidity is added or removed *)
  assert (Hsup : match ix with AddLiquidity _ | RemoveLiquidity _ => True | _ =>
    supply w' (lp_token_mint ps) = supply w (lp_token_mint ps) end).
  { destruct (Z.eq_dec (supply w' (lp_token_mint ps)) (supply w (lp_token_mint ps))) as [He|He]; [destruct ix; auto|].
    destruct (C10_supply D HD _ _ _ _ _ _ _ Hre H He) as (_ & _ & _ & Hx). destruct ix; auto; contradiction. }
  pose proof (supply_nonneg w (lp_token_mint ps) Hi) as HS0.
  pose proof (supply_nonneg w' (lp_token_mint ps) Hi') as HS1.
  assert (Hsame : supply w' (lp_token_mint ps) = supply w (lp_token_mint ps) ->
    backing w - overstated D r w <= backing w' - overstated D r w' ->
    (backing w - (overstated D r w - overstated D r w')) * supply w' (lp_token_mint ps) <= (backing w' + z) * supply w (lp_token_mint ps)).
  { intros -> Hb. apply Z.mul_le_mono_nonneg_r; lia. }
  pose proof (process_rec_effect D _ _ _ _ _ _ H) as Hrec.
  assert (Hquiet : pays_from_reserves ix = false -> the_record w' = the_record w -> total w' = total w ->
    (exists l', the_list w' = Some l' /\ sumZ (map (ov r w') l') <= sumZ (map (ov r w') l)) ->
    supply w' (lp_token_mint ps) = supply w (lp_token_mint ps) ->
    overstated D r w' <= overstated D r w /\ (0 < supply w (lp_token_mint ps) ->
    (backing w - (overstated D r w - overstated D r w')) * supply w' (lp_token_mint ps) <= (backing w' + z) * supply w (lp_token_mint ps))).
  { intros Hpay Hrw' Ht (l' & Hl' & Hsub) Hse.
    assert (Q : overstated D r w' <= overstated D r w).
    { apply (ov_quiet r w w' l l'); auto.
      + intros k Hk. eapply (proj1 (steps_keep D HD w w' Hre (steps_cons _ _ _ _ (steps_refl _ _) (step_controller _ _ _ _ _ _ _ Hn H)))); auto.
      + apply (proj1 (process_not_drained D _ _ _ _ _ _ (proj1 Hi) Hn H)). exact Hpay. }
    split; [exact Q|]. intros _. apply Hsame; auto. unfold backing. rewrite Hrw', Ht. destruct (the_record w); lia. }
  assert (Hrep : forall i ls f, nth_error l i = Some ls -> ls_mint f = ls_mint ls -> pool_reserves_bump f = pool_reserves_bump ls ->
    sol_value f = sol_value ls -> sumZ (map (ov r w') (replace_nth l i f)) <= sumZ (map (ov r w') l)).
  { intros i ls f Hx F1 F2 F3. rewrite map_replace, (sumZ_replace _ _ _ (ov r w' ls)) by (now apply map_nth_error).
    assert (ov r w' f = ov r w' ls) as -> by (unfold ov, reserves_of; now rewrite F1, F2, F3). lia. }
  assert (Hbk : active ps -> the_record w' = the_record w -> backing w = total w /\ backing w' = total w').
  { intros Hact Hre1. pose proof (active_no_record _ _ Hi Hp Hact) as Hno. unfold backing. now rewrite Hre1, Hno. }
  assert (Htot : forall q, the_pool w' = Some q -> total_sol_value q = total_sol_value ps -> total w' = total w).
  { intros q Hq He. unfold total. now rewrite Hq, Hp. }
  assert (Hlist : exists l', the_list w' = Some l' /\ list_effect D accs ps l ix l' ).
  { destruct (process_list_effect D _ _ _ _ _ _ _ H Hl) as (l' & Hl' & [(-> & _)|(q & Hq & He)]).
    - inversion Hpe; contradiction.
    - assert (q = ps) by congruence. subst q. eauto. }
  destruct Hlist as (l' & Hl' & Hle).
  destruct ix as [i|a|a|a|a|i|i| |i|i| |t lp| | |amt| |i| | |a| | |];
  try (apply Hquiet; [reflexivity|exact Hrec|
     inversion Hpe; subst; try contradiction;
       apply (Htot _ Hp'); try reflexivity; destruct t, lp; reflexivity|
     exists l'; split; [exact Hl'|]; solve [inversion Hle; subst; try contradiction; reflexivity]|exact Hsup]).
  - (* Sync *)
    destruct (sync_ov r _ _ _ _ _ _ Hr H Hh) as (V & T).
    split; [exact V|]. intros _. apply Hsame; auto. inversion Hpe; subst; try contradiction. destruct (Hbk H1 Hrec) as (-> & ->). exact T.
  - (* SwapExactIn *)
    destruct (swap_in_call_ov r _ _ _ _ _ _ Hr Hi Ha Hn H Hh) as (V & T).
    split; [exact V|]. intros _. apply Hsame; auto. inversion Hpe; subst; try contradiction. destruct (Hbk H1 Hrec) as (-> & ->). exact T.
  - (* SwapExactOut *)
    destruct (swap_out_call_ov r _ _ _ _ _ _ Hr Hi Ha Hn H Hh) as (V & T).
    split; [exact V|]. intros _. apply Hsame; auto. inversion Hpe; subst; try contradiction. destruct (Hbk H1 Hrec) as (-> & ->). exact T.
  - (* AddLiquidity *)
    destruct (add_call_ov r _ _ _ _ _ _ Hr Hre Hn H Hh) as (V & q & w1 & Hq & Hlm & R1 & T).
    assert (q = ps) by congruence. subst q.
    split; [exact V|]. intros HS. inversion Hpe; subst; try contradiction. destruct (Hbk H1 Hrec) as (-> & ->).
    cbn [priced_within] in Hrw. rewrite Hlm in Hrw. specialize (Hrw w1 R1 HS).
    assert (Q : (total w - (overstated D r w - overstated D r w')) * supply w' (lp_token_mint ps) <= total w1 * supply w' (lp_token_mint ps)) by (apply Z.mul_le_mono_nonneg_r; lia). lia.
  - (* RemoveLiquidity *)
    destruct (remove_call_ov r _ _ _ _ _ _ Hr Hre Hn H Hh) as (V & q & w1 & Hq & Hlm & R1 & T).
    assert (q = ps) by congruence. subst q.
    split; [exact V|]. intros HS. inversion Hpe; subst; try contradiction. destruct (Hbk H1 Hrec) as (-> & ->).
    cbn [priced_within] in Hrw. rewrite Hlm in Hrw. specialize (Hrw w1 R1 HS).
    assert (Q : (total w - (overstated D r w - overstated D r w')) * supply w' (lp_token_mint ps) <= total w1 * supply w' (lp_token_mint ps)) by (apply Z.mul_le_mono_nonneg_r; lia). lia.
  - (* DisableLstInput *)
    apply Hquiet; [reflexivity|exact Hrec|inversion Hpe; subst; try contradiction; now apply (Htot _ Hp')| |exact Hsup].
    exists l'. split; [exact Hl'|]. inversion Hle as [| |i0 ls m E1 E2 E3 Ei El|i0 ls m E1 E2 E3 Ei El|m c b1 b2 E1 E2 E3 E4 E5 Ei El|i0 ls m E1 E2 E3 E4 Ei El|]; subst; try contradiction.
    eapply Hrep; eauto.
  - (* EnableLstInput *)
    apply Hquiet; [reflexivity|exact Hrec|inversion Hpe; subst; try contradiction; now apply (Htot _ Hp')| |exact Hsup].
    exists l'. split; [exact Hl'|]. inversion Hle as [| |i0 ls m E1 E2 E3 Ei El|i0 ls m E1 E2 E3 Ei El|m c b1 b2 E1 E2 E3 E4 E5 Ei El|i0 ls m E1 E2 E3 E4 Ei El|]; subst; try contradiction.
    eapply Hrep; eauto.
  - (* AddLst *)
    apply Hquiet; [reflexivity|exact Hrec|inversion Hpe; subst; try contradiction; now apply (Htot _ Hp')| |exact Hsup].
    exists l'. split; [exact Hl'|]. inversion Hle as [| |i0 ls m E1 E2 E3 Ei El|i0 ls m E1 E2 E3 Ei El|m c b1 b2 E1 E2 E3 E4 E5 Ei El|i0 ls m E1 E2 E3 E4 Ei El|]; subst; try contradiction.
    rewrite map_app, sumZ_app. cbn [map sumZ].
    match goal with |- _ + (ov r w' ?x + 0) <= _ => assert (ov r w' x = 0) as -> end; [|lia].
    unfold ov. cbn [sol_value ls_mint].
    match goal with |- Z.max 0 (0 - r ?m ?x) = 0 => assert (0 <= x); [|pose proof (val_ge0 r m x Hr ltac:(assumption)); lia] end.
    unfold reserves_of. destruct (d_create D _ _ _ _) as [k|]; [|lia]. unfold balance. destruct (w_tok w' k) as [t|] eqn:Ht; [|lia].
    pose proof (proj1 (base_u64 _ (proj1 Hi')) _ _ Ht) as Hu. unfold U64 in Hu. lia.
  - (* RemoveLst *)
    apply Hquiet; [reflexivity|exact Hrec|inversion Hpe; subst; try contradiction; now apply (Htot _ Hp')| |exact Hsup].
    exists l'. split; [exact Hl'|]. inversion Hle as [| |i0 ls m E1 E2 E3 Ei El|i0 ls m E1 E2 E3 Ei El|m c b1 b2 E1 E2 E3 E4 E5 Ei El|i0 ls m E1 E2 E3 E4 Ei El|]; subst; try contradiction.
    match goal with Hx : nth_error l _ = Some ?x |- _ => pose proof (ov_ge0 r w' x); apply (map_nth_error (ov r w')) in Hx; 
      assert (Hrm : forall n, map (ov r w') (remove_nth l n) = remove_nth (map (ov r w') l) n) by
        (clear; induction l as [|a l IH]; intros [|n]; cbn; auto; now rewrite IH);
      rewrite Hrm, (sumZ_remove _ _ _ Hx); lia end.
  - (* SetSolValueCalculator *)
    destruct (set_calc_ov r _ _ _ _ _ _ Hr H Hh) as (V & T).
    split; [exact V|]. intros _. apply Hsame; auto. inversion Hpe; subst; try contradiction. destruct (Hbk H2 Hrec) as (-> & ->). exact T.
  - (* StartRebalance *)
    destruct (start_ov r _ _ _ _ _ _ Hr Hi Ha H Hh) as (V & T & Hno).
    split; [exact V|]. intros _. apply Hsame; auto. unfold backing at 1. now rewrite Hno.
  - (* EndRebalance *)
    destruct (end_ov r _ _ _ _ _ Hr H Hh) as (V & T & Hno).
    split; [exact V|]. intros _. apply Hsame; auto. unfold backing at 2. rewrite Hno. lia.
Qed.


(** ** Histories in which the calculators asked value at [V], which may change in any way *)
Inductive lgen_history (M : Z) (V0 : valuation) (w0 : World) : Z -> Z -> valuation -> World -> Prop :=
| lgen_start : val_ok V0 -> M <= lp_supply w0 -> lgen_history M V0 w0 0 0 V0 w0
| lgen_go z x V w z' w' : lgen_history M V0 w0 z x V w -> gen_step D V w z' w' -> M <= lp_supply w' ->
    lgen_history M V0 w0 (z + z') x V w'
| lgen_change z x V w V' : lgen_history M V0 w0 z x V w -> val_ok V' -> lgen_history M V0 w0 z (x + lost D V V' w) V' w.

Lemma lost_ge0 V V' w : 0 <= lost D V V' w.
Proof. apply sumZ_nonneg, Forall_forall. intros x Hx. apply in_map_iff in Hx as (ls & <- & _). lia. Qed.
Lemma overstated_change V V' w : overstated D V' w <= overstated D V w + lost D V V' w.
Proof.
  unfold overstated, lost. induction (listed w) as [|ls l IH]; cbn [map sumZ]; [lia|]. lia.
Qed.
Lemma external_ov V w w' : val_ok V -> reachable D w -> external_step D w w' ->
  overstated D V w' <= overstated D V w /\ backing w' = backing w /\ lp_supply w' <= lp_supply w.
Proof.
  intros Hr Hre Hx. pose proof (reach_ext D _ _ Hre Hx) as Hre'.
  pose proof (reachable_inv D HD _ Hre) as Hi. pose proof (reachable_ata D HD _ Hre) as Ha.
  split; [|split].
  - destruct (proj1 Hi) as (l & _ & Hl & _).
    apply (ov_quiet V w w' l l); auto.
    + rewrite (x_list _ _ _ Hx). exact Hl.
    + reflexivity.
    + intros k Hk. destruct (w_mint w k) as [i|] eqn:Hm; [|congruence]. apply (x_mint _ _ _ Hx _ _ Hm).
    + intros k t Ht Ho. destruct (x_tok _ _ _ Hx _ _ Ht (or_introl Ho)) as (t' & Ht' & _ & _ & Hle & _).
      unfold balance. now rewrite Ht, Ht'.
  - unfold backing, total. now rewrite (x_rec _ _ _ Hx), (x_pool _ _ _ Hx).
  - unfold lp_supply. rewrite (x_pool _ _ _ Hx). destruct (the_pool w) as [ps|] eqn:Hp; [|lia].
    destruct Ha as (_ & _ & Hlp). destruct (Hlp _ Hp) as (_ & i & Hm & Hau).
    destruct (x_mint _ _ _ Hx _ _ Hm) as (_ & i' & Hm' & Hs). unfold supply. rewrite Hm, Hm'. apply Hs, Hau.
Qed.
Lemma backing_ge0 w : reachable D w -> 0 <= backing w.
Proof.
  intros H. pose proof (reachable_inv D HD _ H) as Hi. unfold backing.
  destruct (the_record w) as [rec|] eqn:Hrec; [|apply total_nonneg; exact Hi].
  destruct Hi as (_ & Hf). unfold flag_inv in Hf. destruct (the_pool w) as [ps|]; [|congruence].
  destruct Hf as [(_ & Hno)|(_ & _ & rc & l & Hrc & _ & Hu & _)]; [congruence|]. unfold U64 in Hu. assert (rc = rec) by congruence. subst rc. lia.
Qed.

Lemma lgen_end M V0 w0 z x V w : reachable D w0 ->
  lgen_history M V0 w0 z x V w ->
  val_ok V /\ reachable D w /\ overstated D V w <= overstated D V0 w0 + x /\ 0 <= z /\ 0 <= x /\ M <= lp_supply w /\ M <= lp_supply w0.
Proof.
  intros H0 H. induction H as [|z x V w z' w' H IH Hs HM|z x V w V' H IH Hok]; auto.
  - csplit; auto; lia.
  - destruct IH as (I1 & I2 & I3 & I4 & I5 & I6 & I7). destruct Hs as [Hx ->|E C accs ix Hn Hp Hh Hz Hrw].
    + destruct (external_ov V w w' I1 I2 Hx) as (A & _). csplit; auto; try lia. eapply reach_ext; eauto.
    + destruct (call_step_ov V w z' w' E C accs ix I1 I2 Hn Hp Hh Hz Hrw) as (A & _). csplit; auto; try lia.
      eapply reach_ctl; eauto.
  - destruct IH as (I1 & I2 & I3 & I4 & I5 & I6 & I7). pose proof (lost_ge0 V V' w). pose proof (overstated_change V V' w). csplit; auto; lia.
Qed.

Lemma step_arith B B' B0 S1 S' S0 M z z' u d :
  (B * M + (z + u) * S1) * S0 >= B0 * M * S1 -> (B - d) * S' <= (B' + z') * S1 ->
  0 <= z' -> 0 <= d -> 0 < M -> M <= S1 -> M <= S' -> M <= S0 ->
  (B' * M + (z + z' + (u + d)) * S') * S0 >= B0 * M * S'.
Proof.
  intros IH Hst Hz' Hd HM I1 I2 I3.
  assert (Q : S1 * ((B' * M + (z + z' + (u + d)) * S') * S0) >= S1 * (B0 * M * S')).
  { assert (Q1 : ((B - d) * S') * (M * S0) <= ((B' + z') * S1) * (M * S0)) by (apply Z.mul_le_mono_nonneg_r; [apply Z.mul_nonneg_nonneg; lia|lia]).
    assert (Q2 : S' * ((B * M + (z + u) * S1) * S0) >= S' * (B0 * M * S1)) by (apply Z.le_ge, Z.mul_le_mono_nonneg_l; lia).
    assert (Q3 : 0 <= z' * S1 * S0 * (S' - M)) by (repeat apply Z.mul_nonneg_nonneg; lia).
    assert (Q4 : 0 <= d * S' * S0 * (S1 - M)) by (repeat apply Z.mul_nonneg_nonneg; lia).
    lia. }
  apply Z.ge_le in Q. apply Z.mul_le_mono_pos_l in Q; lia.
Qed.

Lemma lgen_used M V0 w0 z x V w : reachable D w0 -> 0 < M ->
  lgen_history M V0 w0 z x V w ->
  (backing w * M + (z + (overstated D V0 w0 + x - overstated D V w)) * lp_supply w) * lp_supply w0 >= backing w0 * M * lp_supply w.
Proof.
  intros H0 HM H. induction H as [Hok HM0|z x V w z' w' H IH Hs HM'|z x V w V' H IH Hok].
  - replace (0 + (overstated D V0 w0 + 0 - overstated D V0 w0)) with 0 by lia. lia.
  - destruct (lgen_end M V0 w0 z x V w H0 H) as (I1 & I2 & I3 & I4 & I5 & I6 & I7).
    assert (Hst : (backing w - (overstated D V w - overstated D V w')) * lp_supply w' <= (backing w' + z') * lp_supply w
      /\ 0 <= z' /\ overstated D V w' <= overstated D V w).
    { destruct Hs as [Hx ->|E C accs ix Hn Hp Hh Hz Hrw].
      - destruct (external_ov V w w' I1 I2 Hx) as (Ho & Hb & Hle). split; [|split; [lia|exact Ho]]. rewrite Hb.
        pose proof (backing_ge0 w I2) as Hb0.
        assert (Q1 : (backing w - (overstated D V w - overstated D V w')) * lp_supply w' <= backing w * lp_supply w')
          by (apply Z.mul_le_mono_nonneg_r; lia).
        assert (Q2 : backing w * lp_supply w' <= backing w * lp_supply w) by (apply Z.mul_le_mono_nonneg_l; lia). lia.
      - destruct (call_step_ov V w z' w' E C accs ix I1 I2 Hn Hp Hh Hz Hrw) as (Ho & A). split; [apply A; lia|split; [exact Hz|exact Ho]]. }
    destruct Hst as (Hst & Hz' & Ho).
    pose proof (step_arith (backing w) (backing w') (backing w0) (lp_supply w) (lp_supply w') (lp_supply w0) M z z'
      (overstated D V0 w0 + x - overstated D V w) (overstated D V w - overstated D V w') IH Hst Hz' ltac:(lia) HM I6 HM' I7) as Q.
    replace (overstated D V0 w0 + x - overstated D V w + (overstated D V w - overstated D V w'))
      with (overstated D V0 w0 + x - overstated D V w') in Q by lia. exact Q.
  - destruct (lgen_end M V0 w0 z x V w H0 H) as (I1 & I2 & I3 & I4 & I5 & I6 & I7).
    pose proof (overstated_change V V' w) as Hc.
    set (u := overstated D V0 w0 + x - overstated D V w) in *.
    assert (Hu : u <= overstated D V0 w0 + (x + lost D V V' w) - overstated D V' w) by (unfold u; lia).
    set (u' := overstated D V0 w0 + (x + lost D V V' w) - overstated D V' w) in *. clearbody u u'.
    assert (Q : (backing w * M + (z + u) * lp_supply w) * lp_supply w0 <= (backing w * M + (z + u') * lp_supply w) * lp_supply w0).
    { apply Z.mul_le_mono_nonneg_r; [lia|]. assert ((z + u) * lp_supply w <= (z + u') * lp_supply w) by (apply Z.mul_le_mono_nonneg_r; lia). lia. }
    lia.
Qed.
(** Counting the LSTs at no more than they are worth at the end. *)
Lemma lgen_value M V0 w0 z x V w : reachable D w0 -> 0 < M ->
  lgen_history M V0 w0 z x V w ->
  ((backing w - overstated D V w) * M + (z + x + overstated D V0 w0) * lp_supply w) * lp_supply w0 >= backing w0 * M * lp_supply w.
Proof.
  intros H0 HM H. pose proof (lgen_used M V0 w0 z x V w H0 HM H) as Q.
  destruct (lgen_end M V0 w0 z x V w H0 H) as (_ & _ & _ & _ & _ & I6 & I7). pose proof (overstated_ge0 V w) as Ho.
  set (o := overstated D V w) in *. set (o0 := overstated D V0 w0) in *. clearbody o o0.
  assert (Q2 : (backing w * M + (z + (o0 + x - o)) * lp_supply w) <= ((backing w - o) * M + (z + x + o0) * lp_supply w)).
  { assert (0 <= o * (lp_supply w - M)) by (apply Z.mul_nonneg_nonneg; lia). lia. }
  apply (Z.mul_le_mono_nonneg_r _ _ (lp_supply w0)) in Q2; lia.
Qed.

End Loss.
