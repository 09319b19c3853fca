(** Proofs behind C64: what each instruction does to the records and to the reserves they stand for. *)
From Coq Require Import ZArith List Bool Lia.
From Verif Require Import Base Ratio Calc State Controller Inversion ProcInv Spec CalcProofs InvProofs
  TokProofs AccessProofs ShapeProofs MoneyProofs Concrete PropAccess PropTok PropMoney PropLp JupRefresh PropDeploy
  AdminSpec HistSpec HistProofs ArbSpec FreshSpec.
Import ListNotations.
Open Scope Z_scope.

Section Fresh.
Variables (D : Derive) (HD : derive_ok D).

Lemma strip_mints l l' : map strip l' = map strip l -> map ls_mint l' = map ls_mint l.
Proof.
  revert l'. induction l as [|a l IH]; intros [|b l'] H; try discriminate; [reflexivity|]. cbn in *.
  injection H as _ _ _ E1 _ H. f_equal; auto.
Qed.

(** [pc P X w]: [P] holds of every record and the balance it stands for, except of the mints in [X]. *)
Definition pc (P : key -> Z -> Z -> Prop) (X : key -> Prop) (w : World) : Prop :=
  forall l ls k, the_list w = Some l -> In ls l -> reserves_at D w ls k -> ~ X (ls_mint ls) ->
    P (ls_mint ls) (sol_value ls) (balance w k).
Lemma pc_weak (P : key -> Z -> Z -> Prop) (X Y : key -> Prop) w : (forall m, X m -> Y m) -> pc P X w -> pc P Y w.
Proof. intros H Hp l ls k A B Hk Hn. apply (Hp l); auto. Qed.

Lemma pc_reval (P : key -> Z -> Z -> Prop) X E w i res c m accs w' l ls :
  revalued E w i res c m accs w' -> the_list w = Some l -> NoDup (map ls_mint l) -> nth_error l (Z.to_nat i) = Some ls ->
  ls_mint ls = m -> reserves_at D w ls res ->
  (forall v, valued E w c m accs (balance w res) v -> P m v (balance w res)) ->
  pc P X w ->
  pc P (fun m' => X m' /\ m' <> m) w' /\ w_owner w' = w_owner w /\ w_tok w' = w_tok w /\
  exists l', the_list w' = Some l' /\ map strip l' = map strip l.
Proof.
  intros (v & hi & ps & l0 & ls0 & _ & Hv & Hp & Hl & Hn & Hp' & Hl' & _ & _ & Ht & _ & Ho & _) Hl0 Hnd Hn0 Hm Hk Hval Hc.
  assert (l0 = l) by congruence. subst l0. assert (ls0 = ls) by congruence. subst ls0.
  pose proof (Hval v (ex_intro _ hi Hv)) as HP.
  split; [|csplit; auto].
  - intros l1 ls1 k1 Hl1 Hin Hk1 HX. rewrite Hl' in Hl1. injection Hl1 as <-.
    apply In_nth_error in Hin as (j & Hj).
    unfold reserves_at in Hk1. rewrite Ho in Hk1. unfold balance. rewrite Ht. fold (balance w k1).
    destruct (Nat.eq_dec j (Z.to_nat i)) as [->|Hne].
    + rewrite (nth_error_replace_same _ _ _ ls) in Hj by auto. injection Hj as <-. cbn in Hk1 |- *.
      unfold reserves_at in Hk. assert (k1 = res) by congruence. subst k1. rewrite Hm. exact HP.
    + rewrite nth_error_replace_other in Hj by auto. apply (Hc l); auto; [eapply nth_error_In; eauto|].
      intros Hx. apply HX. split; auto. intros He. apply Hne. eapply (same_mint_index l); eauto. congruence.
  - eexists. split; [exact Hl'|]. clear -Hn0. revert l Hn0. generalize (Z.to_nat i). induction n; intros [|x l] H; try discriminate; cbn in *.
    + injection H as ->. reflexivity.
    + f_equal. auto.
Qed.
Lemma pc_move (P : key -> Z -> Z -> Prop) X w w' :
  the_list w' = the_list w -> w_owner w' = w_owner w ->
  (forall l ls k v, the_list w = Some l -> In ls l -> reserves_at D w ls k -> ~ X (ls_mint ls) ->
     P (ls_mint ls) v (balance w k) -> P (ls_mint ls) v (balance w' k)) ->
  pc P X w -> pc P X w'.
Proof.
  intros Hl Ho Hb Hc l ls k Hl' Hi Hk HX. rewrite Hl in Hl'. unfold reserves_at in Hk. rewrite Ho in Hk.
  eapply Hb; eauto.
Qed.

(** The relation between a record and its balance after an instruction that began in [w0]. *)
Definition ledger (V : valuation) (w0 : World) (mz : key -> Prop) (gift : key -> Prop) (m : key) (v b : Z) : Prop :=
  (mz m /\ v = V m b) \/
  (~ mz m /\ exists l ls k, the_list w0 = Some l /\ In ls l /\ ls_mint ls = m /\ sol_value ls = v /\ reserves_at D w0 ls k /\
     (b = balance w0 k \/ gift k /\ balance w0 k <= b)).
Lemma pc_start V w mz gift : pc (ledger V w mz gift) mz w.
Proof. intros l ls k Hl Hin Hk Hn. right. split; auto. exists l, ls, k. csplit; auto. Qed.

(** The reserves accounts of different LSTs differ, and hold their LST. *)
Lemma reserve_mint w l ls k t : ata_inv D w -> the_list w = Some l -> In ls l -> reserves_at D w ls k ->
  w_tok w k = Some t -> ta_mint t = ls_mint ls /\ ta_owner t = POOL_STATE_ID.
Proof.
  intros Ha Hl Hin Hk Ht. destruct (reserve_account D HD w l ls k Ha Hl Hin Hk) as (_ & t' & Ht' & A & B).
  assert (t' = t) by congruence. subst t'. auto.
Qed.

(** A swap. *)
Lemma swap_pc V E w accs n m i j w2 si so fee w' l lsrc ldst mz gift :
  inv w -> ata_inv D w -> pdas_do_not_sign accs -> shape w w' ->
  swap_flow E w accs n m i j w2 si so fee w' ->
  the_list w = Some l -> nth_error l (Z.to_nat i) = Some lsrc -> nth_error l (Z.to_nat j) = Some ldst ->
  swap_parties D w accs lsrc ldst ->
  speaks E V (group_prog (group accs 12 n)) (ls_mint lsrc) ->
  speaks E V (group_prog (group accs (12 + Z.to_nat n) m)) (ls_mint ldst) ->
  (forall x, mz x <-> x = sw_src_mint accs \/ x = sw_dst_mint accs) ->
  pc (ledger V w mz gift) (fun _ => False) w'.
Proof.
  intros Hi Ha Hn Hsh HF Hl N1 N2 HQ Hs1 Hs2 Hmz.
  destruct HQ as (Hne & M1 & M2 & _ & (us & US & USm & USo & USs) & (ud & UD & UDm) & (rs & RS & RSm) & (rd & RD & RDm & RDo) & (rf & RF & RFm) & D1 & D2 & _).
  destruct HF as (w1 & w3 & w4 & R1 & R2 & SC & _ & HB & R3 & R4).
  assert (Hnd : NoDup (map ls_mint l)).
  { destruct Hi as ((la & _ & Hla & _ & Hnd & _) & _). assert (la = l) by congruence. now subst la. }
  set (P := ledger V w mz gift).
  assert (P1 : forall wx x v, valued E wx (group_prog (group accs 12 n)) (sw_src_mint accs) x (balance wx (sw_src_reserves accs)) v ->
    P (sw_src_mint accs) v (balance wx (sw_src_reserves accs))).
  { intros wx x v Hv. left. split; [apply Hmz; auto|]. rewrite <- M1 in *. exact (Hs1 wx _ _ _ Hv). }
  assert (P2 : forall wx x v, valued E wx (group_prog (group accs (12 + Z.to_nat n) m)) (sw_dst_mint accs) x (balance wx (sw_dst_reserves accs)) v ->
    P (sw_dst_mint accs) v (balance wx (sw_dst_reserves accs))).
  { intros wx x v Hv. left. split; [apply Hmz; auto|]. rewrite <- M2 in *. exact (Hs2 wx _ _ _ Hv). }
  destruct (pc_reval P mz _ _ _ _ _ _ _ _ l lsrc R1 Hl Hnd N1 M1) as (C1 & O1 & K1 & l1 & L1 & E1);
    [unfold reserves_at; now rewrite M1|intros v; apply P1|apply pc_start|].
  destruct (strip_nth _ _ _ _ E1 N2) as (ld1 & N21 & Md1 & Bd1 & _).
  assert (Q1 : ls_mint ld1 = sw_dst_mint accs) by congruence.
  assert (Hnd1 : NoDup (map ls_mint l1)) by (rewrite (strip_mints _ _ E1); exact Hnd).
  destruct (pc_reval P (fun x => mz x /\ x <> sw_src_mint accs) _ _ _ _ _ _ _ _ l1 ld1 R2 L1 Hnd1 N21 Q1) as (C2 & O2 & K2 & l2 & L2 & E2);
    [unfold reserves_at; rewrite Q1, O1, Bd1; exact D2|intros v; apply P2|exact C1|].
  destruct SC as (SP & SL & _). rewrite L2 in SL. rewrite E1 in E2.
  destruct R4 as (v4 & h4 & p4 & l4 & s4 & Z4). assert (O4 : w_owner w' = w_owner w4) by tauto. assert (K4 : w_tok w' = w_tok w4) by tauto.
  pose proof (ex_intro (fun v => exists hi ps l ls, _) v4 (ex_intro _ h4 (ex_intro _ p4 (ex_intro _ l4 (ex_intro _ s4 Z4)))) : revalued E w4 j (sw_dst_reserves accs) (group_prog (group accs (12 + Z.to_nat n) m)) (sw_dst_mint accs) (group_accs (group accs (12 + Z.to_nat n) m)) w') as R4.
  assert (O3 : w_owner w4 = w_owner w3) by (destruct R3 as (? & ? & ? & ? & ? & ?); tauto).
  assert (O23 : w_owner w3 = w_owner w2) by (destruct Hsh as (Hsh & _); congruence).
  assert (C3 : pc P mz w3).
  { apply (pc_move P _ w2); auto; [now rewrite SL, L2| |eapply pc_weak; [|exact C2]; cbn; tauto].
    intros lz lx k v Hlz Hx Hk Hnx. rewrite L2 in Hlz. injection Hlz as <-.
    apply In_nth_error in Hx as (x & Hx). symmetry in E2. destruct (strip_nth l2 l x lx E2 Hx) as (lx0 & Hx0 & Mx & Bx & _).
    assert (Hk0 : reserves_at D w lx0 k) by (unfold reserves_at in *; rewrite Mx, Bx; congruence).
    destruct (reserve_account D HD _ _ _ _ Ha Hl (nth_error_In _ _ Hx0) Hk0) as (_ & t & Ht & Hmt & Hot).
    pose proof (signer_users _ _ _ _ Hn US USo USs _ US) as (Nu & _).
    assert (Hx1 : ls_mint lx <> sw_src_mint accs) by (intros He; apply Hnx, Hmz; auto).
    assert (Hx2 : ls_mint lx <> sw_dst_mint accs) by (intros He; apply Hnx, Hmz; auto).
    rewrite HB. rewrite (on_other k (sw_user_src accs)), (on_other k (sw_dst_reserves accs)), (on_other k (sw_src_reserves accs)),
      (on_other k (sw_fee_acc accs)), (on_other k (sw_user_dst accs)) by (intros ->; congruence).
    match goal with |- _ -> P _ _ ?b => replace b with (balance w2 k) by lia end. auto. }
  destruct (strip_nth l l2 (Z.to_nat i) lsrc E2 N1) as (ls2 & N12 & Ms2 & Bs2 & _).
  destruct (strip_nth l l2 (Z.to_nat j) ldst E2 N2) as (ld2 & N22 & Md2 & Bd2 & _).
  assert (Hnd2 : NoDup (map ls_mint l2)) by (rewrite (strip_mints _ _ E2); exact Hnd).
  destruct (pc_reval P mz _ _ _ _ _ _ _ _ l2 ls2 R3 SL Hnd2 N12) as (C4 & _ & _ & l3 & L3 & E3);
    [congruence|unfold reserves_at; rewrite Ms2, Bs2, M1, O23, O2, O1; exact D1|intros v; apply P1|exact C3|].
  destruct (strip_nth l2 l3 (Z.to_nat j) ld2 E3 N22) as (ld3 & N33 & Md3 & Bd3 & _).
  assert (Hnd3 : NoDup (map ls_mint l3)) by (rewrite (strip_mints _ _ E3); exact Hnd2).
  destruct (pc_reval P (fun x => mz x /\ x <> sw_src_mint accs) _ _ _ _ _ _ _ _ l3 ld3 R4 L3 Hnd3 N33) as (C5 & _);
    [congruence|unfold reserves_at; rewrite Md3, Bd3, Md2, Bd2, M2, O3, O23, O2, O1; exact D2|intros v; apply P2|exact C4|].
  eapply pc_weak; [|exact C5]. intros x ((Hx & X1) & X2). apply Hmz in Hx. tauto.
Qed.

(** A deposit or a redemption. *)
Lemma liq_pc V E w accs g i w1 w2 w' l ls mz (gift : key -> Prop) :
  inv w -> ata_inv D w -> shape w w' ->
  revalued E w i (lq_reserves accs) (group_prog g) (lq_mint accs) (group_accs g) w1 ->
  same_controller_accounts w1 w2 ->
  (forall k t, w_tok w k = Some t -> ta_owner t = POOL_STATE_ID -> ta_mint t <> lq_mint accs ->
    balance w2 k = balance w1 k \/ gift k /\ balance w1 k <= balance w2 k) ->
  revalued E w2 i (lq_reserves accs) (group_prog g) (lq_mint accs) (group_accs g) w' ->
  the_list w = Some l -> nth_error l (Z.to_nat i) = Some ls -> liq_parties D w accs ls ->
  speaks E V (group_prog g) (ls_mint ls) ->
  (forall x, mz x <-> x = lq_mint accs) ->
  pc (ledger V w mz gift) (fun _ => False) w'.
Proof.
  intros Hi Ha Hsh R1 SC HB R2 Hl N1 HQ Hs Hmz.
  destruct HQ as (M1 & _ & _ & (rs & RS & RSm) & _ & D1 & _).
  assert (Hnd : NoDup (map ls_mint l)).
  { destruct Hi as ((la & _ & Hla & _ & Hnd & _) & _). assert (la = l) by congruence. now subst la. }
  set (P := ledger V w mz gift).
  assert (P1 : forall wx x v, valued E wx (group_prog g) (lq_mint accs) x (balance wx (lq_reserves accs)) v ->
    P (lq_mint accs) v (balance wx (lq_reserves accs))).
  { intros wx x v Hv. left. split; [apply Hmz; auto|]. rewrite <- M1 in *. exact (Hs wx _ _ _ Hv). }
  destruct (pc_reval P mz _ _ _ _ _ _ _ _ l ls R1 Hl Hnd N1 M1) as (C1 & O1 & K1 & l1 & L1 & E1);
    [unfold reserves_at; now rewrite M1|intros v; apply P1|apply pc_start|].
  destruct SC as (SP & SL & _). rewrite L1 in SL.
  assert (O2 : w_owner w' = w_owner w2) by (destruct R2 as (? & ? & ? & ? & ? & ?); tauto).
  assert (O12 : w_owner w2 = w_owner w1) by (destruct Hsh as (Hsh & _); congruence).
  assert (C2 : pc P mz w2).
  { intros lz lx k Hlz Hx Hk Hnx. rewrite SL in Hlz. injection Hlz as <-.
    unfold reserves_at in Hk. rewrite O12 in Hk.
    assert (Q : P (ls_mint lx) (sol_value lx) (balance w1 k)) by (apply (C1 l1); auto; cbn; tauto).
    apply In_nth_error in Hx as (x & Hx). symmetry in E1. destruct (strip_nth l1 l x lx E1 Hx) as (lx0 & Hx0 & Mx & Bx & _).
    assert (Hk0 : reserves_at D w lx0 k) by (unfold reserves_at in *; rewrite Mx, Bx; congruence).
    destruct (reserve_account D HD _ _ _ _ Ha Hl (nth_error_In _ _ Hx0) Hk0) as (_ & t & Ht & Hmt & Hot).
    assert (Hx1 : ls_mint lx <> lq_mint accs) by (intros He; apply Hnx, Hmz; auto).
    destruct (HB k t Ht Hot) as [->|(G & Hle)]; [congruence|exact Q|].
    destruct Q as [(Q & _)|(Q & lq & lsq & kq & Q1 & Q2 & Q3 & Q4 & Q5 & Q6)]; [contradiction|].
    right. split; auto. exists lq, lsq, kq. csplit; auto.
    assert (lq = l) by congruence. subst lq. apply In_nth_error in Q2 as (y & Hy).
    assert (y = x) by (eapply (same_mint_index l); eauto; congruence). subst y.
    assert (lsq = lx0) by congruence. subst lsq. assert (kq = k) by (unfold reserves_at in *; congruence). subst kq.
    right. split; auto. unfold balance in Hle at 1. rewrite K1 in Hle. exact Hle. }
  destruct (strip_nth l l1 (Z.to_nat i) ls E1 N1) as (ls1 & N11 & Ms1 & Bs1 & _).
  assert (Hnd1 : NoDup (map ls_mint l1)) by (rewrite (strip_mints _ _ E1); exact Hnd).
  destruct (pc_reval P mz _ _ _ _ _ _ _ _ l1 ls1 R2 SL Hnd1 N11) as (C4 & _);
    [congruence|unfold reserves_at; rewrite Ms1, Bs1, M1, O12, O1; exact D1|intros v; apply P1|exact C2|].
  eapply pc_weak; [|exact C4]. intros x (Hx & X1). apply Hmz in Hx. tauto.
Qed.
End Fresh.
