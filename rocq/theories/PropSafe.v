(** C63: nobody's tokens leave without their signature, nor more than they signed for. *)
From Coq Require Import ZArith List Bool Lia.
From Verif Require Import Base Ratio Calc State Controller Inversion ProcInv Spec CalcProofs InvProofs TokProofs ShapeProofs Concrete ConcreteReach SafeSpec.
Import ListNotations.
Open Scope Z_scope.

(** [loses O a n w w']: token accounts of [O] keep all they have, except [a], which loses at most [n]. *)
Definition loses (O a : key) (n : Z) (w w' : World) : Prop :=
  forall k t, w_tok w k = Some t -> ta_owner t = O -> still_has w' k t (on k a n).
Lemma keeps_loses O a w w' : keeps O w w' -> loses O a 0 w w'.
Proof.
  intros H k t Ht Ho. destruct (H k t Ht Ho) as (t' & ? & ? & ? & ?). exists t'. unfold on. repeat split; auto; [congruence|].
  destruct (k =? a); lia.
Qed.
Lemma loses_trans O a n m w1 w2 w3 : loses O a n w1 w2 -> loses O a m w2 w3 -> loses O a (n + m) w1 w3.
Proof.
  intros A B k t H1 H2. destruct (A k t H1 H2) as (t' & ? & ? & ? & ?).
  destruct (B k t') as (t'' & ? & ? & ? & ?); auto; [congruence|]. exists t''. repeat split; auto; try congruence.
  unfold on in *. destruct (k =? a); lia.
Qed.
Lemma loses_more O a n m w w' : n <= m -> loses O a n w w' -> loses O a m w w'.
Proof.
  intros Hn A k t H1 H2. destruct (A k t H1 H2) as (t' & ? & ? & ? & ?). exists t'. repeat split; auto.
  unfold on in *. destruct (k =? a); lia.
Qed.
Lemma transfer_loses O w prog from to mint auth s amt w' : 0 <= amt ->
  transfer_checked w prog from to mint auth s amt = Ok w' -> loses O from amt w w'.
Proof.
  intros Ha H. apply transfer_inv in H.
  destruct H as (f & t & m & _ & Hf & Ht & _ & _ & _ & _ & Mf & Mt & Of & _ & Hle & [(_ & ->)|(Hne & Hm & ->)]).
  - apply (loses_more _ _ 0); [lia|]. apply keeps_loses, keeps_refl.
  - intros k x Hx Hox. unfold still_has, on. cbn. destruct (Z.eq_dec k to) as [->|Hk].
    + rewrite upd_same. eexists. split; [reflexivity|]. rewrite Ht in Hx. injection Hx as <-. cbn.
      repeat split; auto. destruct (to =? from); lia.
    + rewrite upd_other by auto. destruct (Z.eq_dec k from) as [->|Hk'].
      * rewrite upd_same. eexists. split; [reflexivity|]. rewrite Hf in Hx. injection Hx as <-. cbn. rewrite Z.eqb_refl.
        repeat split; auto; lia.
      * rewrite upd_other by auto. exists x. repeat split; auto. destruct (k =? from); lia.
Qed.
Lemma burn_loses O w prog mint from auth s amt w' : 0 <= amt -> burn w prog mint from auth s amt = Ok w' -> loses O from amt w w'.
Proof.
  intros Ha H. apply burn_inv in H. destruct H as (t & m & _ & Ht & Hm & _ & _ & Mt & Ot & _ & _ & _ & ->).
  intros k x Hx Hox. unfold still_has, on. cbn. destruct (Z.eq_dec k from) as [->|Hk].
  - rewrite upd_same. eexists. split; [reflexivity|]. rewrite Ht in Hx. injection Hx as <-. cbn. rewrite Z.eqb_refl.
    repeat split; auto; try congruence; lia.
  - rewrite upd_other by auto. exists x. repeat split; auto. destruct (k =? from); lia.
Qed.
Lemma close_keeps O w prog acc auth s w' : auth <> O -> close_token_account w prog acc auth s = Ok w' -> keeps O w w'.
Proof.
  intros Ho H. apply close_inv in H. destruct H as (x & _ & Hx & _ & Hox & _ & _ & ->).
  intros k t Ht Hot. cbn. rewrite upd_other by congruence. exists t. repeat split; auto. lia.
Qed.

Section Safe.
Context (D : Derive).

Lemma settle_loses O E w w' A cs cd i j st si so tp :
  0 <= si -> 0 <= so -> 0 <= tp -> mk (sa_pool_state A) = POOL_STATE_ID -> outsider O ->
  settle_facts E w w' A cs cd i j st si so tp ->
  loses O (mk (sa_src_lst_acc A)) si w w' /\ (mk (sa_signer A) <> O -> keeps O w w').
Proof.
  intros Hsi Hso Htp HP (HO & HO') (w1 & w2 & w3 & w4 & ps' & t & _ & _ & _ & T1 & T2 & T3 & S1 & S2 & _).
  apply sync_tok in S1 as (S1 & _). apply sync_tok in S2 as (S2 & _). rewrite HP in *.
  assert (HK : keeps O w1 w').
  { eapply keeps_trans; [eapply transfer_keeps; [exact Htp| |exact T2]; auto|].
    eapply keeps_trans; [eapply transfer_keeps; [exact Hso| |exact T3]; auto|].
    apply keeps_same. congruence. }
  split.
  - replace si with (si + 0) by lia. eapply loses_trans; [eapply transfer_loses; [exact Hsi|exact T1]|apply keeps_loses, HK].
  - intros Hne. eapply keeps_trans; [eapply transfer_keeps; [exact Hsi|exact Hne|exact T1]|exact HK].
Qed.

Lemma process_loses E C w accs ix w' O : base_inv w -> outsider O -> process D E C w accs ix = Ok w' ->
  (signed_by accs O \/ keeps O w w') /\ forall k t, w_tok w k = Some t -> ta_owner t = O -> still_has w' k t (may_take accs ix k).
Proof.
  intros Hb HO H. pose proof HO as (HO1 & HO2). unfold process in H. apply guard_ok in H as (Hwf & H).
  assert (Hkeep : forall i, (forall k, may_take accs i k = 0) -> keeps O w w' ->
    (signed_by accs O \/ keeps O w w') /\
    forall k t, w_tok w k = Some t -> ta_owner t = O -> still_has w' k t (may_take accs i k)).
  { intros i Hz HK. split; [now right|]. intros k t Ht Ho. rewrite Hz. pose proof (keeps_loses O k _ _ HK k t Ht Ho) as Q.
    unfold on in Q. now rewrite Z.eqb_refl in Q. }
  assert (Hsame : forall i, (forall k, may_take accs i k = 0) -> w_tok w' = w_tok w ->
    (signed_by accs O \/ keeps O w w') /\
    forall k t, w_tok w k = Some t -> ta_owner t = O -> still_has w' k t (may_take accs i k)).
  { intros i Hz Ht. apply Hkeep; [exact Hz|]. apply keeps_same, Ht. }
  destruct ix;
  try (match type of H with
       | process_set_lst_input _ _ _ _ = _ => apply set_lst_input_inv in H
       | process_set_admin _ _ = _ => apply set_admin_inv in H
       | process_set_protocol_fee _ _ _ _ = _ => apply set_protocol_fee_inv in H
       | process_set_protocol_fee_beneficiary _ _ = _ => apply set_beneficiary_inv in H
       | process_set_pricing_program _ _ = _ => apply set_pricing_inv in H
       | process_add_disable_pool_authority _ _ = _ => apply add_auth_inv in H
       | process_remove_disable_pool_authority _ _ _ = _ => apply remove_auth_inv in H
       | process_disable_pool _ _ = _ => apply disable_pool_inv in H
       | process_enable_pool _ _ = _ => apply enable_pool_inv in H
       | process_set_rebalance_authority _ _ = _ => apply set_rebalance_authority_inv in H
       | process_initialize _ _ = _ => apply initialize_inv in H
       end;
       repeat match goal with H : exists _, _ |- _ => destruct H end;
       repeat match goal with H : _ /\ _ |- _ => destruct H end; subst w';
       apply Hsame; reflexivity).
  - (* Sync *)
    apply sync_proc_inv in H. repeat match goal with H : exists _, _ |- _ => destruct H end.
    repeat match goal with H : _ /\ _ |- _ => destruct H end.
    match goal with H : sync_sol_value_unchecked _ _ _ _ _ _ _ _ = Ok _ |- _ =>
      apply sync_tok in H as (Ht & Hm & _) end. apply Hsame; auto.
  - (* SwapExactIn *)
    apply swap_exact_in_inv in H; auto. wf Hwf.
    destruct H as (A & cs & cd & cp & ps & l & lsrc & ldst & w1 & w2 & ps2 & in_sol & in_hi & out_sol &
    dst_out & dst_hi & tp & HF & _ & S1 & S2 & Hp2 & I1 & _ & I2 & I3 & _ & _ & Hc & HS).
    destruct HF as (Hacc & _ & _ & Hsg & _ & HP & HL & _).
    unfold sync_src, sync_dst in S1, S2. rewrite HP, HL in *.
    assert (Hb2 : base_inv w2) by eauto using sync_base.
    pose proof (base_pool _ _ Hb2 Hp2) as (_ & Hf & _). dec_invokes. unfold U64 in *.
    apply calc_swap_fees_ok in Hc; try lia.
    apply sync_tok in S1 as (S1 & _). apply sync_tok in S2 as (S2 & _).
    edestruct settle_loses as (L & K); [| | |exact HP|exact HO|exact HS|]; [lia|lia|lia|].
    assert (HK : keeps O w w2) by (apply keeps_same; congruence).
    split.
    + destruct (Z.eq_dec (mk (sa_signer A)) O) as [He|Hne].
      * left. exists (sa_signer A). subst accs. cbn. auto.
      * right. eapply keeps_trans; eauto.
    + cbn [may_take]. pose proof (loses_trans _ _ _ _ _ _ _ (keeps_loses O (mk (sa_src_lst_acc A)) _ _ HK) L) as Q.
      rewrite Z.add_0_l in Q. replace (sw_user_src accs) with (mk (sa_src_lst_acc A)) by (subst accs; reflexivity). exact Q.
  - (* SwapExactOut *)
    apply swap_exact_out_inv in H; auto. wf Hwf.
    destruct H as (A & cs & cd & cp & ps & l & lsrc & ldst & w1 & w2 & ps2 & out_lo & out_sol & in_sol &
    src_lo & src_in & tp & HF & _ & _ & S1 & S2 & Hp2 & I1 & _ & I2 & I3 & Hmax & _ & Hc & HS).
    destruct HF as (Hacc & _ & _ & Hsg & _ & HP & HL & _).
    unfold sync_src, sync_dst in S1, S2. rewrite HP, HL in *.
    assert (Hb2 : base_inv w2) by eauto using sync_base.
    pose proof (base_pool _ _ Hb2 Hp2) as (_ & Hf & _). dec_invokes. unfold U64 in *.
    apply calc_swap_fees_ok in Hc; try lia.
    apply sync_tok in S1 as (S1 & _). apply sync_tok in S2 as (S2 & _).
    edestruct settle_loses as (L & K); [| | |exact HP|exact HO|exact HS|]; [lia|lia|lia|].
    assert (HK : keeps O w w2) by (apply keeps_same; congruence).
    split.
    + destruct (Z.eq_dec (mk (sa_signer A)) O) as [He|Hne].
      * left. exists (sa_signer A). subst accs. cbn. auto.
      * right. eapply keeps_trans; eauto.
    + cbn [may_take]. pose proof (loses_trans _ _ _ _ _ _ _ (keeps_loses O (mk (sa_src_lst_acc A)) _ _ HK) L) as Q.
      apply (loses_more _ _ _ (so_max_amount_in a)) in Q; [|lia].
      replace (sw_user_src accs) with (mk (sa_src_lst_acc A)) by (subst accs; reflexivity). exact Q.
  - (* AddLiquidity *)
    apply add_liquidity_inv in H; auto. wf Hwf.
    destruct H as (A & c & cp & ps & l & ls & w1 & ps1 & lst_sol & lst_hi & af & tr & tp & mi & lp & w2 &
    w3 & w4 & ps' & HF & _ & S1 & Hp1 & I1 & I2 & Haf & Hc & Hmi & Hlp & _ & _ & _ & T1 & T2 & M1 & S2 & _).
    destruct HF as (Hacc & _ & Hsg & _ & HP & HL & _).
    unfold sync_liq in *. rewrite HP, HL in *.
    assert (Hb1 : base_inv w1) by eauto using sync_base.
    pose proof (base_pool _ _ Hb1 Hp1) as (Ht & _ & Hf & _). dec_invokes.
    pose proof (proj2 (base_u64 _ Hb1) _ _ Hmi) as Hs. unfold U64 in *.
    apply calc_add_fees_ok in Hc; try lia. apply lp_to_mint_nonneg in Hlp; try lia.
    apply sync_tok in S1 as (S1 & _). apply sync_tok in S2 as (S2 & _).
    assert (Ha1 : 0 <= tr) by lia. assert (Ha2 : 0 <= tp) by lia.
    assert (HK : keeps O w3 w').
    { eapply keeps_trans; [eapply mint_to_keeps; [|exact M1]; lia|]. apply keeps_same, S2. }
    split.
    + destruct (Z.eq_dec (mk (la_signer A)) O) as [He|Hne].
      * left. exists (la_signer A). subst accs. cbn. auto.
      * right. eapply keeps_trans; [apply keeps_same, S1|].
        eapply keeps_trans; [eapply transfer_keeps; [|exact Hne|exact T1]; lia|].
        eapply keeps_trans; [eapply transfer_keeps; [|exact Hne|exact T2]; lia|]. exact HK.
    + cbn [may_take].
      pose proof (loses_trans _ _ _ _ _ _ _ (loses_trans _ _ _ _ _ _ _ (loses_trans _ _ _ _ _ _ _
        (keeps_loses O _ _ _ (keeps_same O w w1 S1)) (transfer_loses O _ _ _ _ _ _ _ _ _ Ha1 T1))
        (transfer_loses O _ _ _ _ _ _ _ _ _ Ha2 T2)) (keeps_loses O _ _ _ HK)) as Q.
      apply (loses_more _ _ _ (al_lst_amount a)) in Q; [|lia].
      replace (lq_user_lst accs) with (mk (la_lst_acc A)) by (subst accs; reflexivity). exact Q.
  - (* RemoveLiquidity *)
    apply remove_liquidity_inv in H; auto. wf Hwf.
    destruct H as (A & c & cp & ps & l & ls & w1 & ps1 & mi & lp_sol & af & tu & tuh & tp & w2 & w3 & w4 &
    HF & _ & S1 & Hp1 & Hmi & Hlp & I1 & Haf & I2 & Hc & _ & _ & B1 & T1 & T2 & S2).
    destruct HF as (Hacc & _ & Hsg & _ & HP & HL & _).
    unfold sync_liq in *. rewrite HP, HL in *.
    assert (Hb1 : base_inv w1) by eauto using sync_base.
    pose proof (base_pool _ _ Hb1 Hp1) as (Ht & _ & Hf & _). dec_invokes.
    pose proof (proj2 (base_u64 _ Hb1) _ _ Hmi) as Hs. unfold U64 in *.
    apply lp_sol_value_le in Hlp; try lia. apply calc_remove_fees_ok in Hc; try lia.
    apply sync_tok in S1 as (S1 & _). apply sync_tok in S2 as (S2 & _).
    assert (Ha1 : 0 <= rl_lp_token_amount a) by lia.
    assert (HK : keeps O w2 w').
    { eapply keeps_trans; [eapply transfer_keeps; [| |exact T1]; auto; lia|].
      eapply keeps_trans; [eapply transfer_keeps; [| |exact T2]; auto; lia|]. apply keeps_same, S2. }
    split.
    + destruct (Z.eq_dec (mk (la_signer A)) O) as [He|Hne].
      * left. exists (la_signer A). subst accs. cbn. auto.
      * right. eapply keeps_trans; [apply keeps_same, S1|].
        eapply keeps_trans; [eapply burn_keeps; [|exact Hne|exact B1]; lia|]. exact HK.
    + cbn [may_take].
      pose proof (loses_trans _ _ _ _ _ _ _ (loses_trans _ _ _ _ _ _ _
        (keeps_loses O _ _ _ (keeps_same O w w1 S1)) (burn_loses O _ _ _ _ _ _ _ _ Ha1 B1)) (keeps_loses O _ _ _ HK)) as Q.
      apply (loses_more _ _ _ (rl_lp_token_amount a)) in Q; [|lia].
      replace (lq_user_lp accs) with (mk (la_lp_acc A)) by (subst accs; reflexivity). exact Q.
  - (* AddLst *)
    apply Hkeep; [reflexivity|]. apply add_lst_inv in H.
    destruct H as (adm & payer & lst_mint & pr & pfa & pfaa & calc & pst & lsl & ap & sp & ltp & rest &
      ps & l & mi & w1 & w2 & prb & pfb & Hacc & _ & _ & _ & _ & _ & _ & _ & _ & _ & _ & F1 & F2 & _ & _ & _ &
      Hp & _ & Hl & Hni & C1 & C2 & ->).
    eapply keeps_trans; [eapply create_ata_keeps; exact C1|]. eapply keeps_trans; [eapply create_ata_keeps; exact C2|].
    apply keeps_same. reflexivity.
  - (* RemoveLst *)
    apply Hkeep; [reflexivity|]. apply remove_lst_inv in H.
    destruct H as (adm & rf & lm & pr & pfa & pfaa & pst & lsl & ltp & rest & ps & l & ls & tr & tf & w1 &
      w2 & Hacc & _ & _ & _ & _ & _ & _ & _ & _ & _ & Hp & _ & Hl & Hn & _ & _ & _ & Htr & Htf & Hz & Hz1 & Hz2 &
      C1 & C2 & ->).
    eapply keeps_trans; [eapply close_keeps; [|exact C1]; auto|]. eapply keeps_trans; [eapply close_keeps; [|exact C2]; auto|].
    apply keeps_same. reflexivity.
  - (* SetSolValueCalculator *)
    apply set_calculator_inv in H. repeat match goal with H : exists _, _ |- _ => destruct H end.
    repeat match goal with H : _ /\ _ |- _ => destruct H end.
    match goal with H : sync_sol_value_unchecked _ _ _ _ _ _ _ _ = Ok _ |- _ =>
      apply sync_tok in H as (Ht & Hm & _) end. apply Hsame; auto.
  - (* Withdraw *)
    apply Hkeep; [reflexivity|]. wf Hwf.
    apply withdraw_inv in H. destruct H as (b & wt & pf & pfa & tpg & pst & lm & rest & ps & t & tf & Hacc & H).
    decompose [and] H. clear H.
    match goal with H : transfer_checked _ _ _ _ _ _ _ _ = Ok _ |- _ =>
      eapply transfer_keeps; [| |exact H] end; [lia|auto].
  - (* StartRebalance *)
    apply Hkeep; [reflexivity|]. wf Hwf.
    apply start_rebalance_inv in H.
    destruct H as (x1&x2&x3&x4&x5&x6&x7&x8&x9&x10&x11&x12&cs&cd&ps&l&lsrc&ldst&ts&td&w1&w2&ps2&w3&w4&ps4&
      Hacc & _ & _ & _ & _ & _ & _ & _ & _ & Hp & Hac & Hl & _ & Hnd & _ & _ & _ & _ & _ & _ & _ & _ & _ & _ & _ & _ &
      S1 & S2 & Hp2 & T & S3 & Hr4 & Hp4 & ->).
    apply sync_tok in S1 as (S1 & M1 & _). apply sync_tok in S2 as (S2 & M2 & _).
    apply sync_tok in S3 as (S3 & M3 & _).
    eapply keeps_trans; [apply (keeps_same _ w w2); congruence|].
    eapply keeps_trans; [eapply transfer_keeps; [| |exact T]; [lia|auto]|].
    apply keeps_same. cbn. congruence.
  - (* EndRebalance *)
    apply end_rebalance_inv in H.
    destruct H as (x1&x2&x3&x4&x5&x6&c&ps&l&r&ldst&w2&ps2&_&_&_&_&_&_&_&_&_&Hp&_&_&_&_&_&_&_&S&Hp2&_&->).
    apply sync_tok in S as (S & M & _). cbn in S, M. apply Hsame; auto.
Qed.

Context (HD : derive_ok D).

(** Whatever instruction succeeds: a token account that is not the pool's stays, with its mint and owner, and loses nothing
    unless its owner signed; and then at most what the instruction says, from the account it names. *)
Theorem C63_instruction E C w accs ix w' k t : reachable D w -> process D E C w accs ix = Ok w' ->
  w_tok w k = Some t -> outsider (ta_owner t) ->
  still_has w' k t (may_take accs ix k) /\ (~ signed_by accs (ta_owner t) -> still_has w' k t 0).
Proof.
  intros Hr H Ht Ho. destruct (process_loses E C w accs ix w' _ (proj1 (reachable_inv D HD w Hr)) Ho H) as (A & B).
  split; [exact (B k t Ht eq_refl)|]. intros Hn. destruct A as [A|A]; [contradiction|].
  pose proof (keeps_loses _ k _ _ A k t Ht eq_refl) as Q. unfold on in Q. now rewrite Z.eqb_refl in Q.
Qed.
Lemma holder_reachable O k z w0 w : reachable D w0 -> holder_history D O k z w0 w -> reachable D w.
Proof.
  intros Hr H. induction H; [assumption| | |]; destruct (IHholder_history Hr) as (g & Hg & Hs); exists g; split; auto;
    eapply steps_cons; eauto; [eapply step_controller|eapply step_controller|eapply step_external]; eauto.
Qed.
(** Over any history, whoever does what: what is missing at the end is at most the sum of what the owner signed for. *)
Theorem C63_history O k z w0 w t : reachable D w0 -> holder_history D O k z w0 w ->
  w_tok w0 k = Some t -> ta_owner t = O -> outsider O -> still_has w k t z.
Proof.
  intros Hr H Ht Ho Hout. induction H as [w|z w0 w E C accs ix w' H IH Hn Hp Hs|z w0 w E C accs ix w' H IH Hn Hp Hs|z w0 w w' H IH Hx Hk].
  - exists t. repeat split; auto. lia.
  - specialize (IH Hr Ht) as (t1 & Q1 & Q2 & Q3 & Q4).
    assert (Ho1 : ta_owner t1 = O) by congruence. pose proof (holder_reachable _ _ _ _ _ Hr H) as Hw.
    destruct (C63_instruction _ _ _ _ _ _ k t1 Hw Hp Q1 ltac:(now rewrite Ho1)) as ((t2 & ? & ? & ? & ?) & _).
    exists t2. repeat split; auto; try congruence. lia.
  - specialize (IH Hr Ht) as (t1 & Q1 & Q2 & Q3 & Q4).
    assert (Ho1 : ta_owner t1 = O) by congruence. pose proof (holder_reachable _ _ _ _ _ Hr H) as Hw.
    destruct (C63_instruction _ _ _ _ _ _ k t1 Hw Hp Q1 ltac:(now rewrite Ho1)) as (_ & Q).
    destruct Q as (t2 & ? & ? & ? & ?); [now rewrite Ho1|].
    exists t2. repeat split; auto; try congruence. lia.
  - specialize (IH Hr Ht) as (t1 & Q1 & Q2 & Q3 & Q4).
    destruct (Hk t1 Q1 ltac:(congruence)) as (t2 & ? & ? & ? & ?).
    exists t2. repeat split; auto; try congruence. lia.
Qed.
(** In particular who signs nothing keeps everything. *)
Corollary C63_untouched O k w0 w t : reachable D w0 -> holder_history D O k 0 w0 w ->
  w_tok w0 k = Some t -> ta_owner t = O -> outsider O ->
  exists t', w_tok w k = Some t' /\ ta_mint t' = ta_mint t /\ ta_owner t' = O /\ ta_amount t <= ta_amount t'.
Proof.
  intros Hr H Ht Ho Hout. destruct (C63_history O k 0 w0 w t Hr H Ht Ho Hout) as (t' & ? & ? & ? & ?). exists t'.
  repeat split; auto; [congruence|lia].
Qed.
End Safe.

(** ** A history these theorems apply to *)
(** The user swaps twice (signing for 10001 and for at most 9000 tokens of their account [UA]) and redeems; then the
    manager rebalances, which touches the account without the user's signature, and somebody pays into the reserves. *)
Lemma signs accs i m : nth_error accs i = Some m -> is_signer m = true -> signed_by accs (mk m).
Proof. intros H Hs. exists m. split; [eapply nth_error_In, H|auto]. Qed.
Definition signedb (accs : list Meta) (k : key) : bool := existsb (fun m => is_signer m && (mk m =? k)) accs.
Lemma unsigned accs k : signedb accs k = false -> ~ signed_by accs k.
Proof.
  intros H (m & Hi & Hs & Hk). assert (signedb accs k = true); [|congruence]. apply existsb_exists. exists m.
  rewrite Hs, Hk, Z.eqb_refl. auto.
Qed.
Example C63_case :
  reachable D0 W5 /\ holder_history D0 USER UA (10001 + 9000) W5 W11 /\ holder_history D0 USER UA 0 W8 W11 /\
  w_tok W5 UA = Some (mkTok MA USER 9000000) /\ w_tok W8 UA = Some (mkTok MA USER 8983936) /\
  w_tok W11 UA = Some (mkTok MA USER 8993936) /\ outsider USER.
Proof.
  assert (HW : forall z w, holder_history D0 USER UA z w W8 -> holder_history D0 USER UA z w W11).
  { intros z w H. eapply (hold_unsigned D0 USER UA z w W10 E0 (reb_ctx 1) end_accs EndRebalance).
    - eapply (hold_outside D0 USER UA z w W9).
      + eapply (hold_unsigned D0 USER UA z w W8 E0 (reb_ctx 0) start_accs (StartRebalance start_args)); [exact H| | |].
        * apply pdas_do_not_signb_ok. vm_compute. reflexivity.
        * unfold W9, R9. apply okb_get. vm_compute. reflexivity.
        * apply unsigned. vm_compute. reflexivity.
      + eapply (transfer_external D0 W9 SPL_TOKEN_2022_ID UB RB MB USER true 5000); [| |lia| |].
        * apply base_u64. exact (proj1 (reachable_inv D0 D0_ok _ W9_reach)).
        * exact (proj1 (reachable_ata D0 D0_ok _ W9_reach)).
        * unfold USER. cbn. unfold POOL_STATE_ID, LST_STATE_LIST_ID, DISABLE_POOL_AUTHORITY_LIST_ID,
            REBALANCE_RECORD_ID, PROTOCOL_FEE_ID. intuition lia.
        * unfold W10, R10. apply okb_get. vm_compute. reflexivity.
      + intros t Ht _.
        assert (Q9 : w_tok W9 UA = Some (mkTok MA USER 8993936)) by (vm_compute; reflexivity).
        assert (Q10 : w_tok W10 UA = Some (mkTok MA USER 8993936)) by (vm_compute; reflexivity).
        exists (mkTok MA USER 8993936). rewrite Q9 in Ht. assert (mkTok MA USER 8993936 = t) as <- by congruence.
        split; [exact Q10|]. cbn. repeat split; auto. lia.
    - apply pdas_do_not_signb_ok. vm_compute. reflexivity.
    - unfold W11, R11. apply okb_get. vm_compute. reflexivity.
    - apply unsigned. vm_compute. reflexivity. }
  assert (H6 : holder_history D0 USER UA 10001 W5 W6).
  { replace 10001 with (0 + may_take swap_accs (SwapExactIn swap_in_args) UA) by (vm_compute; reflexivity).
    eapply (hold_signed D0 USER UA 0 W5 W5 E0 C0 swap_accs (SwapExactIn swap_in_args)); [apply hold_start| | |].
    - apply pdas_do_not_signb_ok. vm_compute. reflexivity.
    - unfold W6, R6. apply okb_get. vm_compute. reflexivity.
    - apply (signs swap_accs 0 (sg USER)); reflexivity. }
  assert (H7 : holder_history D0 USER UA (10001 + 9000) W5 W7).
  { replace 9000 with (may_take swap_accs (SwapExactOut swap_out_args) UA) by (vm_compute; reflexivity).
    eapply (hold_signed D0 USER UA 10001 W5 W6 E0 C0 swap_accs (SwapExactOut swap_out_args)); [exact H6| | |].
    - apply pdas_do_not_signb_ok. vm_compute. reflexivity.
    - unfold W7, R7. apply okb_get. vm_compute. reflexivity.
    - apply (signs swap_accs 0 (sg USER)); reflexivity. }
  assert (H8 : holder_history D0 USER UA (10001 + 9000) W5 W8).
  { replace (10001 + 9000) with (10001 + 9000 + may_take (liq_accs MB UB FB SPL_TOKEN_2022_ID RB CB) (RemoveLiquidity rem_args) UA)
      by (vm_compute; reflexivity).
    eapply (hold_signed D0 USER UA (10001 + 9000) W5 W7 E0 C0 (liq_accs MB UB FB SPL_TOKEN_2022_ID RB CB) (RemoveLiquidity rem_args));
      [exact H7| | |].
    - apply pdas_do_not_signb_ok. vm_compute. reflexivity.
    - unfold W8, R8. apply okb_get. vm_compute. reflexivity.
    - apply (signs (liq_accs MB UB FB SPL_TOKEN_2022_ID RB CB) 0 (sg USER)); reflexivity. }
  split; [exact W5_reach|]. split; [apply HW, H8|]. split; [apply HW, hold_start|].
  do 3 (split; [vm_compute; reflexivity|]). split; unfold USER, POOL_STATE_ID, PROTOCOL_FEE_ID; lia.
Qed.
