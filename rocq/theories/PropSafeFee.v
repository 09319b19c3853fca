(** C63 for LSTs that charge for transfers: what leaves an account is what was signed for, fees or not. *)
From Coq Require Import ZArith List Bool Lia.
From Verif Require Import Base Ratio Calc State Controller Inversion ProcInv Spec CalcProofs InvProofs TokProofs ShapeProofs
  Concrete ConcreteReach Fee FeeSpec FeeProofs PropFee SafeSpec PropSafe.
Import ListNotations.
Open Scope Z_scope.

Section SafeFee.
Context (D : Derive) (F : key -> Z -> Z) (HF0 : fee_fun F).

Lemma withheld_le prog m a : 0 <= a -> 0 <= withheld F prog m a <= a.
Proof. intros H. unfold withheld. destruct (prog =? SPL_TOKEN_2022_ID); [now apply HF0|lia]. Qed.
Lemma transfer_keeps_f O w prog from to mint auth s amt w' : 0 <= amt -> auth <> O ->
  transfer_fee F w prog from to mint auth s amt = Ok w' -> keeps O w w'.
Proof.
  intros Ha HO H. apply transfer_inv_f in H. pose proof (withheld_le prog mint amt Ha) as Hw.
  destruct H as (f & t & m & _ & Hf & Ht & _ & _ & _ & _ & Mf & Mt & Of & _ & Hle & [(_ & ->)|(Hne & Hm & ->)]).
  - apply keeps_refl.
  - intros k x Hx Hox. cbn. destruct (Z.eq_dec k to) as [->|Hk].
    + rewrite upd_same. eexists. split; [reflexivity|]. rewrite Ht in Hx. injection Hx as <-. cbn.
      repeat split; auto. lia.
    + rewrite upd_other by auto. destruct (Z.eq_dec k from) as [->|Hk'].
      * rewrite Hf in Hx. injection Hx as <-. congruence.
      * rewrite upd_other by auto. exists x. repeat split; auto. lia.
Qed.
Lemma transfer_loses_f O w prog from to mint auth s amt w' : 0 <= amt ->
  transfer_fee F w prog from to mint auth s amt = Ok w' -> loses O from amt w w'.
Proof.
  intros Ha H. apply transfer_inv_f in H. pose proof (withheld_le prog mint amt Ha) as Hw.
  destruct H as (f & t & m & _ & Hf & Ht & _ & _ & _ & _ & Mf & Mt & Of & _ & Hle & [(_ & ->)|(Hne & Hm & ->)]).
  - apply (loses_more _ _ 0); [lia|]. apply keeps_loses, keeps_refl.
  - intros k x Hx Hox. unfold still_has, on. cbn. destruct (Z.eq_dec k to) as [->|Hk].
    + rewrite upd_same. eexists. split; [reflexivity|]. rewrite Ht in Hx. injection Hx as <-. cbn.
      repeat split; auto. destruct (to =? from); lia.
    + rewrite upd_other by auto. destruct (Z.eq_dec k from) as [->|Hk'].
      * rewrite upd_same. eexists. split; [reflexivity|]. rewrite Hf in Hx. injection Hx as <-. cbn. rewrite Z.eqb_refl.
        repeat split; auto; lia.
      * rewrite upd_other by auto. exists x. repeat split; auto. destruct (k =? from); lia.
Qed.
Lemma settle_loses_f O E w w' A cs cd i j st si so tp :
  0 <= si -> 0 <= so -> 0 <= tp -> mk (sa_pool_state A) = POOL_STATE_ID -> outsider O ->
  settle_facts_f F E w w' A cs cd i j st si so tp ->
  loses O (mk (sa_src_lst_acc A)) si w w' /\ (mk (sa_signer A) <> O -> keeps O w w').
Proof.
  intros Hsi Hso Htp HP (HO & HO') (w1 & w2 & w3 & w4 & ps' & t & _ & _ & _ & T1 & T2 & T3 & S1 & S2 & _).
  apply sync_tok in S1 as (S1 & _). apply sync_tok in S2 as (S2 & _). rewrite HP in *.
  assert (HK : keeps O w1 w').
  { eapply keeps_trans; [eapply transfer_keeps_f; [exact Htp| |exact T2]; auto|].
    eapply keeps_trans; [eapply transfer_keeps_f; [exact Hso| |exact T3]; auto|].
    apply keeps_same. congruence. }
  split.
  - replace si with (si + 0) by lia. eapply loses_trans; [eapply transfer_loses_f; [exact Hsi|exact T1]|apply keeps_loses, HK].
  - intros Hne. eapply keeps_trans; [eapply transfer_keeps_f; [exact Hsi|exact Hne|exact T1]|exact HK].
Qed.


Lemma process_loses_f E C w accs ix w' O : base_inv w -> outsider O -> process_f D F E C w accs ix = Ok w' ->
  (signed_by accs O \/ keeps O w w') /\ forall k t, w_tok w k = Some t -> ta_owner t = O -> still_has w' k t (may_take accs ix k).
Proof.
  intros Hb HO H. pose proof HO as (HO1 & HO2). unfold process_f in H. apply guard_ok in H as (Hwf & H).
  assert (Hkeep : forall i, (forall k, may_take accs i k = 0) -> keeps O w w' ->
    (signed_by accs O \/ keeps O w w') /\
    forall k t, w_tok w k = Some t -> ta_owner t = O -> still_has w' k t (may_take accs i k)).
  { intros i Hz HK. split; [now right|]. intros k t Ht Ho. rewrite Hz. pose proof (keeps_loses O k _ _ HK k t Ht Ho) as Q.
    unfold on in Q. now rewrite Z.eqb_refl in Q. }
  destruct ix; try exact (process_loses D E C w accs _ w' O Hb HO H).
  - (* SwapExactIn *)
    apply swap_exact_in_inv_f in H; auto. wf Hwf.
    destruct H as (A & cs & cd & cp & ps & l & lsrc & ldst & w1 & w2 & ps2 & in_sol & in_hi & out_sol &
    dst_out & dst_hi & tp & HF & _ & S1 & S2 & Hp2 & I1 & _ & I2 & I3 & _ & _ & Hc & HS).
    destruct HF as (Hacc & _ & _ & Hsg & _ & HP & HL & _).
    unfold sync_src, sync_dst in S1, S2. rewrite HP, HL in *.
    assert (Hb2 : base_inv w2) by eauto using sync_base.
    pose proof (base_pool _ _ Hb2 Hp2) as (_ & Hf & _). dec_invokes. unfold U64 in *.
    apply calc_swap_fees_ok in Hc; try lia.
    apply sync_tok in S1 as (S1 & _). apply sync_tok in S2 as (S2 & _).
    edestruct settle_loses_f as (L & K); [| | |exact HP|exact HO|exact HS|]; [lia|lia|lia|].
    assert (HK : keeps O w w2) by (apply keeps_same; congruence).
    split.
    + destruct (Z.eq_dec (mk (sa_signer A)) O) as [He|Hne].
      * left. exists (sa_signer A). subst accs. cbn. auto.
      * right. eapply keeps_trans; eauto.
    + cbn [may_take]. pose proof (loses_trans _ _ _ _ _ _ _ (keeps_loses O (mk (sa_src_lst_acc A)) _ _ HK) L) as Q.
      rewrite Z.add_0_l in Q. replace (sw_user_src accs) with (mk (sa_src_lst_acc A)) by (subst accs; reflexivity). exact Q.
  - (* SwapExactOut *)
    apply swap_exact_out_inv_f in H; auto. wf Hwf.
    destruct H as (A & cs & cd & cp & ps & l & lsrc & ldst & w1 & w2 & ps2 & out_lo & out_sol & in_sol &
    src_lo & src_in & tp & HF & _ & _ & S1 & S2 & Hp2 & I1 & _ & I2 & I3 & Hmax & _ & Hc & HS).
    destruct HF as (Hacc & _ & _ & Hsg & _ & HP & HL & _).
    unfold sync_src, sync_dst in S1, S2. rewrite HP, HL in *.
    assert (Hb2 : base_inv w2) by eauto using sync_base.
    pose proof (base_pool _ _ Hb2 Hp2) as (_ & Hf & _). dec_invokes. unfold U64 in *.
    apply calc_swap_fees_ok in Hc; try lia.
    apply sync_tok in S1 as (S1 & _). apply sync_tok in S2 as (S2 & _).
    edestruct settle_loses_f as (L & K); [| | |exact HP|exact HO|exact HS|]; [lia|lia|lia|].
    assert (HK : keeps O w w2) by (apply keeps_same; congruence).
    split.
    + destruct (Z.eq_dec (mk (sa_signer A)) O) as [He|Hne].
      * left. exists (sa_signer A). subst accs. cbn. auto.
      * right. eapply keeps_trans; eauto.
    + cbn [may_take]. pose proof (loses_trans _ _ _ _ _ _ _ (keeps_loses O (mk (sa_src_lst_acc A)) _ _ HK) L) as Q.
      apply (loses_more _ _ _ (so_max_amount_in a)) in Q; [|lia].
      replace (sw_user_src accs) with (mk (sa_src_lst_acc A)) by (subst accs; reflexivity). exact Q.
  - (* AddLiquidity *)
    apply add_liquidity_inv_f in H; auto. wf Hwf.
    destruct H as (A & c & cp & ps & l & ls & w1 & ps1 & lst_sol & lst_hi & af & tr & tp & mi & lp & w2 &
    w3 & w4 & ps' & HF & _ & S1 & Hp1 & I1 & I2 & Haf & Hc & Hmi & Hlp & _ & _ & _ & T1 & T2 & M1 & S2 & _).
    destruct HF as (Hacc & _ & Hsg & _ & HP & HL & _).
    unfold sync_liq in *. rewrite HP, HL in *.
    assert (Hb1 : base_inv w1) by eauto using sync_base.
    pose proof (base_pool _ _ Hb1 Hp1) as (Ht & _ & Hf & _). dec_invokes.
    pose proof (proj2 (base_u64 _ Hb1) _ _ Hmi) as Hs. unfold U64 in *.
    apply calc_add_fees_ok in Hc; try lia. apply lp_to_mint_nonneg in Hlp; try lia.
    apply sync_tok in S1 as (S1 & _). apply sync_tok in S2 as (S2 & _).
    assert (Ha1 : 0 <= tr) by lia. assert (Ha2 : 0 <= tp) by lia.
    assert (HK : keeps O w3 w').
    { eapply keeps_trans; [eapply mint_to_keeps; [|exact M1]; lia|]. apply keeps_same, S2. }
    split.
    + destruct (Z.eq_dec (mk (la_signer A)) O) as [He|Hne].
      * left. exists (la_signer A). subst accs. cbn. auto.
      * right. eapply keeps_trans; [apply keeps_same, S1|].
        eapply keeps_trans; [eapply transfer_keeps_f; [|exact Hne|exact T1]; lia|].
        eapply keeps_trans; [eapply transfer_keeps_f; [|exact Hne|exact T2]; lia|]. exact HK.
    + cbn [may_take].
      pose proof (loses_trans _ _ _ _ _ _ _ (loses_trans _ _ _ _ _ _ _ (loses_trans _ _ _ _ _ _ _
        (keeps_loses O _ _ _ (keeps_same O w w1 S1)) (transfer_loses_f O _ _ _ _ _ _ _ _ _ Ha1 T1))
        (transfer_loses_f O _ _ _ _ _ _ _ _ _ Ha2 T2)) (keeps_loses O _ _ _ HK)) as Q.
      apply (loses_more _ _ _ (al_lst_amount a)) in Q; [|lia].
      replace (lq_user_lst accs) with (mk (la_lst_acc A)) by (subst accs; reflexivity). exact Q.
  - (* RemoveLiquidity *)
    apply remove_liquidity_inv_f in H; auto. wf Hwf.
    destruct H as (A & c & cp & ps & l & ls & w1 & ps1 & mi & lp_sol & af & tu & tuh & tp & w2 & w3 & w4 &
    HF & _ & S1 & Hp1 & Hmi & Hlp & I1 & Haf & I2 & Hc & _ & _ & B1 & T1 & T2 & S2).
    destruct HF as (Hacc & _ & Hsg & _ & HP & HL & _).
    unfold sync_liq in *. rewrite HP, HL in *.
    assert (Hb1 : base_inv w1) by eauto using sync_base.
    pose proof (base_pool _ _ Hb1 Hp1) as (Ht & _ & Hf & _). dec_invokes.
    pose proof (proj2 (base_u64 _ Hb1) _ _ Hmi) as Hs. unfold U64 in *.
    apply lp_sol_value_le in Hlp; try lia. apply calc_remove_fees_ok in Hc; try lia.
    apply sync_tok in S1 as (S1 & _). apply sync_tok in S2 as (S2 & _).
    assert (Ha1 : 0 <= rl_lp_token_amount a) by lia.
    assert (HK : keeps O w2 w').
    { eapply keeps_trans; [eapply transfer_keeps_f; [| |exact T1]; auto; lia|].
      eapply keeps_trans; [eapply transfer_keeps_f; [| |exact T2]; auto; lia|]. apply keeps_same, S2. }
    split.
    + destruct (Z.eq_dec (mk (la_signer A)) O) as [He|Hne].
      * left. exists (la_signer A). subst accs. cbn. auto.
      * right. eapply keeps_trans; [apply keeps_same, S1|].
        eapply keeps_trans; [eapply burn_keeps; [|exact Hne|exact B1]; lia|]. exact HK.
    + cbn [may_take].
      pose proof (loses_trans _ _ _ _ _ _ _ (loses_trans _ _ _ _ _ _ _
        (keeps_loses O _ _ _ (keeps_same O w w1 S1)) (burn_loses O _ _ _ _ _ _ _ _ Ha1 B1)) (keeps_loses O _ _ _ HK)) as Q.
      apply (loses_more _ _ _ (rl_lp_token_amount a)) in Q; [|lia].
      replace (lq_user_lp accs) with (mk (la_lp_acc A)) by (subst accs; reflexivity). exact Q.
  - (* Withdraw *)
    apply Hkeep; [reflexivity|]. wf Hwf.
    apply withdraw_inv_f in H. destruct H as (b & wt & pf & pfa & tpg & pst & lm & rest & ps & t & tf & Hacc & H).
    decompose [and] H. clear H.
    match goal with H : transfer_fee _ _ _ _ _ _ _ _ _ = Ok _ |- _ =>
      eapply transfer_keeps_f; [| |exact H] end; [lia|auto].
  - (* StartRebalance *)
    apply Hkeep; [reflexivity|]. wf Hwf.
    apply start_rebalance_inv_f in H.
    destruct H as (x1&x2&x3&x4&x5&x6&x7&x8&x9&x10&x11&x12&cs&cd&ps&l&lsrc&ldst&ts&td&w1&w2&ps2&w3&w4&ps4&
      Hacc & _ & _ & _ & _ & _ & _ & _ & _ & Hp & Hac & Hl & _ & Hnd & _ & _ & _ & _ & _ & _ & _ & _ & _ & _ & _ & _ &
      S1 & S2 & Hp2 & T & S3 & Hr4 & Hp4 & ->).
    apply sync_tok in S1 as (S1 & M1 & _). apply sync_tok in S2 as (S2 & M2 & _).
    apply sync_tok in S3 as (S3 & M3 & _).
    eapply keeps_trans; [apply (keeps_same _ w w2); congruence|].
    eapply keeps_trans; [eapply transfer_keeps_f; [| |exact T]; [lia|auto]|].
    apply keeps_same. cbn. congruence.
Qed.

Context (HD : derive_ok D).
Theorem C63_fees E C w accs ix w' k t : fee_reachable D F w -> process_f D F E C w accs ix = Ok w' ->
  w_tok w k = Some t -> outsider (ta_owner t) ->
  still_has w' k t (may_take accs ix k) /\ (~ signed_by accs (ta_owner t) -> still_has w' k t 0).
Proof.
  intros Hr H Ht Ho. pose proof (proj1 (proj1 (fee_reachable_inv D F HF0 HD w Hr))) as Hb.
  destruct (process_loses_f E C w accs ix w' _ Hb Ho H) as (A & B).
  split; [exact (B k t Ht eq_refl)|]. intros Hn. destruct A as [A|A]; [contradiction|].
  pose proof (keeps_loses _ k _ _ A k t Ht eq_refl) as Q. unfold on in Q. now rewrite Z.eqb_refl in Q.
Qed.
End SafeFee.

(** Concrete.v's user deposits the LST that charges for transfers: the account loses exactly the amount signed for. *)
Example C63_fees_case :
  fee_reachable D0 F1 G4 /\ process_f D0 F1 E0 C0 G4 (liq_accs MB UB FB SPL_TOKEN_2022_ID RB CB) (AddLiquidity add_args_b) = Ok G5 /\
  w_tok G4 UB = Some (mkTok MB USER 10000000) /\ outsider USER /\
  signed_by (liq_accs MB UB FB SPL_TOKEN_2022_ID RB CB) USER /\
  may_take (liq_accs MB UB FB SPL_TOKEN_2022_ID RB CB) (AddLiquidity add_args_b) UB = 500000 /\
  w_tok G5 UB = Some (mkTok MB USER 9500000) /\ balance G5 RB = 449550.
Proof.
  split; [exact G4_reach|]. split; [exact Q5_run|]. split; [vm_compute; reflexivity|].
  split; [split; unfold USER, POOL_STATE_ID, PROTOCOL_FEE_ID; lia|].
  split; [apply (signs (liq_accs MB UB FB SPL_TOKEN_2022_ID RB CB) 0 (sg USER)); reflexivity|].
  split; [vm_compute; reflexivity|]. split; [vm_compute; reflexivity|]. vm_compute. reflexivity.
Qed.
