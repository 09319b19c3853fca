(** C53: instances of the rules, and the one thing the tool's withdraw-protocol-fees command refuses although it says it
    would do it. *)
From Coq Require Import ZArith List Bool Lia.
From Verif Require Import Base State Controller Spec InvProofs AccessProofs Concrete ConcreteReach Serde Client ClientSpec
  ClientProofs AdminSpec PropAdmin CliAdmin CliAdminSpec PropCliAdmin.
Import ListNotations.
Open Scope Z_scope.

(** withdraw_protocol_fees.rs:97-103 computes the payer's associated account with the beneficiary's key: asked to send
    fees to the payer's associated account, not yet created, it refuses unless the payer is the beneficiary. Creating
    that account and sending the same instruction would go through. *)
Theorem C53_payer_account D E C w payer ps m mi f tf a : derive_ok D -> reachable D w ->
  the_pool w = Some ps -> running ps -> payer <> protocol_fee_beneficiary ps ->
  w_owner w m = SPL_TOKEN_ID \/ w_owner w m = SPL_TOKEN_2022_ID -> w_mint w m = Some mi ->
  f = accumulator_key D w m -> w_tok w f = Some tf -> 0 <= a <= ta_amount tf ->
  w_tok w (fst (d_find D payer (w_owner w m) m)) = None -> w_mint w (fst (d_find D payer (w_owner w m) m)) = None ->
  (forall w', command D E C w payer (protocol_fee_beneficiary ps)
                (CWithdrawFees m (w_owner w m) (Some (fst (d_find D payer (w_owner w m) m))) (Some a)) <> Ok w') /\
  exists w1 w2, create_ata_account w (fst (d_find D payer (w_owner w m) m)) payer m (w_owner w m) = Ok w1 /\
    command D E C w1 payer (protocol_fee_beneficiary ps)
      (CWithdrawFees m (w_owner w m) (Some (fst (d_find D payer (w_owner w m) m))) (Some a)) = Ok w2 /\
    balance w2 (fst (d_find D payer (w_owner w m) m)) = a.
Proof.
  intros HD HR Hps Hrun Hne Htp Hmi Hf Htf Ha Hto Hmo. set (auth := protocol_fee_beneficiary ps) in *.
  set (to := fst (d_find D payer (w_owner w m) m)) in *.
  assert (Hd : to <> fst (d_find D auth (w_owner w m) m)).
  { intros Heq. destruct HD as (Hfd & Hi & _). pose proof (Hfd payer (w_owner w m) m) as H1. pose proof (Hfd auth (w_owner w m) m) as H2.
    fold to in H1. rewrite <- Heq in H2. destruct (Hi _ _ _ _ _ _ _ _ _ H1 H2) as (X & _). exact (Hne X). }
  assert (Ht : cmd_typed (CWithdrawFees m (w_owner w m) (Some to) (Some a))).
  { cbn. intros x [= <-]. destruct (reachable_inv D HD w HR) as ((l & au & _ & _ & _ & _ & _ & (U1 & _) & _) & _).
    pose proof (U1 _ _ Htf) as (U & V). lia. }
  split.
  - intros w' H. destruct (C53_only D E C w payer auth _ w' HD HR Ht H) as (ch & R & _).
    inversion R; subst; [congruence|]. match goal with X : _ \/ _ |- _ => destruct X; congruence end.
  - set (w1 := put_owner (put_tok w to (Some (mkTok m payer 0))) to (w_owner w m)).
    assert (Hcr : create_ata_account w to payer m (w_owner w m) = Ok w1).
    { unfold create_ata_account. rewrite (proj2 (token_prog_cases _) Htp). cbn [guard]. rewrite Hto, Hmi, Z.eqb_refl. reflexivity. }
    destruct (create_reach D w to payer m _ w1 HD HR eq_refl Hmo Hcr) as (R1 & _).
    assert (Hmt : m <> to) by congruence. assert (Hft : f <> to) by congruence.
    assert (Ho1 : w_owner w1 m = w_owner w m) by (unfold w1; cbn [w_owner put_owner]; now rewrite upd_other).
    assert (Ht1 : w_tok w1 to = Some (mkTok m payer 0)) by (unfold w1; cbn [w_tok put_owner put_tok]; now rewrite upd_same).
    assert (Ht2 : w_owner w1 to = w_owner w m) by (unfold w1; cbn [w_owner put_owner put_tok]; now rewrite upd_same).
    assert (Hf1 : w_tok w1 f = Some tf) by (unfold w1; cbn [w_tok put_owner put_tok]; now rewrite upd_other).
    assert (Hk1 : f = accumulator_key D w1 m) by (unfold accumulator_key; rewrite Ho1; exact Hf).
    pose proof (does_withdraw D E w1 payer auth ps m (Some to) to (mkTok m payer 0) f tf mi (Some a) a Hps eq_refl Hrun eq_refl Ht1 eq_refl) as R.
    rewrite Ho1 in R. specialize (R Ht2 Htp Hmi Hk1 Hf1 eq_refl (proj2 Ha)). cbn [ta_amount ta_owner] in R.
    rewrite (proj2 (Z.eqb_neq _ _) Hft), Z.add_0_l in R. specialize (R (or_intror (proj2 (Ht a eq_refl)))).
    destruct (C53_goes_through D E C w1 payer auth _ _ HD R1 Ht R) as (w2 & Hc & A). exists w1, w2. split; [exact Hcr|]. split; [exact Hc|].
    unfold balance. rewrite (ap_tok _ _ _ A). unfold over. cbn [ch_tok find fst snd]. rewrite (proj2 (Z.eqb_neq _ _) Hft), Z.eqb_refl. reflexivity.
Qed.

(* ------------------------------------------------------------------ *)
(** * Every command has an instance in the example history *)
Definition cli_cases : list (World * key * key * Cmd) :=
  [(W0, PAYER, ADMIN, CInit LP);
   (W9, PAYER, ADMIN, CSetAdmin USER);
   (W14, PAYER, ADMIN, CSetProtocolFee (Some 10000) None);
   (W14, PAYER, ADMIN, CSetBeneficiary USER);
   (W14, ADMIN, ADMIN, CSetPricing CA);
   (W14, PAYER, REBALANCER, CSetRebalanceAuth USER);
   (W11, PAYER, ADMIN, CAddDisableAuth USER);
   (W12, PAYER, USER, CRemoveDisableAuth None USER);
   (W12, PAYER, ADMIN, CRemoveDisableAuth (Some UA) USER);
   (W12, USER, USER, CDisablePool);
   (W13, PAYER, ADMIN, CEnablePool);
   (W15, PAYER, ADMIN, CDisableInput MB);
   (W16, PAYER, ADMIN, CEnableInput MB);
   (W1, PAYER, ADMIN, CAddLst MA CA);
   (W2, PAYER, ADMIN, CAddLst MB CB);
   (W2, PAYER, ADMIN, CRemoveLst None MA);
   (W8, PAYER, ADMIN, CSetCalculator MA CB [UA; UB]);
   (W14, PAYER, ADMIN, CWithdrawFees MB SPL_TOKEN_2022_ID (Some BF) (Some 5));
   (W14, PAYER, ADMIN, CWithdrawFees MB SPL_TOKEN_2022_ID None None)].

Lemma cli_cases_ok : forallb (fun '(w, p, a, c) => okb (command D0 E0 C0 w p a c)) cli_cases = true.
Proof. vm_compute. reflexivity. Qed.
Ltac typed := cbn [snd cmd_typed]; repeat match goal with |- True => exact I | |- _ /\ _ => split | |- forall x, Some _ = Some x -> _ => intros ? X; injection X as <-; unfold U64_MAX; lia | |- forall x, None = Some x -> _ => intros ? X; discriminate X end.
Lemma cli_cases_reach : Forall (fun c => reachable D0 (fst (fst (fst c))) /\ cmd_typed (snd c)) cli_cases.
Proof.
  unfold cli_cases.
  apply Forall_cons; [split; [exact W0_reach|exact I]|].
  apply Forall_cons; [split; [exact W9_reach|typed]|].
  apply Forall_cons; [split; [exact W14_reach|typed]|].
  apply Forall_cons; [split; [exact W14_reach|typed]|].
  apply Forall_cons; [split; [exact W14_reach|typed]|].
  apply Forall_cons; [split; [exact W14_reach|typed]|].
  apply Forall_cons; [split; [exact W11_reach|typed]|].
  apply Forall_cons; [split; [exact W12_reach|typed]|].
  apply Forall_cons; [split; [exact W12_reach|typed]|].
  apply Forall_cons; [split; [exact W12_reach|typed]|].
  apply Forall_cons; [split; [exact W13_reach|typed]|].
  apply Forall_cons; [split; [exact W15_reach|typed]|].
  apply Forall_cons; [split; [exact W16_reach|typed]|].
  apply Forall_cons; [split; [exact W1_reach|typed]|].
  apply Forall_cons; [split; [exact W2_reach|typed]|].
  apply Forall_cons; [split; [exact W2_reach|typed]|].
  apply Forall_cons; [split; [exact W8_reach|typed]|].
  apply Forall_cons; [split; [exact W14_reach|typed]|].
  apply Forall_cons; [split; [exact W14_reach|typed]|].
  apply Forall_nil.
Qed.
Example C53_case w p a c : In (w, p, a, c) cli_cases ->
  exists w' ch, command D0 E0 C0 w p a c = Ok w' /\ cmd_rule D0 E0 w p a c ch /\ applied w ch w'.
Proof.
  intros Hin. pose proof (proj1 (Forall_forall _ _) cli_cases_reach _ Hin) as (HR & Ht). cbn [fst snd] in HR, Ht.
  pose proof cli_cases_ok as H. rewrite forallb_forall in H. specialize (H _ Hin). cbv beta iota in H. apply okb_get in H.
  exists (get (command D0 E0 C0 w p a c)). destruct (C53_only D0 E0 C0 w p a c _ D0_ok HR Ht H) as (ch & R & A). exists ch. auto.
Qed.
(** The same commands by somebody else, with a key too many, or in the wrong state, are refused. *)
Example C53_case_refused : forallb (fun '(w, p, a, c) => negb (okb (command D0 E0 C0 w p a c)))
  [(W0, PAYER, USER, CInit LP);
   (W1, PAYER, ADMIN, CInit LP);
   (W9, PAYER, USER, CSetAdmin USER);
   (W9, PAYER, ADMIN, CSetProtocolFee (Some 1) None);
   (W14, PAYER, ADMIN, CSetProtocolFee (Some 10001) None);
   (W14, PAYER, ADMIN, CSetPricing USER);
   (W12, PAYER, USER, CAddDisableAuth PAYER);
   (W12, PAYER, ADMIN, CAddDisableAuth USER);
   (W12, PAYER, USER, CRemoveDisableAuth None ADMIN);
   (W9, PAYER, ADMIN, CDisablePool);
   (W12, PAYER, ADMIN, CEnablePool);
   (W15, PAYER, USER, CDisableInput MB);
   (W16, PAYER, USER, CEnableInput MB);
   (W2, PAYER, ADMIN, CAddLst MA CA);
   (W2, PAYER, USER, CRemoveLst None MA);
   (W8, PAYER, ADMIN, CRemoveLst None MA);
   (W8, PAYER, ADMIN, CSetCalculator MA USER []);
   (W14, PAYER, USER, CWithdrawFees MB SPL_TOKEN_2022_ID (Some BF) (Some 5));
   (W14, PAYER, ADMIN, CWithdrawFees MB SPL_TOKEN_ID (Some BF) (Some 5));
   (W14, PAYER, ADMIN, CWithdrawFees MB SPL_TOKEN_2022_ID (Some UA) (Some 5))] = true.
Proof. vm_compute. reflexivity. Qed.
(** The payer's associated account of the Token-2022 LST does not exist after the fourteenth step. *)
Example C53_payer_account_case :
  (forall w', command D0 E0 C0 W14 PAYER ADMIN (CWithdrawFees MB SPL_TOKEN_2022_ID (Some (addr PAYER SPL_TOKEN_2022_ID MB)) (Some 5)) <> Ok w') /\
  exists w1 w2, create_ata_account W14 (addr PAYER SPL_TOKEN_2022_ID MB) PAYER MB SPL_TOKEN_2022_ID = Ok w1 /\
    command D0 E0 C0 w1 PAYER ADMIN (CWithdrawFees MB SPL_TOKEN_2022_ID (Some (addr PAYER SPL_TOKEN_2022_ID MB)) (Some 5)) = Ok w2 /\
    balance w2 (addr PAYER SPL_TOKEN_2022_ID MB) = 5.
Proof.
  assert (Hp : match the_pool W14, w_mint W14 MB, w_tok W14 FB with
    | Some ps, Some mi, Some tf => (is_rebalancing ps =? 0) && (is_disabled ps =? 0) && (protocol_fee_beneficiary ps =? ADMIN) && (5 <=? ta_amount tf)
    | _, _, _ => false end = true) by (vm_compute; reflexivity).
  destruct (the_pool W14) as [ps|] eqn:Hps; [|discriminate Hp]. destruct (w_mint W14 MB) as [mi|] eqn:Hmi; [|discriminate Hp].
  destruct (w_tok W14 FB) as [tf|] eqn:Htf; [|discriminate Hp]. apply andb_true_iff in Hp as (Hp & H4).
  apply andb_true_iff in Hp as (Hp & H3). apply andb_true_iff in Hp as (H1 & H2). apply Z.eqb_eq in H1, H2, H3. apply Z.leb_le in H4.
  assert (Ho : w_owner W14 MB = SPL_TOKEN_2022_ID) by (vm_compute; reflexivity).
  rewrite <- H3, <- Ho. change (addr PAYER (w_owner W14 MB) MB) with (fst (d_find D0 PAYER (w_owner W14 MB) MB)).
  assert (Hr : running ps) by (split; assumption).
  assert (Hne : PAYER <> protocol_fee_beneficiary ps) by (rewrite H3; discriminate).
  assert (Htp : w_owner W14 MB = SPL_TOKEN_ID \/ w_owner W14 MB = SPL_TOKEN_2022_ID) by (right; exact Ho).
  assert (Hf : FB = accumulator_key D0 W14 MB) by (vm_compute; reflexivity).
  assert (Ha : 0 <= 5 <= ta_amount tf) by lia.
  assert (X1 : w_tok W14 (fst (d_find D0 PAYER (w_owner W14 MB) MB)) = None) by (vm_compute; reflexivity).
  assert (X2 : w_mint W14 (fst (d_find D0 PAYER (w_owner W14 MB) MB)) = None) by (vm_compute; reflexivity).
  exact (C53_payer_account D0 E0 C0 W14 PAYER ps MB mi FB tf 5 D0_ok W14_reach Hps Hr Hne Htp Hmi Hf Htf Ha X1 X2).
Qed.
