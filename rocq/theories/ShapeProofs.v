(** Which token accounts and mints exist: reserves and fee accumulators of listed LSTs, the LP mint. *)
From Coq Require Import ZArith List Bool Lia.
From Verif Require Import Base Ratio Calc State Controller Inversion ProcInv Spec CalcProofs InvProofs
  TokProofs AccessProofs.
Import ListNotations.
Open Scope Z_scope.

(** Same accounts, possibly different amounts. *)
Definition shape (w w' : World) : Prop :=
  w_owner w' = w_owner w /\
  (forall k, match w_tok w k, w_tok w' k with
             | None, None => True
             | Some t, Some t' => ta_mint t' = ta_mint t /\ ta_owner t' = ta_owner t
             | _, _ => False end) /\
  (forall m, match w_mint w m, w_mint w' m with
             | None, None => True
             | Some i, Some i' => m_auth i = Some POOL_STATE_ID -> m_auth i' = Some POOL_STATE_ID
             | _, _ => False end).

Lemma shape_refl w : shape w w.
Proof.
  split; [auto|]. split; intros k; [destruct (w_tok w k)|destruct (w_mint w k)]; auto.
Qed.
Lemma shape_same w w' : w_tok w' = w_tok w -> w_mint w' = w_mint w -> w_owner w' = w_owner w -> shape w w'.
Proof.
  intros A B C. split; [auto|]. split; intros k; rewrite ?A, ?B;
    [destruct (w_tok w k)|destruct (w_mint w k)]; auto.
Qed.
Lemma shape_trans w1 w2 w3 : shape w1 w2 -> shape w2 w3 -> shape w1 w3.
Proof.
  intros (A & B & C) (A' & B' & C'). split; [congruence|]. split; intros k.
  - specialize (B k). specialize (B' k). destruct (w_tok w1 k), (w_tok w2 k), (w_tok w3 k); try tauto.
    intuition congruence.
  - specialize (C k). specialize (C' k). destruct (w_mint w1 k), (w_mint w2 k), (w_mint w3 k); tauto.
Qed.

Lemma transfer_shape w prog from to mint auth s amt w' :
  transfer_checked w prog from to mint auth s amt = Ok w' -> shape w w'.
Proof.
  intros H. apply transfer_inv in H.
  destruct H as (f & t & m & _ & Hf & Ht & _ & _ & _ & _ & Mf & Mt & Of & _ & _ & [(_ & ->)|(Hne & _ & ->)]).
  - apply shape_refl.
  - split; [reflexivity|]. split; cbn.
    + intros k. unfold upd. destruct (Z.eqb_spec k to) as [->|N]; [rewrite Ht; cbn; auto|].
      destruct (Z.eqb_spec k from) as [->|N2]; [rewrite Hf; cbn; auto|]. destruct (w_tok w k); auto.
    + intros k. destruct (w_mint w k); auto.
Qed.
Lemma mint_to_shape w prog mint to auth s amt w' :
  mint_to w prog mint to auth s amt = Ok w' -> shape w w'.
Proof.
  intros H. apply mint_to_inv in H. destruct H as (t & m & _ & Ht & Hm & _ & _ & Mt & Ha & _ & _ & _ & ->).
  split; [reflexivity|]. split; cbn; intros k; unfold upd.
  - destruct (Z.eqb_spec k to) as [->|N]; [rewrite Ht; cbn; auto|]. destruct (w_tok w k); auto.
  - destruct (Z.eqb_spec k mint) as [->|N]; [rewrite Hm; cbn; auto|]. destruct (w_mint w k); auto.
Qed.
Lemma burn_shape w prog mint from auth s amt w' :
  burn w prog mint from auth s amt = Ok w' -> shape w w'.
Proof.
  intros H. apply burn_inv in H. destruct H as (t & m & _ & Ht & Hm & _ & _ & Mt & Ha & _ & _ & _ & ->).
  split; [reflexivity|]. split; cbn; intros k; unfold upd.
  - destruct (Z.eqb_spec k from) as [->|N]; [rewrite Ht; cbn; auto|]. destruct (w_tok w k); auto.
  - destruct (Z.eqb_spec k mint) as [->|N]; [rewrite Hm; cbn; auto|]. destruct (w_mint w k); auto.
Qed.
Lemma sync_shape E w P L R c m i w' :
  sync_sol_value_unchecked E w P L R c m i = Ok w' -> shape w w'.
Proof. intros H. apply sync_tok in H as (A & B & C). apply shape_same; auto. Qed.
Lemma settle_shape E w w' A cs cd i j st si so tp :
  settle_facts E w w' A cs cd i j st si so tp -> shape w w'.
Proof.
  intros (w1 & w2 & w3 & w4 & ps' & t & _ & _ & _ & T1 & T2 & T3 & S1 & S2 & _).
  apply transfer_shape in T1, T2, T3. apply sync_shape in S1, S2.
  eauto using shape_trans.
Qed.

Section WithDerive.
Variable D : Derive.

Lemma process_shape E C w accs ix w' :
  process D E C w accs ix = Ok w' ->
  match ix with AddLst | RemoveLst _ => True | _ => shape w w' end.
Proof.
  intros H. unfold process in H. apply guard_ok in H as (Hwf & H).
  destruct ix; try exact I;
  try (match type of H with
       | process_set_lst_input _ _ _ _ = _ => apply set_lst_input_inv in H
       | process_set_admin _ _ = _ => apply set_admin_inv in H
       | process_set_protocol_fee _ _ _ _ = _ => apply set_protocol_fee_inv in H
       | process_set_protocol_fee_beneficiary _ _ = _ => apply set_beneficiary_inv in H
       | process_set_pricing_program _ _ = _ => apply set_pricing_inv in H
       | process_add_disable_pool_authority _ _ = _ => apply add_auth_inv in H
       | process_remove_disable_pool_authority _ _ _ = _ => apply remove_auth_inv in H
       | process_disable_pool _ _ = _ => apply disable_pool_inv in H
       | process_enable_pool _ _ = _ => apply enable_pool_inv in H
       | process_set_rebalance_authority _ _ = _ => apply set_rebalance_authority_inv in H
       end; exs; subst w'; apply shape_same; reflexivity).
  - apply sync_proc_inv in H. exs. eapply sync_shape; eauto.
  - apply swap_exact_in_inv in H; auto. exs.
    repeat match goal with H : sync_src _ _ _ _ _ = Ok _ |- _ => apply sync_shape in H
    | H : sync_dst _ _ _ _ _ = Ok _ |- _ => apply sync_shape in H
    | H : settle_facts _ _ _ _ _ _ _ _ _ _ _ _ |- _ => apply settle_shape in H end.
    eauto using shape_trans.
  - apply swap_exact_out_inv in H; auto. exs.
    repeat match goal with H : sync_src _ _ _ _ _ = Ok _ |- _ => apply sync_shape in H
    | H : sync_dst _ _ _ _ _ = Ok _ |- _ => apply sync_shape in H
    | H : settle_facts _ _ _ _ _ _ _ _ _ _ _ _ |- _ => apply settle_shape in H end.
    eauto using shape_trans.
  - apply add_liquidity_inv in H; auto.
    destruct H as (A & c & cp & ps & l & ls & w1 & ps1 & lst_sol & lst_hi & af & tr & tp & mi & lp & w2 &
    w3 & w4 & ps' & HF & _ & S1 & Hp1 & I1 & I2 & Haf & Hc & Hmi & Hlp & _ & _ & _ & T1 & T2 & M1 & S2 & _).
    apply sync_shape in S1, S2. apply transfer_shape in T1, T2. apply mint_to_shape in M1.
    do 4 (eapply shape_trans; [eassumption|]). assumption.
  - apply remove_liquidity_inv in H; auto.
    destruct H as (A & c & cp & ps & l & ls & w1 & ps1 & mi & lp_sol & af & tu & tuh & tp & w2 & w3 & w4 &
    HF & _ & S1 & Hp1 & Hmi & Hlp & I1 & Haf & I2 & Hc & _ & _ & B1 & T1 & T2 & S2).
    apply sync_shape in S1, S2. apply transfer_shape in T1, T2. apply burn_shape in B1.
    do 4 (eapply shape_trans; [eassumption|]). assumption.
  - apply set_calculator_inv in H. exs.
    match goal with H : sync_sol_value_unchecked _ _ _ _ _ _ _ _ = Ok _ |- _ => apply sync_shape in H; exact H end.
  - apply withdraw_inv in H. exs. eapply transfer_shape; eauto.
  - apply start_rebalance_inv in H.
    destruct H as (x1&x2&x3&x4&x5&x6&x7&x8&x9&x10&x11&x12&cs&cd&ps&l&lsrc&ldst&ts&td&w1&w2&ps2&w3&w4&ps4&
      Hacc & _ & _ & _ & _ & _ & _ & _ & _ & Hp & Hac & Hl & _ & Hnd & _ & _ & _ & _ & _ & _ & _ & _ & _ & _ & _ & _ &
      S1 & S2 & Hp2 & T & S3 & Hr4 & Hp4 & ->).
    apply sync_shape in S1, S2, S3. apply transfer_shape in T.
    do 3 (eapply shape_trans; [eassumption|]). exact S3.
  - apply end_rebalance_inv in H.
    destruct H as (x1&x2&x3&x4&x5&x6&c&ps&l&r&ldst&w2&ps2&_&_&_&_&_&_&_&_&_&Hp&_&_&_&_&_&_&_&S&Hp2&_&->).
    apply sync_shape in S. exact S.
  - apply initialize_inv in H.
    destruct H as (? & ? & ? & lpm & ? & ? & ? & m & _ & _ & _ & _ & _ & _ & _ & _ & Hp & _ & Hm & Hs & _ & _ & _ & ->).
    split; [reflexivity|]. split; cbn; intros k.
    + destruct (w_tok w k); auto.
    + unfold upd. destruct (Z.eqb_spec k (mk lpm)) as [->|N]; [rewrite Hm; cbn; auto|]. destruct (w_mint w k); auto.
Qed.

Lemma shape_ata w w' : shape w w' -> ata_ok D w -> ata_ok D w'.
Proof.
  intros (So & St & Sm) H wallet prog mint bump k Hw Hk. destruct (H _ _ _ _ _ Hw Hk) as (A & B).
  specialize (St k). specialize (Sm k). rewrite A in Sm. split.
  - destruct (w_mint w' k); tauto.
  - intros t Ht. rewrite Ht in St. destruct (w_tok w k) as [t0|]; [|tauto].
    destruct (B t0 eq_refl) as (B1 & B2 & B3). destruct St as (St1 & St2). rewrite So. csplit; congruence.
Qed.

Lemma create_ata_ok (HD : derive_ok D) w ata wallet mint prog b w' :
  wallet = POOL_STATE_ID \/ wallet = PROTOCOL_FEE_ID ->
  d_create D wallet prog mint b = Some ata ->
  create_ata_if_not_exist w ata wallet mint prog = Ok w' -> ata_ok D w -> ata_ok D w'.
Proof.
  intros Hw Hd H Ha. apply create_ata_if_inv in H. destruct H as [(t & _ & _ & ->)|(Hn & _ & _ & ->)]; auto.
  destruct HD as (_ & HD & _). intros wl pg mt bp k Hwl Hk. destruct (Ha _ _ _ _ _ Hwl Hk) as (A & B).
  split; cbn; auto. unfold upd. intros t. destruct (Z.eqb_spec k ata) as [->|N]; [|apply B].
  intros [= <-]. cbn. destruct (HD _ _ _ _ _ _ _ _ _ Hd Hk) as (-> & -> & ->). auto.
Qed.
Lemma close_ata_ok w prog acc auth s w' :
  close_token_account w prog acc auth s = Ok w' -> ata_ok D w -> ata_ok D w'.
Proof.
  intros H Ha. apply close_inv in H. destruct H as (t & _ & _ & _ & _ & _ & _ & ->).
  intros wl pg mt bp k Hwl Hk. destruct (Ha _ _ _ _ _ Hwl Hk) as (A & B).
  split; cbn; auto. unfold upd. intros t0. destruct (Z.eqb_spec k acc) as [->|N]; [discriminate|apply B].
Qed.

Lemma process_ata (HD : derive_ok D) E C w accs ix w' :
  process D E C w accs ix = Ok w' -> ata_ok D w -> ata_ok D w'.
Proof.
  intros H Ha. pose proof (process_shape _ _ _ _ _ _ H) as Hs.
  destruct ix; try (eapply shape_ata; eassumption).
  - unfold process in H. apply guard_ok in H as (Hwf & H). apply add_lst_inv in H.
    destruct H as (adm & payer & lst_mint & pr & pfa & pfaa & calc & pst & lsl & ap & sp & ltp & rest &
      ps & l & mi & w1 & w2 & prb & pfb & Hacc & _ & _ & _ & _ & _ & _ & _ & _ & _ & _ & F1 & F2 & _ & _ & _ &
      Hp & _ & Hl & Hni & C1 & C2 & ->).
    assert (ata_ok D w2); [|assumption].
    pose proof (proj1 HD POOL_STATE_ID (w_owner w (mk lst_mint)) (mk lst_mint)) as G1.
    pose proof (proj1 HD PROTOCOL_FEE_ID (w_owner w (mk lst_mint)) (mk lst_mint)) as G2.
    rewrite F1 in G1. rewrite F2 in G2. cbn in G1, G2.
    eapply create_ata_ok; [exact HD|right; reflexivity|exact G2|exact C2|].
    eapply create_ata_ok; [exact HD|left; reflexivity|exact G1|exact C1|exact Ha].
  - unfold process in H. apply guard_ok in H as (Hwf & H). apply remove_lst_inv in H.
    destruct H as (adm & rf & lm & pr & pfa & pfaa & pst & lsl & ltp & rest & ps & l & ls & tr & tf & w1 &
      w2 & Hacc & _ & _ & _ & _ & _ & _ & _ & _ & _ & Hp & _ & Hl & Hn & _ & _ & _ & _ & _ & Hz & _ & _ &
      C1 & C2 & ->).
    assert (ata_ok D w2); [|assumption]. eapply close_ata_ok; [exact C2|]. eapply close_ata_ok; eauto.
Qed.

(** The token accounts of a listed LST. *)
Definition lst_accounts (w : World) (ls : LstState) : Prop :=
  is_token_program (w_owner w (ls_mint ls)) = true /\
  w_mint w (ls_mint ls) <> None /\
  exists r f,
    d_find D POOL_STATE_ID (w_owner w (ls_mint ls)) (ls_mint ls) = (r, pool_reserves_bump ls) /\
    d_find D PROTOCOL_FEE_ID (w_owner w (ls_mint ls)) (ls_mint ls) = (f, protocol_fee_accumulator_bump ls) /\
    w_tok w r <> None /\ w_tok w f <> None.
Definition ata_inv (w : World) : Prop :=
  ata_ok D w /\
  (forall l, the_list w = Some l -> Forall (lst_accounts w) l) /\
  (forall ps, the_pool w = Some ps ->
     w_owner w (lp_token_mint ps) = SPL_TOKEN_ID /\
     exists i, w_mint w (lp_token_mint ps) = Some i /\ m_auth i = Some POOL_STATE_ID).

Lemma shape_lst w w' ls : shape w w' -> lst_accounts w ls -> lst_accounts w' ls.
Proof.
  intros (So & St & Sm) (A & B & r & f & F1 & F2 & R & F). unfold lst_accounts. rewrite So.
  split; auto. split.
  - specialize (Sm (ls_mint ls)). destruct (w_mint w _), (w_mint w' _); congruence || tauto.
  - exists r, f. csplit; auto.
    + specialize (St r). destruct (w_tok w r), (w_tok w' r); congruence || tauto.
    + specialize (St f). destruct (w_tok w f), (w_tok w' f); congruence || tauto.
Qed.
Lemma lst_accounts_ext w ls ls' :
  ls_mint ls' = ls_mint ls -> pool_reserves_bump ls' = pool_reserves_bump ls ->
  protocol_fee_accumulator_bump ls' = protocol_fee_accumulator_bump ls ->
  lst_accounts w ls -> lst_accounts w ls'.
Proof. unfold lst_accounts. intros -> -> ->. auto. Qed.

Lemma strip_Forall w l l' : map strip l' = map strip l ->
  Forall (lst_accounts w) l -> Forall (lst_accounts w) l'.
Proof.
  revert l. induction l' as [|x l' IH]; intros [|y l] He HF; try discriminate; constructor.
  - inversion HF; subst. injection He as E1 E2 E3 E4 E5 _. eapply lst_accounts_ext; [| | |eassumption]; auto.
  - inversion HF; subst. injection He as _ _ _ _ _ He. eauto.
Qed.

Lemma pool_effect_lp accs w ps ix ps' : pool_effect accs w ps ix ps' -> lp_token_mint ps' = lp_token_mint ps.
Proof. destruct 1; subst; cbn; auto. destruct t, l; reflexivity. Qed.

Lemma find_create (HD : derive_ok D) w p m r b :
  d_find D w p m = (r, b) -> d_create D w p m b = Some r.
Proof. intros H. pose proof (proj1 HD w p m) as G. rewrite H in G. exact G. Qed.

Lemma create_ata_lst (HD : derive_ok D) w ata wallet mint prog b w' ls :
  wallet = POOL_STATE_ID \/ wallet = PROTOCOL_FEE_ID -> d_create D wallet prog mint b = Some ata ->
  create_ata_if_not_exist w ata wallet mint prog = Ok w' ->
  ata_ok D w -> lst_accounts w ls -> lst_accounts w' ls.
Proof.
  intros Hw Hd H Ha (A & B & r & f & F1 & F2 & R & F). apply create_ata_if_inv in H.
  destruct H as [(t & _ & _ & ->)|(Hn & _ & _ & ->)]; [exists; eauto 10|].
  destruct (Ha _ _ _ _ _ Hw Hd) as (A1 & _). unfold lst_accounts. cbn. unfold upd.
  destruct (Z.eqb_spec (ls_mint ls) ata) as [E|N]; [congruence|].
  split; auto. split; auto. exists r, f. csplit; auto; destruct (_ =? ata); congruence.
Qed.
Lemma close_lst (HD : derive_ok D) w prog acc auth s w' ls wallet m b p :
  wallet = POOL_STATE_ID \/ wallet = PROTOCOL_FEE_ID -> d_create D wallet p m b = Some acc ->
  m <> ls_mint ls ->
  close_token_account w prog acc auth s = Ok w' -> ata_ok D w ->
  lst_accounts w ls -> lst_accounts w' ls.
Proof.
  intros Hw Hd Hm H Ha (A & B & r & f & F1 & F2 & R & F). apply close_inv in H.
  destruct H as (t & _ & _ & _ & _ & _ & _ & ->).
  destruct (Ha _ _ _ _ _ Hw Hd) as (A1 & _). unfold lst_accounts. cbn. unfold upd.
  destruct (Z.eqb_spec (ls_mint ls) acc) as [E|N]; [congruence|].
  apply (find_create HD) in F1 as G1. apply (find_create HD) in F2 as G2.
  split; auto. split; auto. exists r, f.
  assert (N1 : r <> acc). { intros ->. destruct HD as (_ & HD & _). destruct (HD _ _ _ _ _ _ _ _ _ Hd G1) as (_ & _ & ?). congruence. }
  assert (N2 : f <> acc). { intros ->. destruct HD as (_ & HD & _). destruct (HD _ _ _ _ _ _ _ _ _ Hd G2) as (_ & _ & ?). congruence. }
  apply Z.eqb_neq in N1, N2. rewrite N1, N2. csplit; auto.
Qed.
Lemma close_mint w prog acc auth s w' : close_token_account w prog acc auth s = Ok w' ->
  w_mint w' = w_mint w /\ forall k, k <> acc -> w_owner w' k = w_owner w k.
Proof.
  intros H. apply close_inv in H. destruct H as (t & _ & _ & _ & _ & _ & _ & ->). cbn. split; auto.
  intros. now rewrite upd_other.
Qed.

Lemma effect_lp E C w accs ix w' ps' :
  process D E C w accs ix = Ok w' -> the_pool w' = Some ps' ->
  (exists ps, the_pool w = Some ps /\ lp_token_mint ps' = lp_token_mint ps) \/
  (ix = Initialize /\ w_owner w (lp_token_mint ps') = SPL_TOKEN_ID /\
   exists i, w_mint w' (lp_token_mint ps') = Some i /\ m_auth i = Some POOL_STATE_ID).
Proof.
  intros H Hp'. destruct (the_pool w) as [ps|] eqn:Hp.
  - left. exists ps. split; auto. destruct (process_pool_effect D _ _ _ _ _ _ _ H Hp) as (p & Hp2 & He).
    assert (p = ps') by congruence. subst p. eapply pool_effect_lp; eauto.
  - right. pose proof H as H0. unfold process in H. apply guard_ok in H as (Hwf & H).
    unfold the_pool in Hp. destruct ix; idtac.
    all: try (apply sync_proc_inv in H; exs; congruence).
    all: try (apply swap_exact_in_inv in H; [|auto]; unfold swap_facts in H; exs; congruence).
    all: try (apply swap_exact_out_inv in H; [|auto]; unfold swap_facts in H; exs; congruence).
    all: try (apply add_liquidity_inv in H; unfold liq_facts in H; exs; congruence).
    all: try (apply remove_liquidity_inv in H; unfold liq_facts in H; exs; congruence).
    all: try (apply set_lst_input_inv in H; exs; congruence).
    all: try (apply add_lst_inv in H; exs; congruence).
    all: try (apply remove_lst_inv in H; exs; congruence).
    all: try (apply set_calculator_inv in H; exs; congruence).
    all: try (apply set_admin_inv in H; exs; congruence).
    all: try (apply set_protocol_fee_inv in H; exs; congruence).
    all: try (apply set_beneficiary_inv in H; exs; congruence).
    all: try (apply set_pricing_inv in H; exs; congruence).
    all: try (apply withdraw_inv in H; exs; congruence).
    all: try (apply add_auth_inv in H; exs; congruence).
    all: try (apply remove_auth_inv in H; exs; congruence).
    all: try (apply disable_pool_inv in H; exs; congruence).
    all: try (apply enable_pool_inv in H; exs; congruence).
    all: try (apply start_rebalance_inv in H; exs; congruence).
    all: try (apply end_rebalance_inv in H; exs; congruence).
    all: try (apply set_rebalance_authority_inv in H; exs; congruence).
    split; auto. apply initialize_inv in H.
    destruct H as (? & ? & ? & lpm & ? & ? & ? & m & _ & _ & _ & _ & _ & _ & _ & _ & _ & Ho & Hm & Hs & _ & _ & _ & ->).
    unfold the_pool in Hp'. cbn in Hp'. rewrite upd_same in Hp'. injection Hp' as <-. cbn.
    split; [exact Ho|]. rewrite upd_same. eexists. split; reflexivity.
Qed.

Lemma process_ata_inv (HD : derive_ok D) E C w accs ix w' :
  process D E C w accs ix = Ok w' -> inv w -> ata_inv w -> ata_inv w'.
Proof.
  intros H Hi (Ha & Hl & Hlp). pose proof (process_shape _ _ _ _ _ _ H) as Hs.
  pose proof (process_ata HD _ _ _ _ _ _ H Ha) as Ha'.
  destruct Hi as ((l & au & Hll & _ & Hnd & _ & _ & _ & HP) & _). specialize (Hl l Hll).
  assert (Hgen : shape w w' -> ix <> AddLst -> (forall i, ix <> RemoveLst i) -> ata_inv w').
  { clear Hs. intros Hs N1 N2. split; [exact Ha'|]. split.
    - assert (HF : Forall (lst_accounts w') l).
      { eapply Forall_impl; [|exact Hl]. intros. eapply shape_lst; eauto. }
      destruct (process_list_effect D _ _ _ _ _ _ _ H Hll) as (l' & Hl' & [(-> & ->)|(ps & Hp & He)]).
      + intros l0 H0. assert (l0 = l) by congruence. subst l0. exact HF.
      + intros l0 H0. assert (l0 = l') by congruence. subst l0.
        destruct He; auto.
        * eapply strip_Forall; eauto.
        * apply Forall_replace_nth; auto. rewrite Forall_forall in HF.
          eapply lst_accounts_ext; [| | |eapply HF, nth_error_In; eassumption]; reflexivity.
        * apply Forall_replace_nth; auto. rewrite Forall_forall in HF.
          eapply lst_accounts_ext; [| | |eapply HF, nth_error_In; eassumption]; reflexivity.
        * congruence.
        * apply Forall_remove_nth; auto.
        * apply Forall_replace_nth; auto. rewrite Forall_forall in HF.
          eapply lst_accounts_ext; [| | |eapply HF, nth_error_In; eassumption]; reflexivity.
    - intros ps' Hp'. pose proof Hs as (So & _ & Sm).
      destruct (effect_lp _ _ _ _ _ _ _ H Hp') as [(ps & Hp & ->)|(_ & Ho & Hm)].
      + destruct (Hlp ps Hp) as (Ho & i & Hi & Hia). rewrite So. split; auto.
        specialize (Sm (lp_token_mint ps)). rewrite Hi in Sm.
        destruct (w_mint w' _) as [i'|]; [|tauto]. eauto.
      + rewrite So. auto. }
  destruct ix; try (apply Hgen; [exact Hs|discriminate|intros; discriminate]); clear Hgen Hs.
  - (* AddLst *)
    unfold process in H. apply guard_ok in H as (Hwf & H). apply add_lst_inv in H.
    destruct H as (adm & payer & lst_mint & pr & pfa & pfaa & calc & pst & lsl & ap & sp & ltp & rest &
      ps & l0 & mi & w1 & w2 & prb & pfb & Hacc & _ & _ & _ & _ & _ & _ & _ & _ & _ & _ & F1 & F2 & Htp & Hmi & _ &
      Hp & _ & Hl0 & Hni & C1 & C2 & ->).
    assert (l0 = l) by (unfold the_list in Hll; congruence). subst l0.
    pose proof (find_create HD _ _ _ _ _ F1) as G1. pose proof (find_create HD _ _ _ _ _ F2) as G2.
    assert (Ha1 : ata_ok D w1) by (eapply create_ata_ok; [exact HD|left; reflexivity|exact G1|exact C1|exact Ha]).
    assert (Hcr : forall x y ata wl pg b, wl = POOL_STATE_ID \/ wl = PROTOCOL_FEE_ID ->
      d_create D wl pg (mk lst_mint) b = Some ata ->
      create_ata_if_not_exist x ata wl (mk lst_mint) pg = Ok y -> ata_ok D x ->
      w_mint y = w_mint x /\ w_tok y ata <> None /\
      (forall k, w_tok x k <> None -> w_tok y k <> None) /\
      (forall k, w_mint x k <> None -> w_owner y k = w_owner x k)).
    { intros x y ata wl pg b Hwl Hd Hc Hax. destruct (Hax _ _ _ _ _ Hwl Hd) as (An & _).
      apply create_ata_if_inv in Hc. destruct Hc as [(t & Ht & _ & ->)|(Hn & _ & _ & ->)].
      - csplit; auto. congruence.
      - cbn. split; auto. rewrite upd_same. split; [discriminate|]. split; intros k Hk.
        + destruct (Z.eq_dec k ata) as [->|Nk]; [congruence|]. now rewrite upd_other.
        + rewrite upd_other; auto. intros ->. congruence. }
    destruct (Hcr _ _ _ _ _ _ (or_introl eq_refl) G1 C1 Ha) as (M1 & T1 & K1 & O1).
    destruct (Hcr _ _ _ _ _ _ (or_intror eq_refl) G2 C2 Ha1) as (M2 & T2 & K2 & O2).
    assert (O : forall k, w_mint w k <> None -> w_owner w2 k = w_owner w k).
    { intros k Hk. rewrite O2 by congruence. auto. }
    assert (Hsub : forall ls, lst_accounts w ls -> lst_accounts w2 ls).
    { intros ls (A & B & r & f & Q1 & Q2 & R & F). unfold lst_accounts. rewrite O by auto.
      split; auto. split; [congruence|]. exists r, f. csplit; auto. }
    split; [exact Ha'|]. split.
    + intros l0. rewrite the_list_put. intros [= <-]. apply Forall_app. split.
      * eapply Forall_impl; [|exact Hl]. intros ls Hls. apply Hsub in Hls. exact Hls.
      * constructor; [|constructor]. unfold lst_accounts. cbn.
        assert (Hmn : w_mint w (mk lst_mint) <> None) by congruence.
        rewrite (O _ Hmn). split; auto. split; [congruence|]. exists (mk pr), (mk pfa). csplit; auto.
    + intros ps' Hp'. apply create_ata_if_ctl in C1 as (P1 & _). apply create_ata_if_ctl in C2 as (P2 & _).
      assert (Hq : the_pool w = Some ps') by (unfold the_pool in *; cbn in Hp'; congruence).
      destruct (Hlp _ Hq) as (Ho & i & Hi & Hia). cbn. split; [rewrite O; congruence|].
      exists i. split; congruence.
  - (* RemoveLst *) rename lst_index into index.
    unfold process in H. apply guard_ok in H as (Hwf & H). apply remove_lst_inv in H.
    destruct H as (adm & rf & lm & pr & pfa & pfaa & pst & lsl & ltp & rest & ps & l0 & ls & tr & tf & w1 &
      w2 & Hacc & _ & _ & _ & _ & _ & _ & _ & _ & _ & Hp & _ & Hl0 & Hn & Hm & G1 & G2 & _ & _ & Hz & _ & _ &
      C1 & C2 & ->).
    assert (l0 = l) by (unfold the_list in Hll; congruence). subst l0.
    pose proof (close_ata_ok _ _ _ _ _ _ C1 Ha) as Ha1.
    assert (Hother : Forall (lst_accounts w2) (remove_nth l (Z.to_nat index))).
    { unfold nth_lst in Hn.
      assert (Hne : Forall (fun x => ls_mint x <> ls_mint ls) (remove_nth l (Z.to_nat index))).
      { apply nth_error_split in Hn as (l1 & l2 & Hn & Hlen). subst l.
        rewrite map_app in Hnd. cbn in Hnd. apply NoDup_remove_2 in Hnd. rewrite <- map_app in Hnd.
        rewrite <- Hlen. replace (remove_nth (l1 ++ ls :: l2) (length l1)) with (l1 ++ l2).
        - apply Forall_forall. intros x Hx E0. apply Hnd. rewrite <- E0. now apply in_map.
        - clear. induction l1; cbn; congruence. }
      apply (Forall_remove_nth _ _ (Z.to_nat index)) in Hl.
      rewrite Forall_forall in *. intros x Hx. specialize (Hl x Hx). specialize (Hne x Hx).
      eapply close_lst with (wallet := POOL_STATE_ID); [exact HD|left; reflexivity|exact G1|congruence|exact C2|exact Ha1|].
      eapply close_lst with (wallet := PROTOCOL_FEE_ID); [exact HD|right; reflexivity|exact G2|congruence|exact C1|exact Ha|exact Hl]. }
    split; [exact Ha'|]. split.
    + intros l0. rewrite the_list_put. intros [= <-]. exact Hother.
    + intros ps' Hp'. pose proof (close_ctl _ _ _ _ _ _ C1) as (P1 & _).
      pose proof (close_ctl _ _ _ _ _ _ C2) as (P2 & _).
      assert (Hq : the_pool w = Some ps') by (unfold the_pool in *; cbn in Hp'; congruence).
      destruct (Hlp _ Hq) as (Ho & i & Hi & Hia). cbn.
      destruct (close_mint _ _ _ _ _ _ C1) as (M1 & O1). destruct (close_mint _ _ _ _ _ _ C2) as (M2 & O2).
      destruct (Ha _ _ _ _ _ (or_introl eq_refl) G1) as (N1 & _).
      destruct (Ha _ _ _ _ _ (or_intror eq_refl) G2) as (N2 & _).
      split; [rewrite O2, O1; auto; congruence|]. exists i. split; congruence.
Qed.

Lemma external_ata_inv (HD : derive_ok D) w w' : external_step D w w' -> ata_inv w -> ata_inv w'.
Proof.
  intros [Xp Xl Xa Xr Xt Xm Xu Xo] (Ha & Hl & Hlp). split; [exact Xo|]. split.
  - rewrite Xl. intros l Hll. eapply Forall_impl; [|exact (Hl l Hll)].
    intros ls (A & B & r & f & Q1 & Q2 & R & F). unfold lst_accounts.
    destruct (w_mint w (ls_mint ls)) as [i|] eqn:Hi; [|congruence].
    destruct (Xm _ _ Hi) as (Ho & i' & Hi' & _). rewrite Ho. split; auto. split; [congruence|].
    exists r, f. pose proof (find_create HD _ _ _ _ _ Q1) as G1. pose proof (find_create HD _ _ _ _ _ Q2) as G2.
    destruct (w_tok w r) as [tr|] eqn:Hr; [|congruence]. destruct (w_tok w f) as [tf|] eqn:Hf; [|congruence].
    destruct (Ha _ _ _ _ _ (or_introl eq_refl) G1) as (_ & B1). destruct (B1 _ Hr) as (_ & O1 & _).
    destruct (Ha _ _ _ _ _ (or_intror eq_refl) G2) as (_ & B2). destruct (B2 _ Hf) as (_ & O2 & _).
    destruct (Xt _ _ Hr (or_introl O1)) as (t1 & Ht1 & _). destruct (Xt _ _ Hf (or_intror O2)) as (t2 & Ht2 & _).
    csplit; auto; congruence.
  - rewrite Xp. intros ps Hp. destruct (Hlp ps Hp) as (Ho & i & Hi & Hia).
    destruct (Xm _ _ Hi) as (Ho' & i' & Hi' & Hx). destruct (Hx Hia). split; [congruence|]. eauto.
Qed.

Lemma steps_ata_inv (HD : derive_ok D) w w' : steps D w w' -> inv w -> ata_inv w -> ata_inv w'.
Proof.
  induction 1; auto. intros Hi Ha. specialize (IHsteps Hi Ha).
  destruct H0 as [Hx|E C accs ix _ Hp].
  - eapply external_ata_inv; eauto.
  - eapply process_ata_inv; eauto. eapply steps_inv; eauto.
Qed.

Theorem reachable_ata (HD : derive_ok D) w : reachable D w -> ata_inv w.
Proof.
  intros (w0 & Hg & Hs). eapply steps_ata_inv; eauto.
  - eapply genesis_inv; eauto.
  - destruct Hg as (Hp & Hl & _ & _ & _ & Ha). split; auto. split.
    + intros l Hll. assert (l = []) by congruence. subst. constructor.
    + congruence.
Qed.

End WithDerive.
