(** Token-level effects of every instruction: conservation, frame, and who can move PDA tokens. *)
From Coq Require Import ZArith List Bool Lia.
From Verif Require Import Base Ratio Calc State Controller Inversion ProcInv Spec CalcProofs InvProofs.
Import ListNotations.
Open Scope Z_scope.

Lemma sum_upd (f : key -> Z) k v ks :
  NoDup ks -> In k ks -> sumZ (map (upd f k v) ks) = sumZ (map f ks) - f k + v.
Proof.
  induction ks as [|x t IH]; cbn; [tauto|]. intros Hn Hi. inversion Hn; subst.
  destruct (Z.eq_dec x k) as [->|Hx].
  - rewrite upd_same. rewrite (map_ext_in (upd f k v) f t). lia.
    intros a Ha. apply upd_other. congruence.
  - rewrite upd_other by auto. destruct Hi; [congruence|]. rewrite IH; auto. lia.
Qed.

Definition bal_of (M : key) (o : option TokAcct) : Z :=
  match o with Some t => if ta_mint t =? M then ta_amount t else 0 | None => 0 end.

Lemma holdings_put_tok w k v M ks :
  NoDup ks -> In k ks ->
  holdings (put_tok w k v) M ks = holdings w M ks - bal_of M (w_tok w k) + bal_of M v.
Proof.
  intros Hn Hi. unfold holdings.
  rewrite (map_ext (balance_of_mint (put_tok w k v) M) (upd (balance_of_mint w M) k (bal_of M v))).
  - rewrite sum_upd; auto.
  - intros x. unfold balance_of_mint, upd. cbn. unfold upd. destruct (x =? k); reflexivity.
Qed.

Definition tok_change (S : list key) (w w' : World) : Prop :=
  (forall k, ~ In k S -> w_tok w' k = w_tok w k) /\
  (forall M ks, NoDup ks -> incl S ks ->
     holdings w' M ks - holdings w M ks = supply w' M - supply w M).

Lemma tc_refl S w : tok_change S w w.
Proof. split; auto. intros. lia. Qed.
Lemma tc_same S w w' : w_tok w' = w_tok w -> w_mint w' = w_mint w -> tok_change S w w'.
Proof.
  intros A B. split; [congruence|]. intros. unfold holdings, balance_of_mint, supply. rewrite A, B. lia.
Qed.
Lemma tc_trans S w1 w2 w3 : tok_change S w1 w2 -> tok_change S w2 w3 -> tok_change S w1 w3.
Proof.
  intros (A & B) (A' & B'). split.
  - intros k Hk. rewrite A', A; auto.
  - intros M ks Hn Hi. specialize (B M ks Hn Hi). specialize (B' M ks Hn Hi). lia.
Qed.
Lemma tc_incl S S' w w' : incl S S' -> tok_change S w w' -> tok_change S' w w'.
Proof.
  intros Hi (A & B). split.
  - intros k Hk. apply A. auto.
  - intros M ks Hn Hs. apply B; auto. intros x Hx. auto.
Qed.

Lemma transfer_tc w prog from to mint auth s amt w' :
  transfer_checked w prog from to mint auth s amt = Ok w' ->
  tok_change [from; to] w w' /\ w_mint w' = w_mint w /\ w_owner w' = w_owner w.
Proof.
  intros H. apply transfer_inv in H.
  destruct H as (f & t & m & _ & Hf & Ht & _ & _ & _ & _ & Mf & Mt & Of & _ & Hle & [(_ & ->)|(Hne & Hm & ->)]).
  - repeat split; auto. intros; lia.
  - repeat split; auto.
    + intros k Hk. cbn in *. rewrite !upd_other; auto; intros ->; tauto.
    + intros M ks Hn Hi. unfold supply. cbn.
      rewrite holdings_put_tok by (auto; apply Hi; cbn; auto).
      rewrite holdings_put_tok by (auto; apply Hi; cbn; auto).
      cbn. rewrite upd_other by auto. rewrite Hf, Ht. cbn. rewrite Mf, Mt.
      destruct (mint =? M); lia.
Qed.

Lemma mint_to_tc w prog mint to auth s amt w' :
  mint_to w prog mint to auth s amt = Ok w' ->
  tok_change [to] w w' /\ (forall M, M <> mint -> supply w' M = supply w M) /\
  supply w' mint = supply w mint + amt /\ w_owner w' = w_owner w.
Proof.
  intros H. apply mint_to_inv in H.
  destruct H as (t & m & _ & Ht & Hm & _ & _ & Mt & _ & _ & _ & _ & ->).
  repeat split.
  - intros k Hk. cbn in *. rewrite upd_other; auto; intros ->; tauto.
  - intros M ks Hn Hi.
    change (holdings (put_mint ?a ?b ?c) M ks) with (holdings a M ks).
    rewrite holdings_put_tok by (auto; apply Hi; cbn; auto).
    unfold supply. cbn. rewrite Ht. cbn. rewrite Mt. unfold upd.
    rewrite (Z.eqb_sym M mint). destruct (Z.eqb_spec mint M); [subst M; rewrite Hm; cbn; lia|].
    destruct (w_mint w M); lia.
  - intros M HM. unfold supply. cbn. now rewrite upd_other.
  - unfold supply. cbn. rewrite upd_same, Hm. reflexivity.
Qed.

Lemma burn_tc w prog mint from auth s amt w' :
  burn w prog mint from auth s amt = Ok w' ->
  tok_change [from] w w' /\ (forall M, M <> mint -> supply w' M = supply w M) /\
  supply w' mint = supply w mint - amt /\ w_owner w' = w_owner w.
Proof.
  intros H. apply burn_inv in H.
  destruct H as (t & m & _ & Ht & Hm & _ & _ & Mt & _ & _ & _ & _ & ->).
  repeat split.
  - intros k Hk. cbn in *. rewrite upd_other; auto; intros ->; tauto.
  - intros M ks Hn Hi.
    change (holdings (put_mint ?a ?b ?c) M ks) with (holdings a M ks).
    rewrite holdings_put_tok by (auto; apply Hi; cbn; auto).
    unfold supply. cbn. rewrite Ht. cbn. rewrite Mt. unfold upd.
    rewrite (Z.eqb_sym M mint). destruct (Z.eqb_spec mint M); [subst M; rewrite Hm; cbn; lia|].
    destruct (w_mint w M); lia.
  - intros M HM. unfold supply. cbn. now rewrite upd_other.
  - unfold supply. cbn. rewrite upd_same, Hm. reflexivity.
Qed.

Lemma close_tc w prog acc auth s w' :
  close_token_account w prog acc auth s = Ok w' ->
  tok_change [acc] w w' /\ w_mint w' = w_mint w.
Proof.
  intros H. apply close_inv in H. destruct H as (t & _ & Ht & _ & _ & _ & Hz & ->).
  repeat split.
  - intros k Hk. cbn in *. rewrite upd_other; auto; intros ->; tauto.
  - intros M ks Hn Hi. change (holdings (put_owner ?a ?b ?c) M ks) with (holdings a M ks).
    rewrite holdings_put_tok by (auto; apply Hi; cbn; auto).
    unfold supply. cbn. rewrite Ht. cbn. rewrite Hz. destruct (_ =? _); lia.
Qed.

Lemma create_ata_tc w ata wallet mint prog w' :
  create_ata_if_not_exist w ata wallet mint prog = Ok w' ->
  tok_change [ata] w w' /\ w_mint w' = w_mint w.
Proof.
  intros H. apply create_ata_if_inv in H. destruct H as [(t & _ & _ & ->)|(Hn0 & _ & _ & ->)].
  - split; auto. apply tc_refl.
  - repeat split.
    + intros k Hk. cbn in *. rewrite upd_other; auto; intros ->; tauto.
    + intros M ks Hn Hi. change (holdings (put_owner ?a ?b ?c) M ks) with (holdings a M ks).
      rewrite holdings_put_tok by (auto; apply Hi; cbn; auto).
      unfold supply. cbn. rewrite Hn0. cbn. destruct (_ =? _); lia.
Qed.

Lemma sync_tok E w P L R c m i w' :
  sync_sol_value_unchecked E w P L R c m i = Ok w' ->
  w_tok w' = w_tok w /\ w_mint w' = w_mint w /\ w_owner w' = w_owner w.
Proof.
  intros H. apply sync_inv in H. destruct H as (? & ? & ? & ? & ? & ? & H). decompose [and] H. subst.
  repeat split.
Qed.

(** [keeps O w w']: no token account owned by [O] loses tokens, is closed or changes hands. *)
Definition keeps (O : key) (w w' : World) : Prop :=
  forall k t, w_tok w k = Some t -> ta_owner t = O ->
    exists t', w_tok w' k = Some t' /\ ta_mint t' = ta_mint t /\ ta_owner t' = O /\
      ta_amount t <= ta_amount t'.
Lemma keeps_refl O w : keeps O w w.
Proof. intros k t H1 H2. exists t. repeat split; auto. lia. Qed.
Lemma keeps_trans O w1 w2 w3 : keeps O w1 w2 -> keeps O w2 w3 -> keeps O w1 w3.
Proof.
  intros A B k t H1 H2. destruct (A k t H1 H2) as (t' & ? & ? & ? & ?).
  destruct (B k t') as (t'' & ? & ? & ? & ?); auto. exists t''. repeat split; auto; try congruence. lia.
Qed.
Lemma keeps_same O w w' : w_tok w' = w_tok w -> keeps O w w'.
Proof. intros E k t H1 H2. rewrite E. apply keeps_refl; auto. Qed.

Lemma transfer_keeps O w prog from to mint auth s amt w' :
  0 <= amt -> auth <> O ->
  transfer_checked w prog from to mint auth s amt = Ok w' -> keeps O w w'.
Proof.
  intros Ha HO H. apply transfer_inv in H.
  destruct H as (f & t & m & _ & Hf & Ht & _ & _ & _ & _ & Mf & Mt & Of & _ & Hle & [(_ & ->)|(Hne & Hm & ->)]).
  - apply keeps_refl.
  - intros k x Hx Hox. cbn. destruct (Z.eq_dec k to) as [->|Hk].
    + rewrite upd_same. eexists. split; [reflexivity|]. rewrite Ht in Hx. injection Hx as <-. cbn.
      repeat split; auto. lia.
    + rewrite upd_other by auto. destruct (Z.eq_dec k from) as [->|Hk'].
      * rewrite Hf in Hx. injection Hx as <-. congruence.
      * rewrite upd_other by auto. exists x. repeat split; auto. lia.
Qed.
Lemma burn_keeps O w prog mint from auth s amt w' :
  0 <= amt -> auth <> O -> burn w prog mint from auth s amt = Ok w' -> keeps O w w'.
Proof.
  intros Ha HO H. apply burn_inv in H.
  destruct H as (t & m & _ & Ht & Hm & _ & _ & Mt & Ot & _ & _ & _ & ->).
  intros k x Hx Hox. cbn. destruct (Z.eq_dec k from) as [->|Hk].
  - rewrite Ht in Hx. injection Hx as <-. congruence.
  - rewrite upd_other by auto. exists x. repeat split; auto. lia.
Qed.
Lemma mint_to_keeps O w prog mint to auth s amt w' :
  0 <= amt -> mint_to w prog mint to auth s amt = Ok w' -> keeps O w w'.
Proof.
  intros Ha H. apply mint_to_inv in H.
  destruct H as (t & m & _ & Ht & Hm & _ & _ & Mt & _ & _ & _ & _ & ->).
  intros k x Hx Hox. cbn. destruct (Z.eq_dec k to) as [->|Hk].
  - rewrite Ht in Hx. injection Hx as <-. rewrite upd_same. eexists. split; [reflexivity|]. cbn.
    repeat split; auto. lia.
  - rewrite upd_other by auto. exists x. repeat split; auto. lia.
Qed.
Lemma create_ata_keeps O w ata wallet mint prog w' :
  create_ata_if_not_exist w ata wallet mint prog = Ok w' -> keeps O w w'.
Proof.
  intros H. apply create_ata_if_inv in H. destruct H as [(t & _ & _ & ->)|(Hn0 & _ & _ & ->)].
  - apply keeps_refl.
  - intros k x Hx Hox. cbn. rewrite upd_other by congruence. exists x. repeat split; auto. lia.
Qed.

Lemma signer_not_pda accs a :
  pdas_do_not_sign accs -> In a accs -> is_signer a = true ->
  mk a <> POOL_STATE_ID /\ mk a <> PROTOCOL_FEE_ID.
Proof.
  intros H Hi Hs. specialize (H a Hi Hs). unfold controller_pdas in H. cbn in H.
  split; intros E; apply H; rewrite E; tauto.
Qed.

(** The two branches of "the accounts moved are among those passed". *)
Ltac in_accs :=
  intros ? Hin; repeat (destruct Hin as [<-|Hin]; [apply in_map; cbn; tauto|]); destruct Hin.

Section WithDerive.
Variable D : Derive.

Lemma settle_tc E w w' A cs cd i j st si so tp accs :
  settle_facts E w w' A cs cd i j st si so tp ->
  incl [sa_src_lst_acc A; sa_src_pool_reserves A; sa_dst_pool_reserves A;
        sa_protocol_fee_accumulator A; sa_dst_lst_acc A] accs ->
  tok_change (map mk accs) w w' /\ w_mint w' = w_mint w /\ w_owner w' = w_owner w.
Proof.
  intros (w1 & w2 & w3 & w4 & ps' & t & _ & _ & _ & T1 & T2 & T3 & S1 & S2 & _) Hin.
  apply transfer_tc in T1 as (T1 & M1 & O1). apply transfer_tc in T2 as (T2 & M2 & O2).
  apply transfer_tc in T3 as (T3 & M3 & O3).
  apply sync_tok in S1 as (S1 & M4 & O4). apply sync_tok in S2 as (S2 & M5 & O5).
  split; [|split; congruence].
  assert (Hx : forall a b, In a accs -> In b accs -> incl [mk a; mk b] (map mk accs)).
  { intros a b Ha Hb x [<-|[<-|[]]]; now apply in_map. }
  eapply tc_trans; [eapply tc_incl; [|exact T1]; apply Hx; apply Hin; cbn; tauto|].
  eapply tc_trans; [eapply tc_incl; [|exact T2]; apply Hx; apply Hin; cbn; tauto|].
  eapply tc_trans; [eapply tc_incl; [|exact T3]; apply Hx; apply Hin; cbn; tauto|].
  apply tc_same; congruence.
Qed.

Lemma process_tc E C w accs ix w' :
  process D E C w accs ix = Ok w' ->
  tok_change (map mk accs) w w' /\
  ((forall M, supply w' M = supply w M) \/
   exists ps, the_pool w = Some ps /\ (forall M, M <> lp_token_mint ps -> supply w' M = supply w M) /\
     ((exists a, ix = AddLiquidity a) \/ 
      exists a, ix = RemoveLiquidity a /\
        supply w' (lp_token_mint ps) = supply w (lp_token_mint ps) - rl_lp_token_amount a)).
Proof.
  intros H. unfold process in H. apply guard_ok in H as (Hwf & H).
  assert (Hsm : forall x y : World, w_mint y = w_mint x -> forall M, supply y M = supply x M).
  { intros x y Hxy M. unfold supply. now rewrite Hxy. }
  assert (Hx1 : forall a, In a accs -> incl [mk a] (map mk accs)).
  { intros a Ha x [<-|[]]; now apply in_map. }
  assert (Hx2 : forall a b, In a accs -> In b accs -> incl [mk a; mk b] (map mk accs)).
  { intros a b Ha Hb x [<-|[<-|[]]]; now apply in_map. }
  destruct ix;
  try (match type of H with
       | process_set_lst_input _ _ _ _ = _ => apply set_lst_input_inv in H
       | process_set_admin _ _ = _ => apply set_admin_inv in H
       | process_set_protocol_fee _ _ _ _ = _ => apply set_protocol_fee_inv in H
       | process_set_protocol_fee_beneficiary _ _ = _ => apply set_beneficiary_inv in H
       | process_set_pricing_program _ _ = _ => apply set_pricing_inv in H
       | process_add_disable_pool_authority _ _ = _ => apply add_auth_inv in H
       | process_remove_disable_pool_authority _ _ _ = _ => apply remove_auth_inv in H
       | process_disable_pool _ _ = _ => apply disable_pool_inv in H
       | process_enable_pool _ _ = _ => apply enable_pool_inv in H
       | process_set_rebalance_authority _ _ = _ => apply set_rebalance_authority_inv in H
       end;
       repeat match goal with H : exists _, _ |- _ => destruct H end;
       repeat match goal with H : _ /\ _ |- _ => destruct H end; subst w';
       split; [apply tc_same; reflexivity | left; auto]).
  - (* Sync *)
    apply sync_proc_inv in H. repeat match goal with H : exists _, _ |- _ => destruct H end.
    repeat match goal with H : _ /\ _ |- _ => destruct H end.
    match goal with H : sync_sol_value_unchecked _ _ _ _ _ _ _ _ = Ok _ |- _ =>
      apply sync_tok in H as (Ht & Hm & _) end.
    split; [apply tc_same; auto | left; auto].
  - (* SwapExactIn *)
    apply swap_exact_in_inv in H; auto.
    destruct H as (A & cs & cd & cp & ps & l & lsrc & ldst & w1 & w2 & ps2 & in_sol & in_hi & out_sol &
    dst_out & dst_hi & tp & HF & _ & S1 & S2 & Hp2 & I1 & _ & I2 & I3 & _ & _ & Hc & HS).
    apply sync_tok in S1 as (S1 & M1 & _). apply sync_tok in S2 as (S2 & M2 & _).
    destruct HF as (Hacc & _).
    apply (settle_tc _ _ _ _ _ _ _ _ _ _ _ _ accs) in HS as (HS & M3 & _).
    + split; [|left; apply Hsm; congruence]. eapply tc_trans; [|exact HS]. apply tc_same; congruence.
    + subst accs. intros x Hx. cbn in Hx |- *. tauto.
  - (* SwapExactOut *)
    apply swap_exact_out_inv in H; auto.
    destruct H as (A & cs & cd & cp & ps & l & lsrc & ldst & w1 & w2 & ps2 & out_lo & out_sol & in_sol &
    src_lo & src_in & tp & HF & _ & _ & S1 & S2 & Hp2 & I1 & _ & I2 & I3 & _ & _ & Hc & HS).
    apply sync_tok in S1 as (S1 & M1 & _). apply sync_tok in S2 as (S2 & M2 & _).
    destruct HF as (Hacc & _).
    apply (settle_tc _ _ _ _ _ _ _ _ _ _ _ _ accs) in HS as (HS & M3 & _).
    + split; [|left; apply Hsm; congruence]. eapply tc_trans; [|exact HS]. apply tc_same; congruence.
    + subst accs. intros x Hx. cbn in Hx |- *. tauto.
  - (* AddLiquidity *)
    apply add_liquidity_inv in H; auto.
    destruct H as (A & c & cp & ps & l & ls & w1 & ps1 & lst_sol & lst_hi & af & tr & tp & mi & lp & w2 &
    w3 & w4 & ps' & HF & _ & S1 & Hp1 & I1 & I2 & Haf & Hc & Hmi & Hlp & _ & _ & _ & T1 & T2 & M1 & S2 & _).
    destruct HF as (Hacc & _ & _ & _ & _ & _ & _ & _ & Hlpm & Hp & _).
    apply sync_tok in S1 as (S1 & MM1 & _). apply sync_tok in S2 as (S2 & MM2 & _).
    apply transfer_tc in T1 as (T1 & MM3 & _). apply transfer_tc in T2 as (T2 & MM4 & _).
    apply mint_to_tc in M1 as (M1 & MO & _).
    split.
    + eapply tc_trans; [apply tc_same; [exact S1|exact MM1]|].
      eapply tc_trans; [eapply tc_incl; [|exact T1]; apply Hx2; subst accs; cbn; tauto|].
      eapply tc_trans; [eapply tc_incl; [|exact T2]; apply Hx2; subst accs; cbn; tauto|].
      eapply tc_trans; [eapply tc_incl; [|exact M1]; apply Hx1; subst accs; cbn; tauto|].
      apply tc_same; auto.
    + right. exists ps. split; [exact Hp|]. split; [|left; eauto].
      intros M HM. rewrite (Hsm w4 w') by auto. rewrite MO by congruence. apply Hsm. congruence.
  - (* RemoveLiquidity *)
    apply remove_liquidity_inv in H; auto.
    destruct H as (A & c & cp & ps & l & ls & w1 & ps1 & mi & lp_sol & af & tu & tuh & tp & w2 & w3 & w4 &
    HF & _ & S1 & Hp1 & Hmi & Hlp & I1 & Haf & I2 & Hc & _ & _ & B1 & T1 & T2 & S2).
    destruct HF as (Hacc & _ & _ & _ & _ & _ & _ & _ & Hlpm & Hp & _).
    apply sync_tok in S1 as (S1 & MM1 & _). apply sync_tok in S2 as (S2 & MM2 & _).
    apply transfer_tc in T1 as (T1 & MM3 & _). apply transfer_tc in T2 as (T2 & MM4 & _).
    apply burn_tc in B1 as (M1 & MO & MS & _).
    split.
    + eapply tc_trans; [apply tc_same; [exact S1|exact MM1]|].
      eapply tc_trans; [eapply tc_incl; [|exact M1]; apply Hx1; subst accs; cbn; tauto|].
      eapply tc_trans; [eapply tc_incl; [|exact T1]; apply Hx2; subst accs; cbn; tauto|].
      eapply tc_trans; [eapply tc_incl; [|exact T2]; apply Hx2; subst accs; cbn; tauto|].
      apply tc_same; auto.
    + right. exists ps. split; [exact Hp|]. split.
      * intros M HM. rewrite (Hsm w2 w') by congruence. rewrite MO by congruence. apply Hsm. congruence.
      * right. exists a. split; auto. rewrite (Hsm w2 w') by congruence. rewrite <- Hlpm.
        rewrite MS. f_equal. apply Hsm. congruence.
  - (* AddLst *)
    apply add_lst_inv in H.
    destruct H as (adm & payer & lst_mint & pr & pfa & pfaa & calc & pst & lsl & ap & sp & ltp & rest &
      ps & l & mi & w1 & w2 & prb & pfb & Hacc & _ & _ & _ & _ & _ & _ & _ & _ & _ & _ & F1 & F2 & _ & _ & _ &
      Hp & _ & Hl & Hni & C1 & C2 & ->).
    apply create_ata_tc in C1 as (C1 & M1). apply create_ata_tc in C2 as (C2 & M2).
    split; [|left; intros M; unfold supply; cbn; now rewrite M2, M1].
    eapply tc_trans; [eapply tc_incl; [|exact C1]; apply Hx1; subst accs; cbn; tauto|].
    eapply tc_trans; [eapply tc_incl; [|exact C2]; apply Hx1; subst accs; cbn; tauto|].
    apply tc_same; reflexivity.
  - (* RemoveLst *)
    apply remove_lst_inv in H.
    destruct H as (adm & rf & lm & pr & pfa & pfaa & pst & lsl & ltp & rest & ps & l & ls & tr & tf & w1 &
      w2 & Hacc & _ & _ & _ & _ & _ & _ & _ & _ & _ & Hp & _ & Hl & Hn & _ & _ & _ & _ & _ & Hz & _ & _ &
      C1 & C2 & ->).
    apply close_tc in C1 as (C1 & M1). apply close_tc in C2 as (C2 & M2).
    split; [|left; intros M; unfold supply; cbn; now rewrite M2, M1].
    eapply tc_trans; [eapply tc_incl; [|exact C1]; apply Hx1; subst accs; cbn; tauto|].
    eapply tc_trans; [eapply tc_incl; [|exact C2]; apply Hx1; subst accs; cbn; tauto|].
    apply tc_same; reflexivity.
  - (* SetSolValueCalculator *)
    apply set_calculator_inv in H. repeat match goal with H : exists _, _ |- _ => destruct H end.
    repeat match goal with H : _ /\ _ |- _ => destruct H end.
    match goal with H : sync_sol_value_unchecked _ _ _ _ _ _ _ _ = Ok _ |- _ =>
      apply sync_tok in H as (Ht & Hm & _) end.
    cbn in Ht, Hm. split; [apply tc_same; auto | left; auto].
  - (* Withdraw *)
    apply withdraw_inv in H. destruct H as (b & wt & pf & pfa & tpg & pst & lm & rest & ps & t & tf & Hacc & H).
    decompose [and] H. clear H.
    match goal with H : transfer_checked _ _ _ _ _ _ _ _ = Ok _ |- _ =>
      apply transfer_tc in H as (T1 & M1 & _) end.
    split; [|left; apply Hsm; auto].
    eapply tc_incl; [|exact T1]. apply Hx2; subst accs; cbn; tauto.
  - (* StartRebalance *)
    apply start_rebalance_inv in H.
    destruct H as (x1&x2&x3&x4&x5&x6&x7&x8&x9&x10&x11&x12&cs&cd&ps&l&lsrc&ldst&ts&td&w1&w2&ps2&w3&w4&ps4&
      Hacc & _ & _ & _ & _ & _ & _ & _ & _ & Hp & Hac & Hl & _ & Hnd & _ & _ & _ & _ & _ & _ & _ & _ & _ & _ & _ & _ &
      S1 & S2 & Hp2 & T & S3 & Hr4 & Hp4 & ->).
    apply sync_tok in S1 as (S1 & M1 & _). apply sync_tok in S2 as (S2 & M2 & _).
    apply sync_tok in S3 as (S3 & M3 & _). apply transfer_tc in T as (T & M4 & _).
    split; [|left; apply Hsm; cbn; congruence].
    eapply tc_trans; [|eapply tc_trans; [eapply tc_incl; [|exact T]|]].
    + apply tc_same; congruence.
    + apply Hx2; subst accs; cbn; tauto.
    + apply tc_same; cbn; congruence.
  - (* EndRebalance *)
    apply end_rebalance_inv in H.
    destruct H as (x1&x2&x3&x4&x5&x6&c&ps&l&r&ldst&w2&ps2&_&_&_&_&_&_&_&_&_&Hp&_&_&_&_&_&_&_&S&Hp2&_&->).
    apply sync_tok in S as (S & M & _). cbn in S, M. split; [apply tc_same; auto|left; auto].
  - (* Initialize *)
    apply initialize_inv in H.
    destruct H as (? & ? & ? & lpm & ? & ? & ? & m & _ & _ & _ & _ & _ & _ & _ & _ & Hp & _ & Hm & Hs & _ & _ & _ & ->).
    assert (HS : forall M, supply (put_mint (put_mint (put_pool w POOL_STATE_ID
           (Some (mkPool 0 1000 1000 1 0 0 INITIAL_AUTHORITY_ID INITIAL_AUTHORITY_ID
                    INITIAL_AUTHORITY_ID DEFAULT_PRICING_PROGRAM (mk lpm))))
           (mk lpm) (Some (mkMint 0 9 (Some POOL_STATE_ID) (Some INITIAL_AUTHORITY_ID))))
           (mk lpm) (Some (mkMint 0 9 (Some POOL_STATE_ID) (Some POOL_STATE_ID)))) M = supply w M).
    { intros M. unfold supply. cbn. destruct (Z.eq_dec M (mk lpm)) as [->|Hne].
      - rewrite upd_same, Hm. cbn. lia.
      - now rewrite !upd_other by auto. }
    split; [|left; auto].
    split; [reflexivity|]. intros M ks Hn Hi. rewrite HS. unfold holdings, balance_of_mint. cbn. lia.
Qed.

Lemma pool_ne_fee : POOL_STATE_ID <> PROTOCOL_FEE_ID.
Proof. unfold POOL_STATE_ID, PROTOCOL_FEE_ID. lia. Qed.
Lemma fee_ne_pool : PROTOCOL_FEE_ID <> POOL_STATE_ID.
Proof. unfold POOL_STATE_ID, PROTOCOL_FEE_ID. lia. Qed.

(** [not_drained O w w']: no token account held by [O] has a smaller balance. *)
Definition not_drained (O : key) (w w' : World) : Prop :=
  forall k t, w_tok w k = Some t -> ta_owner t = O -> balance w k <= balance w' k.

Lemma keeps_not_drained O w w' : keeps O w w' -> not_drained O w w'.
Proof.
  intros H k t Ht Ho. destruct (H k t Ht Ho) as (t' & Ht' & _ & _ & Hle).
  unfold balance. now rewrite Ht, Ht'.
Qed.

Lemma settle_keeps E w w' A cs cd i j st si so tp :
  0 <= si -> 0 <= so -> 0 <= tp -> mk (sa_pool_state A) = POOL_STATE_ID ->
  mk (sa_signer A) <> PROTOCOL_FEE_ID ->
  settle_facts E w w' A cs cd i j st si so tp -> keeps PROTOCOL_FEE_ID w w'.
Proof.
  intros Hsi Hso Htp HP HS (w1 & w2 & w3 & w4 & ps' & t & _ & _ & _ & T1 & T2 & T3 & S1 & S2 & _).
  apply sync_tok in S1 as (S1 & _). apply sync_tok in S2 as (S2 & _).
  eapply keeps_trans; [eapply transfer_keeps; [|exact HS|exact T1]; auto|].
  rewrite HP in *.
  eapply keeps_trans; [eapply transfer_keeps; [|solve [apply pool_ne_fee | apply fee_ne_pool]|exact T2]; auto|].
  eapply keeps_trans; [eapply transfer_keeps; [|solve [apply pool_ne_fee | apply fee_ne_pool]|exact T3]; auto|].
  apply keeps_same. congruence.
Qed.

(** Instructions that may take tokens out of accounts held by the pool / by the fee PDA. *)
Definition pays_from_reserves (ix : Ix) : bool :=
  match ix with
  | SwapExactIn _ | SwapExactOut _ | RemoveLiquidity _ | StartRebalance _ => true
  | _ => false
  end.
Definition withdraws_fees (ix : Ix) : bool :=
  match ix with WithdrawProtocolFees _ => true | _ => false end.

Lemma close_not_drained O w prog acc auth s w' :
  close_token_account w prog acc auth s = Ok w' -> not_drained O w w'.
Proof.
  intros H k t Ht Ho. apply close_inv in H. destruct H as (x & _ & Hx & _ & _ & _ & Hz & ->).
  unfold balance. cbn. destruct (Z.eq_dec k acc) as [->|Hk].
  - rewrite upd_same, Hx. lia.
  - rewrite upd_other by auto. lia.
Qed.

Lemma process_not_drained E C w accs ix w' :
  base_inv w -> pdas_do_not_sign accs -> process D E C w accs ix = Ok w' ->
  (pays_from_reserves ix = false -> not_drained POOL_STATE_ID w w') /\
  (withdraws_fees ix = false -> not_drained PROTOCOL_FEE_ID w w').
Proof.
  intros Hb Hpd H. unfold process in H. apply guard_ok in H as (Hwf & H).
  assert (Hsame : w_tok w' = w_tok w ->
    (pays_from_reserves ix = false -> not_drained POOL_STATE_ID w w') /\
    (withdraws_fees ix = false -> not_drained PROTOCOL_FEE_ID w w')).
  { intros Ht. split; intros _ k t _ _; unfold balance; rewrite Ht; lia. }
  destruct ix; cbn [pays_from_reserves withdraws_fees] in *;
  try (match type of H with
       | process_set_lst_input _ _ _ _ = _ => apply set_lst_input_inv in H
       | process_set_admin _ _ = _ => apply set_admin_inv in H
       | process_set_protocol_fee _ _ _ _ = _ => apply set_protocol_fee_inv in H
       | process_set_protocol_fee_beneficiary _ _ = _ => apply set_beneficiary_inv in H
       | process_set_pricing_program _ _ = _ => apply set_pricing_inv in H
       | process_add_disable_pool_authority _ _ = _ => apply add_auth_inv in H
       | process_remove_disable_pool_authority _ _ _ = _ => apply remove_auth_inv in H
       | process_disable_pool _ _ = _ => apply disable_pool_inv in H
       | process_enable_pool _ _ = _ => apply enable_pool_inv in H
       | process_set_rebalance_authority _ _ = _ => apply set_rebalance_authority_inv in H
       | process_initialize _ _ = _ => apply initialize_inv in H
       end;
       repeat match goal with H : exists _, _ |- _ => destruct H end;
       repeat match goal with H : _ /\ _ |- _ => destruct H end; subst w';
       apply Hsame; reflexivity).
  - (* Sync *)
    apply sync_proc_inv in H. repeat match goal with H : exists _, _ |- _ => destruct H end.
    repeat match goal with H : _ /\ _ |- _ => destruct H end.
    match goal with H : sync_sol_value_unchecked _ _ _ _ _ _ _ _ = Ok _ |- _ =>
      apply sync_tok in H as (Ht & Hm & _) end. auto.
  - (* SwapExactIn *)
    split; [discriminate|]. intros _. apply keeps_not_drained.
    apply swap_exact_in_inv in H; auto. wf Hwf.
    destruct H as (A & cs & cd & cp & ps & l & lsrc & ldst & w1 & w2 & ps2 & in_sol & in_hi & out_sol &
    dst_out & dst_hi & tp & HF & _ & S1 & S2 & Hp2 & I1 & _ & I2 & I3 & _ & _ & Hc & HS).
    destruct HF as (Hacc & _ & _ & Hsg & _ & HP & HL & _).
    unfold sync_src, sync_dst in S1, S2. rewrite HP, HL in *.
    assert (Hb2 : base_inv w2) by eauto using sync_base.
    pose proof (base_pool _ _ Hb2 Hp2) as (_ & Hf & _). dec_invokes. unfold U64 in *.
    apply calc_swap_fees_ok in Hc; try lia.
    assert (Hns : mk (sa_signer A) <> PROTOCOL_FEE_ID).
    { apply (signer_not_pda accs); auto. subst accs. cbn. tauto. }
    apply sync_tok in S1 as (S1 & _). apply sync_tok in S2 as (S2 & _).
    eapply keeps_trans; [|eapply settle_keeps; [| | |exact HP|exact Hns|exact HS]; lia].
    apply keeps_same. congruence.
  - (* SwapExactOut *)
    split; [discriminate|]. intros _. apply keeps_not_drained.
    apply swap_exact_out_inv in H; auto. wf Hwf.
    destruct H as (A & cs & cd & cp & ps & l & lsrc & ldst & w1 & w2 & ps2 & out_lo & out_sol & in_sol &
    src_lo & src_in & tp & HF & _ & _ & S1 & S2 & Hp2 & I1 & _ & I2 & I3 & _ & _ & Hc & HS).
    destruct HF as (Hacc & _ & _ & Hsg & _ & HP & HL & _).
    unfold sync_src, sync_dst in S1, S2. rewrite HP, HL in *.
    assert (Hb2 : base_inv w2) by eauto using sync_base.
    pose proof (base_pool _ _ Hb2 Hp2) as (_ & Hf & _). dec_invokes. unfold U64 in *.
    apply calc_swap_fees_ok in Hc; try lia.
    assert (Hns : mk (sa_signer A) <> PROTOCOL_FEE_ID).
    { apply (signer_not_pda accs); auto. subst accs. cbn. tauto. }
    apply sync_tok in S1 as (S1 & _). apply sync_tok in S2 as (S2 & _).
    eapply keeps_trans; [|eapply settle_keeps; [| | |exact HP|exact Hns|exact HS]; lia].
    apply keeps_same. congruence.
  - (* AddLiquidity *)
    assert (HK : forall O, O = POOL_STATE_ID \/ O = PROTOCOL_FEE_ID -> keeps O w w').
    2:{ split; intros _; apply keeps_not_drained, HK; auto. }
    intros O HO. apply add_liquidity_inv in H; auto. wf Hwf.
    destruct H as (A & c & cp & ps & l & ls & w1 & ps1 & lst_sol & lst_hi & af & tr & tp & mi & lp & w2 &
    w3 & w4 & ps' & HF & _ & S1 & Hp1 & I1 & I2 & Haf & Hc & Hmi & Hlp & _ & _ & _ & T1 & T2 & M1 & S2 & _).
    destruct HF as (Hacc & _ & Hsg & _ & HP & HL & _).
    unfold sync_liq in *. rewrite HP, HL in *.
    assert (Hns : mk (la_signer A) <> O).
    { destruct (signer_not_pda accs (la_signer A)) as (? & ?); auto. subst accs; cbn; tauto.
      destruct HO; congruence. }
    assert (Hb1 : base_inv w1) by eauto using sync_base.
    pose proof (base_pool _ _ Hb1 Hp1) as (Ht & _ & Hf & _). dec_invokes.
    pose proof (proj2 (base_u64 _ Hb1) _ _ Hmi) as Hs. unfold U64 in *.
    apply calc_add_fees_ok in Hc; try lia. apply lp_to_mint_nonneg in Hlp; try lia.
    apply sync_tok in S1 as (S1 & _). apply sync_tok in S2 as (S2 & _).
    eapply keeps_trans; [apply keeps_same, S1|].
    eapply keeps_trans; [eapply transfer_keeps; [|exact Hns|exact T1]; lia|].
    eapply keeps_trans; [eapply transfer_keeps; [|exact Hns|exact T2]; lia|].
    eapply keeps_trans; [eapply mint_to_keeps; [|exact M1]; lia|].
    apply keeps_same, S2.
  - (* RemoveLiquidity *)
    split; [discriminate|]. intros _. apply keeps_not_drained.
    apply remove_liquidity_inv in H; auto. wf Hwf.
    destruct H as (A & c & cp & ps & l & ls & w1 & ps1 & mi & lp_sol & af & tu & tuh & tp & w2 & w3 & w4 &
    HF & _ & S1 & Hp1 & Hmi & Hlp & I1 & Haf & I2 & Hc & _ & _ & B1 & T1 & T2 & S2).
    destruct HF as (Hacc & _ & Hsg & _ & HP & HL & _).
    unfold sync_liq in *. rewrite HP, HL in *.
    assert (Hns : mk (la_signer A) <> PROTOCOL_FEE_ID).
    { apply (signer_not_pda accs); auto. subst accs. cbn. tauto. }
    assert (Hb1 : base_inv w1) by eauto using sync_base.
    pose proof (base_pool _ _ Hb1 Hp1) as (Ht & _ & Hf & _). dec_invokes.
    pose proof (proj2 (base_u64 _ Hb1) _ _ Hmi) as Hs. unfold U64 in *.
    apply lp_sol_value_le in Hlp; try lia. apply calc_remove_fees_ok in Hc; try lia.
    apply sync_tok in S1 as (S1 & _). apply sync_tok in S2 as (S2 & _).
    eapply keeps_trans; [apply keeps_same, S1|].
    eapply keeps_trans; [eapply burn_keeps; [|exact Hns|exact B1]; lia|].
    eapply keeps_trans; [eapply transfer_keeps; [|solve [apply pool_ne_fee | apply fee_ne_pool]|exact T1]; lia|].
    eapply keeps_trans; [eapply transfer_keeps; [|solve [apply pool_ne_fee | apply fee_ne_pool]|exact T2]; lia|].
    apply keeps_same, S2.
  - (* AddLst *)
    apply add_lst_inv in H.
    destruct H as (adm & payer & lst_mint & pr & pfa & pfaa & calc & pst & lsl & ap & sp & ltp & rest &
      ps & l & mi & w1 & w2 & prb & pfb & Hacc & _ & _ & _ & _ & _ & _ & _ & _ & _ & _ & F1 & F2 & _ & _ & _ &
      Hp & _ & Hl & Hni & C1 & C2 & ->).
    assert (HK : forall O, keeps O w w2).
    { intros O. eapply keeps_trans; eapply create_ata_keeps; eauto. }
    split; intros _; apply keeps_not_drained; exact (HK _).
  - (* RemoveLst *)
    apply remove_lst_inv in H.
    destruct H as (adm & rf & lm & pr & pfa & pfaa & pst & lsl & ltp & rest & ps & l & ls & tr & tf & w1 &
      w2 & Hacc & _ & _ & _ & _ & _ & _ & _ & _ & _ & Hp & _ & Hl & Hn & _ & _ & _ & Htr & Htf & Hz & Hz1 & Hz2 &
      C1 & C2 & ->).
    assert (HK : forall O, not_drained O w w2).
    { intros O k t Ht Ho. apply close_inv in C1, C2.
      destruct C1 as (x & _ & Hx & _ & _ & _ & Hxz & ->). destruct C2 as (y & _ & Hy & _ & _ & _ & Hyz & ->).
      unfold balance. cbn. rewrite Ht.
      destruct (Z.eq_dec k (mk pr)) as [->|Hk1].
      { rewrite upd_same. assert (t = tr) by congruence. subst. lia. }
      rewrite upd_other by auto. destruct (Z.eq_dec k (mk pfa)) as [->|Hk2].
      { rewrite upd_same. assert (t = tf) by congruence. subst. lia. }
      rewrite upd_other by auto. rewrite Ht. lia. }
    split; intros _; exact (HK _).
  - (* SetSolValueCalculator *)
    apply set_calculator_inv in H. repeat match goal with H : exists _, _ |- _ => destruct H end.
    repeat match goal with H : _ /\ _ |- _ => destruct H end.
    match goal with H : sync_sol_value_unchecked _ _ _ _ _ _ _ _ = Ok _ |- _ =>
      apply sync_tok in H as (Ht & Hm & _) end. auto.
  - (* Withdraw *)
    split; [|discriminate]. intros _. apply keeps_not_drained. wf Hwf.
    apply withdraw_inv in H. destruct H as (b & wt & pf & pfa & tpg & pst & lm & rest & ps & t & tf & Hacc & H).
    decompose [and] H. clear H.
    match goal with H : transfer_checked _ _ _ _ _ _ _ _ = Ok _ |- _ =>
      eapply transfer_keeps; [|solve [apply pool_ne_fee | apply fee_ne_pool]|exact H] end. lia.
  - (* StartRebalance *)
    split; [discriminate|]. intros _. apply keeps_not_drained. wf Hwf.
    apply start_rebalance_inv in H.
    destruct H as (x1&x2&x3&x4&x5&x6&x7&x8&x9&x10&x11&x12&cs&cd&ps&l&lsrc&ldst&ts&td&w1&w2&ps2&w3&w4&ps4&
      Hacc & _ & _ & _ & _ & _ & _ & _ & _ & Hp & Hac & Hl & _ & Hnd & _ & _ & _ & _ & _ & _ & _ & _ & _ & _ & _ & _ &
      S1 & S2 & Hp2 & T & S3 & Hr4 & Hp4 & ->).
    apply sync_tok in S1 as (S1 & M1 & _). apply sync_tok in S2 as (S2 & M2 & _).
    apply sync_tok in S3 as (S3 & M3 & _).
    eapply keeps_trans; [apply (keeps_same _ w w2); congruence|].
    eapply keeps_trans; [eapply transfer_keeps; [|solve [apply pool_ne_fee | apply fee_ne_pool]|exact T]; lia|].
    apply keeps_same. cbn. congruence.
  - (* EndRebalance *)
    apply end_rebalance_inv in H.
    destruct H as (x1&x2&x3&x4&x5&x6&c&ps&l&r&ldst&w2&ps2&_&_&_&_&_&_&_&_&_&Hp&_&_&_&_&_&_&_&S&Hp2&_&->).
    apply sync_tok in S as (S & M & _). cbn in S, M. auto.
Qed.

End WithDerive.
