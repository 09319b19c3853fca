(** Properties of the pricing programs: C24 (prices), C41 (administration of the flat-fee program). *)
From Coq Require Import ZArith List Bool Lia.
From Verif Require Import Base Ratio State Controller Inversion Spec Periph PeriphSpec PeriphProofs PropCalc.
Import ListNotations.
Open Scope Z_scope.

(* ------------------------------------------------------------------ *)
(** * The invariant *)

Definition fee_ok_range (x : Z) : Prop := -10000 <= x <= 10000.
Record flat_inv (F : FlatCfg) (pw : PWorld) : Prop := {
  fi_state : pw_acc pw (ff_state F) = no_account \/
    exists m f, pw_acc pw (ff_state F) = mkPAcc (ff_id F) (PFlatState m f) /\ 0 <= f <= 10000;
  fi_fee : forall m b k, fd_create F m b = Some k ->
    pw_acc pw k = no_account \/
    ((k, b) = fd_find F m /\ exists i o, pw_acc pw k = mkPAcc (ff_id F) (PFlatFee b i o) /\
       fee_ok_range i /\ fee_ok_range o) }.

Lemma put_acc_same pw k a : pw_acc (put_acc pw k a) k = a.
Proof. unfold put_acc; cbn. apply upd_same. Qed.

Ltac ka := unfold key_at in *; cbn [nth_error] in *.

Lemma set_lp_inv F pw accs bps pw' : process_set_lp_withdrawal_fee F pw accs bps = Ok pw' ->
  exists m f, pdata pw (ff_state F) = PFlatState m f /\ signed_by accs m /\ 0 <= bps <= 10000 /\
    powner pw (ff_state F) = ff_id F /\
    pw' = put_acc pw (ff_state F) (mkPAcc (ff_id F) (PFlatState m bps)).
Proof.
  unfold process_set_lp_withdrawal_fee, try_program_state, verify_keys_privs,
    verify_unsigned_fee_bps_bound, write_data. intros H.
  destruct accs as [|a0 [|a1 accs]]; try discriminate.
  inv_ok. destruct (pdata pw (mk a1)) as [| | | | | | |m f| | |] eqn:E1; try discriminate. inv_ok.
  cbn [keys_match] in *. unfold privileges_ok in *. cbn [forallb] in *. inv_ok. cbn [fst snd] in *.
  assert (Ha : mk a1 = ff_state F) by assumption. rewrite <- Ha. eexists _, _.
  split; [exact E1|]. split; [exists a0; cbn; auto|]. split; [lia|]. split; [congruence|]. reflexivity.
Qed.
Lemma set_lst_inv F pw accs i o pw' : process_set_lst_fee F pw accs i o = Ok pw' ->
  exists m f b i0 o0, pdata pw (ff_state F) = PFlatState m f /\ signed_by accs m /\
    fee_ok_range i /\ fee_ok_range o /\
    pdata pw (key_at accs 1) = PFlatFee b i0 o0 /\ powner pw (key_at accs 1) = ff_id F /\
    pw' = put_acc pw (key_at accs 1) (mkPAcc (ff_id F) (PFlatFee b i o)).
Proof.
  unfold process_set_lst_fee, try_program_state, try_fee_account, verify_keys_privs,
    verify_signed_fee_bps_bound, write_data. intros H.
  destruct accs as [|a0 [|a1 [|a2 accs]]]; try discriminate.
  inv_ok. destruct (pdata pw (mk a2)) as [| | | | | | |m f| | |] eqn:E1; try discriminate. inv_ok.
  cbn [keys_match] in *. unfold privileges_ok in *. cbn [forallb] in *. inv_ok.
  destruct (pdata pw (mk a1)) as [| | | | | | | |b i0 o0| |] eqn:E2; try discriminate. inv_ok.
  cbn [fst snd] in *.
  assert (Ha : mk a2 = ff_state F) by assumption. rewrite <- Ha. ka. eexists _, _, _, _, _.
  split; [exact E1|]. split; [exists a0; cbn; auto|]. unfold fee_ok_range. split; [lia|]. split; [lia|].
  split; [exact E2|]. split; [congruence|]. reflexivity.
Qed.
Lemma remove_inv F pw accs pw' : process_flat_remove_lst F pw accs = Ok pw' ->
  exists m f, pdata pw (ff_state F) = PFlatState m f /\ signed_by accs m /\
    key_at accs 2 = fst (fd_find F (key_at accs 3)) /\
    ((powner pw (key_at accs 2) = ff_id F /\ pw' = put_acc pw (key_at accs 2) no_account) \/
     (pdata pw (key_at accs 2) = PEmpty /\ powner pw (key_at accs 2) <> ff_id F /\ pw' = pw)).
Proof.
  unfold process_flat_remove_lst, try_program_state, verify_keys_privs. intros H.
  destruct accs as [|a0 [|a1 [|a2 [|a3 [|a4 accs]]]]]; try discriminate.
  inv_ok. destruct (pdata pw (mk a4)) as [| | | | | | |m f| | |] eqn:E1; try discriminate. inv_ok.
  cbn [keys_match] in *. unfold privileges_ok in *. cbn [forallb] in *. inv_ok. cbn [fst snd] in *.
  assert (Ha : mk a4 = ff_state F) by assumption. rewrite <- Ha. ka. eexists _, _.
  split; [exact E1|]. split; [exists a0; cbn; auto|]. split; [assumption|].
  destruct (Z.eqb_spec (powner pw (mk a2)) (ff_id F)) as [Eo|Eo].
  - inv_ok. auto.
  - destruct (pdata pw (mk a2)) eqn:E2; try discriminate. inv_ok. auto.
Qed.
Lemma add_inv F pw accs i o pw' : process_flat_add_lst F pw accs i o = Ok pw' ->
  exists m f, pdata pw (ff_state F) = PFlatState m f /\ signed_by accs m /\
    fee_ok_range i /\ fee_ok_range o /\
    key_at accs 2 = fst (fd_find F (key_at accs 3)) /\ pw_acc pw (key_at accs 2) = no_account /\
    is_token_program (powner pw (key_at accs 3)) = true /\ pdata pw (key_at accs 3) = PMint /\
    pw' = put_acc pw (key_at accs 2) (mkPAcc (ff_id F) (PFlatFee (snd (fd_find F (key_at accs 3))) i o)).
Proof.
  unfold process_flat_add_lst, try_program_state, verify_keys_privs, verify_signed_fee_bps_bound,
    init_account. intros H.
  destruct accs as [|a0 [|a1 [|a2 [|a3 [|a4 [|a5 accs]]]]]]; try discriminate.
  destruct (fd_find F (mk a3)) as (addr, bump) eqn:E3. inv_ok. destruct (pdata pw (mk a4)) as [| | | | | | |m f| | |] eqn:E1; try discriminate. inv_ok.
  cbn [keys_match] in *. unfold privileges_ok in *. cbn [forallb] in *. inv_ok. cbn [fst snd] in *.
  destruct (pdata pw (mk a2)) eqn:E2; try discriminate. inv_ok.
  destruct (pdata pw (mk a3)) eqn:E4; try discriminate.
  assert (Ha : mk a4 = ff_state F) by assumption. rewrite <- Ha. ka. rewrite E3. cbn [fst snd].
  eexists _, _.
  split; [exact E1|]. split; [exists a0; cbn; auto|]. unfold fee_ok_range. split; [lia|]. split; [lia|].
  split; [congruence|]. split; [|split; [auto|split; [auto|reflexivity]]].
  unfold pdata, powner, no_account in *. destruct (pw_acc pw (mk a2)); cbn in *. congruence.
Qed.
Lemma set_mgr_inv F pw accs pw' : process_flat_set_manager F pw accs = Ok pw' ->
  exists m f, pdata pw (ff_state F) = PFlatState m f /\ signed_by accs m /\
    powner pw (ff_state F) = ff_id F /\
    pw' = put_acc pw (ff_state F) (mkPAcc (ff_id F) (PFlatState (key_at accs 1) f)).
Proof.
  unfold process_flat_set_manager, try_program_state, verify_keys_privs, write_data. intros H.
  destruct accs as [|a0 [|a1 [|a2 accs]]]; try discriminate.
  inv_ok. destruct (pdata pw (mk a2)) as [| | | | | | |m f| | |] eqn:E1; try discriminate. inv_ok.
  cbn [keys_match] in *. unfold privileges_ok in *. cbn [forallb] in *. inv_ok. cbn [fst snd] in *.
  assert (Ha : mk a2 = ff_state F) by assumption. rewrite <- Ha. ka. eexists _, _.
  split; [exact E1|]. split; [exists a0; cbn; auto|]. split; [congruence|]. reflexivity.
Qed.
Lemma initialize_inv F pw accs pw' : process_flat_initialize F pw accs = Ok pw' ->
  pw_acc pw (ff_state F) = no_account /\
  pw' = put_acc pw (ff_state F) (mkPAcc (ff_id F) (PFlatState (ff_manager0 F) 5)).
Proof.
  unfold process_flat_initialize, verify_keys_privs, init_account. intros H.
  destruct accs as [|a0 [|a1 [|a2 accs]]]; try discriminate.
  inv_ok. cbn [keys_match] in *. inv_ok.
  assert (Ha : mk a1 = ff_state F) by assumption. rewrite <- Ha.
  destruct (pdata pw (mk a1)) eqn:E; try discriminate. inv_ok. split; [|reflexivity].
  unfold pdata, powner, no_account in *. destruct (pw_acc pw (mk a1)); cbn in *. congruence.
Qed.

Lemma flat_inv_put_state F pw m f : flat_derive_ok F -> flat_inv F pw -> 0 <= f <= 10000 ->
  flat_inv F (put_acc pw (ff_state F) (mkPAcc (ff_id F) (PFlatState m f))).
Proof.
  intros (_ & _ & D & _) [H1 H2] Hf. split.
  - right. rewrite put_acc_same. eauto.
  - intros m' b k Hk. rewrite pw_acc_put_other; [eauto|]. intros ->. exact (D _ _ Hk).
Qed.
Lemma flat_inv_put_fee F pw k a : flat_derive_ok F -> flat_inv F pw ->
  k <> ff_state F ->
  (forall m b, fd_create F m b = Some k ->
     a = no_account \/ ((k, b) = fd_find F m /\ exists i o, a = mkPAcc (ff_id F) (PFlatFee b i o) /\
       fee_ok_range i /\ fee_ok_range o)) ->
  flat_inv F (put_acc pw k a).
Proof.
  intros D [H1 H2] Hk Ha. split.
  - rewrite pw_acc_put_other by auto. exact H1.
  - intros m b k' Hk'. destruct (Z.eq_dec k' k) as [->|Hne].
    + rewrite put_acc_same. auto.
    + rewrite pw_acc_put_other by auto. eauto.
Qed.

Lemma flat_reachable_inv R F pw : flat_derive_ok F -> flat_reachable R F pw -> flat_inv F pw.
Proof.
  intros D (pw0 & H0 & Hs). induction Hs as [pw|pw1 pw2 pw3 Hs IH Hst].
  - split.
    + left. apply H0. left. reflexivity.
    + intros m b k Hk. left. apply H0. right. eauto.
  - specialize (IH H0). destruct Hst as [Hx|accs ix r H].
    + destruct IH as [H1 H2]. split.
      * rewrite (Hx (ff_state F) (or_introl eq_refl)). exact H1.
      * intros m b k Hk. rewrite (Hx k) by (right; eauto). eauto.
    + pose proof D as (D1 & D2 & D3 & D4).
      destruct ix as [? v|? v|? v|? v|bps|i o| |i o| |]; cbn [flat_process] in H; inv_ok; auto.
      * destruct (set_lp_inv _ _ _ _ _ Hv) as (m & f & H1 & _ & Hb & _ & ->).
        apply flat_inv_put_state; auto.
      * destruct (set_lst_inv _ _ _ _ _ _ Hv) as (m & f & b & i0 & o0 & H1 & _ & Hi & Ho & H2 & H3 & ->).
        apply flat_inv_put_fee; auto.
        { intros E. rewrite E in *. congruence. }
        intros m' b' Hk. right. destruct (fi_fee _ _ IH _ _ _ Hk) as [Hn|(Hc & i1 & o1 & Ha & _)].
        { unfold pdata in H2. rewrite Hn in H2. discriminate. }
        split; [auto|]. unfold pdata in H2. rewrite Ha in H2. injection H2 as -> -> ->. eauto.
      * destruct (remove_inv _ _ _ _ Hv) as (m & f & H1 & _ & H2 & [(H3 & ->)|(_ & _ & ->)]); auto.
        apply flat_inv_put_fee; auto. intros E. rewrite H2 in E. apply (D3 (key_at accs 3) (snd (fd_find F (key_at accs 3)))).
        rewrite D1. congruence.
      * destruct (add_inv _ _ _ _ _ _ Hv) as (m & f & H1 & _ & Hi & Ho & H2 & H3 & _ & _ & ->).
        apply flat_inv_put_fee; auto.
        { intros E. rewrite H2 in E. apply (D3 (key_at accs 3) (snd (fd_find F (key_at accs 3)))).
          rewrite D1. congruence. }
        intros m' b' Hk. right. rewrite H2 in Hk. destruct (D2 _ _ _ _ _ Hk (D1 (key_at accs 3))) as (-> & ->).
        rewrite H2. split; [now destruct (fd_find F (key_at accs 3))|eauto].
      * destruct (set_mgr_inv _ _ _ _ Hv) as (m & f & H1 & _ & H3 & ->).
        apply flat_inv_put_state; auto.
        destruct (fi_state _ _ IH) as [Hn|(m' & f' & Ha & Hf)].
        { unfold pdata in H1. rewrite Hn in H1. discriminate. }
        unfold pdata in H1. rewrite Ha in H1. injection H1 as -> ->. auto.
      * destruct (initialize_inv _ _ _ _ Hv) as (H1 & ->). apply flat_inv_put_state; auto. lia.
Qed.

(* ------------------------------------------------------------------ *)
(** * C24 *)

(** The accounts of a price request: the two mints and their fee accounts, in order. *)
Definition price_accounts (F : FlatCfg) (accs : list Meta) : Prop :=
  (4 <= length accs)%nat /\
  key_at accs 2 = fst (fd_find F (key_at accs 0)) /\ key_at accs 3 = fst (fd_find F (key_at accs 1)).

Lemma verify_price_iff R F pw accs i o : flat_derive_ok F -> flat_reachable R F pw ->
  verify_price_exact F pw accs = Ok (i, o) <->
  price_accounts F accs /\
  (exists o', lst_fees F pw (key_at accs 0) = Some (i, o')) /\
  (exists i', lst_fees F pw (key_at accs 1) = Some (i', o)).
Proof.
  intros D Hr. pose proof (flat_reachable_inv _ _ _ D Hr) as HI. pose proof D as (D1 & D2 & _).
  unfold price_accounts, lst_fees. split.
  - intros H. destruct accs as [|a0 [|a1 [|a2 [|a3 accs]]]]; try discriminate.
    cbn [verify_price_exact] in H. unfold try_fee_account in H. ka.
    destruct (pdata pw (mk a2)) as [| | | | | | | |b1 i1 o1| |] eqn:E1; try discriminate. cbn [bind] in H.
    destruct (pdata pw (mk a3)) as [| | | | | | | |b2 i2 o2| |] eqn:E2; try discriminate. cbn [bind] in H.
    inv_ok. cbn [keys_match] in *. inv_ok.
    assert (K2 : mk a2 = fst (fd_find F (mk a0))).
    { destruct (fi_fee _ _ HI _ _ _ Hv) as [Hn|(Hc & _)].
      - unfold pdata in E1. replace v with (mk a2) in Hn by assumption. rewrite Hn in E1. discriminate.
      - rewrite <- Hc. cbn. assumption. }
    assert (K3 : mk a3 = fst (fd_find F (mk a1))).
    { destruct (fi_fee _ _ HI _ _ _ Hv0) as [Hn|(Hc & _)].
      - unfold pdata in E2. replace v0 with (mk a3) in Hn by assumption. rewrite Hn in E2. discriminate.
      - rewrite <- Hc. cbn. assumption. }
    rewrite <- K2, <- K3, E1, E2. cbn [length]. split; [split; [lia|auto]|]. eauto.
  - intros ((HL & H2 & H3) & (o' & Ho) & (i' & Hi)).
    destruct accs as [|a0 [|a1 [|a2 [|a3 accs]]]]; cbn [length] in HL; try lia. ka.
    rewrite <- H2 in Ho. rewrite <- H3 in Hi.
    cbn [verify_price_exact]. unfold try_fee_account.
    destruct (pdata pw (mk a2)) as [| | | | | | | |b1 i1 o1| |] eqn:E1; try discriminate. injection Ho as -> ->.
    destruct (pdata pw (mk a3)) as [| | | | | | | |b2 i2 o2| |] eqn:E2; try discriminate. injection Hi as -> ->.
    cbn [bind].
    assert (B1 : fd_create F (mk a0) b1 = Some (mk a2)).
    { pose proof (D1 (mk a0)) as Hc. rewrite <- H2 in Hc. rewrite <- Hc. f_equal.
      destruct (fi_fee _ _ HI _ _ _ Hc) as [Hn|(_ & x & y & Ha & _)]; unfold pdata in E1;
        rewrite ?Hn, ?Ha in E1; [discriminate|]. cbn in E1. congruence. }
    assert (B2 : fd_create F (mk a1) b2 = Some (mk a3)).
    { pose proof (D1 (mk a1)) as Hc. rewrite <- H3 in Hc. rewrite <- Hc. f_equal.
      destruct (fi_fee _ _ HI _ _ _ Hc) as [Hn|(_ & x & y & Ha & _)]; unfold pdata in E2;
        rewrite ?Hn, ?Ha in E2; [discriminate|]. cbn in E2. congruence. }
    rewrite B1, B2. cbn. rewrite !Z.eqb_refl. reflexivity.
Qed.
Lemma lst_fees_range F pw m i o : flat_derive_ok F -> flat_inv F pw -> lst_fees F pw m = Some (i, o) ->
  fee_ok_range i /\ fee_ok_range o.
Proof.
  intros (D1 & _) HI. unfold lst_fees, pdata. intros H.
  destruct (fi_fee _ _ HI _ _ _ (D1 m)) as [Hn|(_ & x & y & Ha & Hx & Hy)].
  - rewrite Hn in H. discriminate.
  - rewrite Ha in H. cbn in H. injection H as -> ->. auto.
Qed.
Lemma ratio_iff i o p : fee_ok_range i -> fee_ok_range o ->
  out_sol_value_ratio i o = Ok p <-> i + o <= 10000 /\ p = 10000 - i - o.
Proof.
  unfold fee_ok_range. intros Hi Ho. unfold out_sol_value_ratio, i16b, guard.
  destruct (Z.leb_spec (-32768) (i + o)), (Z.leb_spec (i + o) 32767); try lia.
  destruct (Z.leb_spec (-32768) (10000 - (i + o))), (Z.leb_spec (10000 - (i + o)) 32767); try lia.
  destruct (Z.leb_spec 0 (10000 - (i + o))); cbn [andb]; split.
  - intros E. apply (f_equal (fun r => match r with Ok x => x | Err _ => 0 end)) in E. cbv beta iota in E. lia.
  - intros (_ & ->). f_equal. lia.
  - discriminate.
  - lia.
Qed.
Lemma map_err_ok {A} e (m : res A) a : map_err e m = Ok a <-> m = Ok a.
Proof. destruct m; cbn; split; congruence. Qed.

(** Exact-in: a price is given exactly when both LSTs have fees on record (input fee [i] of the input LST,
    output fee [o] of the output LST) that sum to at most 100%; it is the input's value less that
    percentage, rounded down. *)
Theorem C24_exact_in R F pw accs amount v pw' r :
  flat_derive_ok F -> flat_reachable R F pw -> U64 v ->
  flat_process R F pw accs (PriceExactIn amount v) = Ok (pw', r) <->
  pw' = pw /\ price_accounts F accs /\
  exists i o i' o', lst_fees F pw (key_at accs 0) = Some (i, o') /\
    lst_fees F pw (key_at accs 1) = Some (i', o) /\
    i + o <= 10000 /\ v * (10000 - i - o) / 10000 <= U64_MAX /\
    r = Some (v * (10000 - i - o) / 10000).
Proof.
  intros D Hr Hv0. pose proof (flat_reachable_inv _ _ _ D Hr) as HI.
  assert (Hsh : forall p, share v p BPS_DENOMINATOR = v * p / 10000).
  { intros p. unfold share, down, BPS_DENOMINATOR. destruct (Z.eqb_spec p 0) as [->|]; cbn [orb Z.eqb]; auto.
    now rewrite Z.mul_0_r. }
  cbn [flat_process]. unfold process_price_exact_in, calculate_price_exact_in. split.
  - intros H. inv_ok. destruct v1 as (i, o). cbn [fst snd] in *.
    apply (verify_price_iff R) in Hv1 as (Ha & (o' & H1) & (i' & H2)); auto.
    destruct (lst_fees_range _ _ _ _ _ D HI H1) as (Ri & _).
    destruct (lst_fees_range _ _ _ _ _ D HI H2) as (_ & Ro).
    apply ratio_iff in Hv2 as (Hle & ->); auto.
    apply map_err_ok, floor_apply_share in Hv. rewrite Hsh in Hv. destruct Hv as (-> & Hm).
    split; [auto|]. split; [auto|]. exists i, o, i', o'. auto.
  - intros (-> & Ha & i & o & i' & o' & H1 & H2 & Hle & Hm & ->).
    destruct (lst_fees_range _ _ _ _ _ D HI H1) as (Ri & _).
    destruct (lst_fees_range _ _ _ _ _ D HI H2) as (_ & Ro).
    apply bind_ok. eexists. split; [|reflexivity].
    apply bind_ok. exists (i, o). split; [apply (verify_price_iff R); eauto|].
    apply bind_ok. exists (10000 - i - o). split; [apply ratio_iff; auto|].
    apply map_err_ok, floor_apply_share. rewrite Hsh. auto.
Qed.

(** With no net rebate the price never exceeds the value put in. *)
Theorem C24_exact_in_bounded R F pw accs amount v pw' r i o i' o' :
  flat_derive_ok F -> flat_reachable R F pw -> U64 v ->
  flat_process R F pw accs (PriceExactIn amount v) = Ok (pw', Some r) ->
  lst_fees F pw (key_at accs 0) = Some (i, o') -> lst_fees F pw (key_at accs 1) = Some (i', o) ->
  0 <= r /\ (0 <= i + o -> r <= v).
Proof.
  intros D Hr Hv H H1 H2. apply C24_exact_in in H as (_ & _ & i1 & o1 & i2 & o2 & H3 & H4 & Hle & Hm & Hq); auto.
  rewrite H1 in H3. rewrite H2 in H4. injection H3 as <- <-. injection H4 as <- <-.
  assert (r = v * (10000 - i - o) / 10000) as -> by congruence.
  unfold U64 in Hv. split.
  - apply Z.div_pos; nia.
  - intros. apply Z.div_le_upper_bound; nia.
Qed.

(** Fees summing to more than 100%, or an LST without fees on record: no price. *)
Theorem C24_exact_in_refused R F pw accs amount v :
  flat_derive_ok F -> flat_reachable R F pw -> U64 v ->
  lst_fees F pw (key_at accs 0) = None \/ lst_fees F pw (key_at accs 1) = None \/
  (forall i o i' o', lst_fees F pw (key_at accs 0) = Some (i, o') ->
     lst_fees F pw (key_at accs 1) = Some (i', o) -> 10000 < i + o) ->
  forall pw' r, flat_process R F pw accs (PriceExactIn amount v) <> Ok (pw', r) /\
                flat_process R F pw accs (PriceExactOut amount v) <> Ok (pw', r).
Proof.
  intros D Hr Hv Hno pw' r. pose proof (flat_reachable_inv _ _ _ D Hr) as HI. split; intros H.
  - apply C24_exact_in in H as (_ & _ & i & o & i' & o' & H1 & H2 & Hle & _); auto.
    destruct Hno as [?|[?|Hno]]; try congruence. specialize (Hno _ _ _ _ H1 H2). lia.
  - cbn [flat_process] in H. unfold process_price_exact_out, calculate_price_exact_out in H. inv_ok.
    destruct v1 as (i, o). cbn [fst snd] in *.
    apply (verify_price_iff R) in Hv1 as (_ & (o' & H1) & (i' & H2)); auto.
    destruct (lst_fees_range _ _ _ _ _ D HI H1) as (Ri & _).
    destruct (lst_fees_range _ _ _ _ _ D HI H2) as (_ & Ro).
    apply ratio_iff in Hv2 as (Hle & _); auto.
    destruct Hno as [?|[?|Hno]]; try congruence. specialize (Hno _ _ _ _ H1 H2). lia.
Qed.

(** Exact-out: the quote [q] is at least every input value whose exact-in price is at most the requested
    output; so paying [q] buys at least what was asked for — exactly so without a net rebate, up to two
    lamports with one — unless no u64 input would. *)
Theorem C24_exact_out R F pw accs amount y pw' q :
  ratio_lib_ok R -> flat_derive_ok F -> flat_reachable R F pw -> U64 y ->
  flat_process R F pw accs (PriceExactOut amount y) = Ok (pw', Some q) ->
  pw' = pw /\ U64 q /\ price_accounts F accs /\
  exists i o i' o', lst_fees F pw (key_at accs 0) = Some (i, o') /\
    lst_fees F pw (key_at accs 1) = Some (i', o) /\ i + o <= 10000 /\
    (i + o < 10000 ->
     (forall x, U64 x -> x * (10000 - i - o) / 10000 <= y -> x <= q) /\
     (q = U64_MAX \/ y - (if 0 <=? i + o then 0 else 2) <= q * (10000 - i - o) / 10000) /\
     (0 <= i + o -> y <= q)).
Proof.
  intros HR D Hr Hy H. pose proof (flat_reachable_inv _ _ _ D Hr) as HI.
  cbn [flat_process] in H. unfold process_price_exact_out, calculate_price_exact_out in H. inv_ok.
  destruct v0 as (i, o). cbn [fst snd] in *. destruct v2 as (lo, hi). cbn [snd].
  apply (verify_price_iff R) in Hv0 as (Ha & (o' & H1) & (i' & H2)); auto.
  destruct (lst_fees_range _ _ _ _ _ D HI H1) as (Ri & _).
  destruct (lst_fees_range _ _ _ _ _ D HI H2) as (_ & Ro).
  apply ratio_iff in Hv1 as (Hle & ->); auto. apply map_err_ok in Hv2.
  destruct HR as (R1 & _ & _ & R4 & _). destruct (R4 _ _ _ _ _ Hv2) as (_ & Uh & _).
  split; [auto|]. split; [auto|]. split; [auto|]. exists i, o, i', o'.
  split; [auto|]. split; [auto|]. split; [auto|]. intros Hlt.
  assert (Hb : brackets (fun x => x * (10000 - i - o) / BPS_DENOMINATOR) y lo hi).
  { apply R1; auto; unfold BPS_DENOMINATOR; unfold U64 in Hy; lia. }
  unfold BPS_DENOMINATOR in Hb. destruct Hb as (_ & _ & _ & Bh).
  assert (B : forall x, U64 x -> x * (10000 - i - o) / 10000 <= y -> x <= hi).
  { intros x Hx. apply Bh. exact Hx. }
  split; [exact B|]. unfold fee_ok_range, U64 in *. split.
  - destruct (Z.eq_dec hi U64_MAX) as [?|Hne]; [auto|right].
    assert (Hp : ~ (hi + 1) * (10000 - i - o) / 10000 <= y).
    { intros Hle'. specialize (B (hi + 1) ltac:(lia) Hle'). lia. }
    assert (Hq : y + 1 <= (hi + 1) * (10000 - i - o) / 10000) by lia.
    apply div_spec in Hq; [|lia]. apply div_spec; [lia|].
    destruct (Z.leb_spec 0 (i + o)); nia.
  - intros Hf. apply B; [lia|]. apply Z.div_le_upper_bound; nia.
Qed.

(** Redeeming: the recorded withdrawal fee, rounded up, is taken off; never more than the amount. *)
Theorem C24_redeem R F pw accs amount v pw' r :
  flat_derive_ok F -> flat_reachable R F pw -> U64 v ->
  flat_process R F pw accs (PriceLpTokensToRedeem amount v) = Ok (pw', r) <->
  pw' = pw /\ (2 <= length accs)%nat /\ key_at accs 1 = ff_state F /\
  exists f, flat_lp_fee F pw = Some f /\ r = Some (v - up (v * f) 10000).
Proof.
  intros D Hr Hv. pose proof (flat_reachable_inv _ _ _ D Hr) as HI.
  assert (Hf : forall f, flat_lp_fee F pw = Some f -> 0 <= f <= 10000).
  { unfold flat_lp_fee, pdata. intros f H. destruct (fi_state _ _ HI) as [Hn|(m & g & Ha & Hg)].
    - rewrite Hn in H. discriminate.
    - rewrite Ha in H. cbn in H. congruence. }
  assert (Hc : forall f, ceil_fee f BPS_DENOMINATOR v = up (v * f) 10000).
  { intros f. unfold ceil_fee, BPS_DENOMINATOR. rewrite up_ceil_div by lia.
    destruct (Z.eqb_spec f 0) as [->|]; cbn [orb Z.eqb]; auto. now rewrite Z.mul_0_r. }
  cbn [flat_process]. unfold process_price_lp_tokens_to_redeem, calculate_price_lp_tokens_to_redeem,
    try_program_state. split.
  - intros H. destruct accs as [|a0 [|a1 accs]]; try discriminate. inv_ok. ka.
    cbn [keys_match] in *. inv_ok. unfold flat_lp_fee in *.
    replace (ff_state F) with (mk a1) in * by assumption.
    destruct (pdata _ (mk a1)) as [| | | | | | |m f| | |] eqn:E1; try discriminate. inv_ok. cbn [snd] in *.
    apply map_err_ok, ceil_fee_after_ok in Hv0 as (_ & ->); [|specialize (Hf f eq_refl); unfold BPS_DENOMINATOR; lia..].
    split; [auto|]. split; [cbn [length]; lia|]. split; [auto|]. exists f. rewrite Hc. auto.
  - intros (-> & HL & Hk & f & Hlp & ->). destruct accs as [|a0 [|a1 accs]]; cbn [length] in HL; try lia. ka.
    specialize (Hf _ Hlp). unfold flat_lp_fee in Hlp.
    cbn [keys_match]. rewrite Hk, !Z.eqb_refl. cbn [andb guard].
    destruct (pdata pw (ff_state F)) as [| | | | | | |m g| | |] eqn:E1; try discriminate. injection Hlp as ->.
    cbn [bind snd]. apply bind_ok. eexists. split; [|reflexivity].
    apply map_err_ok, ceil_fee_after_ok; [unfold BPS_DENOMINATOR; lia..|]. rewrite Hc. split; [unfold BPS_DENOMINATOR; lia|auto].
Qed.
Theorem C24_redeem_bounded R F pw accs amount v pw' r :
  flat_derive_ok F -> flat_reachable R F pw -> U64 v ->
  flat_process R F pw accs (PriceLpTokensToRedeem amount v) = Ok (pw', Some r) -> 0 <= r <= v.
Proof.
  intros D Hr Hv H. pose proof (flat_reachable_inv _ _ _ D Hr) as HI.
  apply C24_redeem in H as (_ & _ & _ & f & Hf & Hq); auto.
  assert (r = v - up (v * f) 10000) as -> by congruence. clear Hq.
  assert (0 <= f <= 10000).
  { unfold flat_lp_fee, pdata in Hf. destruct (fi_state _ _ HI) as [Hn|(m & g & Ha & Hg)].
    - rewrite Hn in Hf. discriminate.
    - rewrite Ha in Hf. cbn in Hf. congruence. }
  unfold U64 in Hv. rewrite up_ceil_div by lia. rewrite ceil_fee_rest by lia.
  split; [apply Z.div_pos; nia|apply Z.div_le_upper_bound; nia].
Qed.

(** Adding liquidity is free of fees at the flat-fee program; the no-fee program prices everything at
    its value and has no other instruction. *)
Theorem C24_mint_free R F pw accs amount v :
  flat_process R F pw accs (PriceLpTokensToMint amount v) = Ok (pw, Some v).
Proof. reflexivity. Qed.
Theorem C24_no_fee ix r :
  nofee_process ix = Ok r <->
  exists a, ix = PriceExactIn a r \/ ix = PriceExactOut a r \/ ix = PriceLpTokensToMint a r \/
            ix = PriceLpTokensToRedeem a r.
Proof.
  split.
  - destruct ix; cbn; try discriminate; intros [= <-]; eauto 6.
  - intros (a & [->|[->|[->| ->]]]); reflexivity.
Qed.

(* ------------------------------------------------------------------ *)
(** * C41 *)

(** Fees on record are always within bounds: the withdrawal fee 0..100%, LST fees -100%..100%. *)
Theorem C41_fee_bounds R F pw :
  flat_derive_ok F -> flat_reachable R F pw ->
  (forall f, flat_lp_fee F pw = Some f -> 0 <= f <= 10000) /\
  (forall m i o, lst_fees F pw m = Some (i, o) -> -10000 <= i <= 10000 /\ -10000 <= o <= 10000).
Proof.
  intros D Hr. pose proof (flat_reachable_inv _ _ _ D Hr) as HI. split.
  - intros f Hf. unfold flat_lp_fee, pdata in Hf. destruct (fi_state _ _ HI) as [Hn|(m & g & Ha & Hg)].
    + rewrite Hn in Hf. discriminate.
    + rewrite Ha in Hf. cbn in Hf. congruence.
  - intros m i o H. exact (lst_fees_range _ _ _ _ _ D HI H).
Qed.

Lemma flat_pda_fee F m : flat_derive_ok F -> flat_pda F (fst (fd_find F m)).
Proof. intros (D1 & _). right. eauto. Qed.
Lemma find_not_state F m : flat_derive_ok F -> fst (fd_find F m) <> ff_state F.
Proof. intros (D1 & _ & D3 & _) E. apply (D3 m (snd (fd_find F m))). rewrite D1. congruence. Qed.
Lemma find_inj F m m' : flat_derive_ok F -> fst (fd_find F m) = fst (fd_find F m') -> m = m'.
Proof. intros (D1 & D2 & _) E. pose proof (D1 m) as H. rewrite E in H. exact (proj1 (D2 _ _ _ _ _ H (D1 m'))). Qed.

Lemma pdata_put_other pw k a k' : k' <> k -> pdata (put_acc pw k a) k' = pdata pw k'.
Proof. intros. unfold pdata. now rewrite pw_acc_put_other. Qed.

(** What each instruction does to the program's records; everything not mentioned stays. *)
Theorem C41_effects R F pw accs ix pw' r :
  flat_derive_ok F -> flat_reachable R F pw ->
  flat_process R F pw accs ix = Ok (pw', r) ->
  match ix with
  | PriceExactIn _ _ | PriceExactOut _ _ | PriceLpTokensToMint _ _ | PriceLpTokensToRedeem _ _ => pw' = pw
  | FlatInitialize =>
      flat_manager F pw = None /\ flat_manager F pw' = Some (ff_manager0 F) /\ flat_lp_fee F pw' = Some 5 /\
      (forall m, lst_fees F pw' m = lst_fees F pw m)
  | _ => exists mgr, flat_manager F pw = Some mgr /\ signed_by accs mgr /\
    match ix with
    | SetLpWithdrawalFee bps =>
        0 <= bps <= 10000 /\ flat_manager F pw' = Some mgr /\ flat_lp_fee F pw' = Some bps /\
        (forall m, lst_fees F pw' m = lst_fees F pw m)
    | FlatSetManager =>
        flat_manager F pw' = Some (key_at accs 1) /\ flat_lp_fee F pw' = flat_lp_fee F pw /\
        (forall m, lst_fees F pw' m = lst_fees F pw m)
    | SetLstFee i o =>
        -10000 <= i <= 10000 /\ -10000 <= o <= 10000 /\
        flat_manager F pw' = Some mgr /\ flat_lp_fee F pw' = flat_lp_fee F pw /\
        (forall m, fst (fd_find F m) = key_at accs 1 ->
           lst_fees F pw m <> None /\ lst_fees F pw' m = Some (i, o)) /\
        (forall m, fst (fd_find F m) <> key_at accs 1 -> lst_fees F pw' m = lst_fees F pw m)
    | FlatAddLst i o =>
        -10000 <= i <= 10000 /\ -10000 <= o <= 10000 /\
        flat_manager F pw' = Some mgr /\ flat_lp_fee F pw' = flat_lp_fee F pw /\
        lst_fees F pw (key_at accs 3) = None /\ lst_fees F pw' (key_at accs 3) = Some (i, o) /\
        (forall m, m <> key_at accs 3 -> lst_fees F pw' m = lst_fees F pw m)
    | FlatRemoveLst =>
        flat_manager F pw' = Some mgr /\ flat_lp_fee F pw' = flat_lp_fee F pw /\
        lst_fees F pw' (key_at accs 3) = None /\
        (forall m, m <> key_at accs 3 -> lst_fees F pw' m = lst_fees F pw m)
    | _ => False
    end
  end.
Proof.
  intros D Hr H. pose proof (flat_reachable_inv _ _ _ D Hr) as HI.
  pose proof (fun m => find_not_state F m D) as Hns.
  destruct ix as [? v|? v|? v|? v|bps|i o| |i o| |]; cbn [flat_process] in H; inv_ok; auto;
    unfold flat_manager, flat_lp_fee, lst_fees.
  - destruct (set_lp_inv _ _ _ _ _ Hv) as (m & f & H1 & Hs & Hb & _ & ->). exists m. rewrite H1.
    split; [auto|]. split; [auto|]. split; [auto|]. rewrite pdata_put_same. split; [auto|]. split; [auto|].
    intros m'. now rewrite pdata_put_other.
  - destruct (set_lst_inv _ _ _ _ _ _ Hv) as (m & f & b & i0 & o0 & H1 & Hs & Hi & Ho & H2 & H3 & ->).
    exists m. rewrite H1. split; [auto|]. split; [auto|]. split; [auto|]. split; [auto|].
    assert (key_at accs 1 <> ff_state F) by (intros E; rewrite E in *; congruence).
    rewrite pdata_put_other, H1 by auto. split; [auto|]. split; [auto|]. split.
    + intros m' E. rewrite E, pdata_put_same, H2. split; [discriminate|auto].
    + intros m' E. now rewrite pdata_put_other.
  - destruct (remove_inv _ _ _ _ Hv) as (m & f & H1 & Hs & H2 & [(H3 & ->)|(H3 & _ & ->)]);
      exists m; rewrite H1; (split; [auto|]); (split; [auto|]); rewrite <- H2.
    + assert (key_at accs 2 <> ff_state F) by (rewrite H2; apply Hns).
      rewrite pdata_put_other, H1 by auto. split; [auto|]. split; [auto|].
      unfold no_account. rewrite pdata_put_same. split; [auto|]. intros m' E. rewrite pdata_put_other; auto.
      rewrite H2. intros E'. apply E. exact (find_inj _ _ _ D E').
    + rewrite H3. auto.
  - destruct (add_inv _ _ _ _ _ _ Hv) as (m & f & H1 & Hs & Hi & Ho & H2 & H3 & _ & _ & ->).
    exists m; rewrite H1; (split; [auto|]); (split; [auto|]); (split; [auto|]); (split; [auto|]).
    assert (key_at accs 2 <> ff_state F) by (rewrite H2; apply Hns).
    rewrite pdata_put_other, H1 by auto. split; [auto|]. split; [auto|].
    rewrite <- H2, pdata_put_same. unfold pdata at 1. rewrite H3. split; [auto|]. split; [auto|].
    intros m' E. rewrite pdata_put_other; auto.
    rewrite H2. intros E'. apply E. exact (find_inj _ _ _ D E').
  - destruct (set_mgr_inv _ _ _ _ Hv) as (m & f & H1 & Hs & H3 & ->).
    exists m. rewrite H1. split; [auto|]. split; [auto|]. rewrite pdata_put_same. split; [auto|]. split; [auto|].
    intros m'. now rewrite pdata_put_other.
  - destruct (initialize_inv _ _ _ _ Hv) as (H1 & ->). unfold pdata at 1. rewrite H1.
    rewrite pdata_put_same. split; [auto|]. split; [auto|]. split; [auto|].
    intros m'. now rewrite pdata_put_other.
Qed.

(** Nobody but the manager changes a fee or the manager, in any step of any history, once the program
    is initialised. *)
Theorem C41_only_manager R F pw pw' mgr :
  flat_derive_ok F -> flat_reachable R F pw -> flat_step R F pw pw' -> flat_manager F pw = Some mgr ->
  (flat_manager F pw' = Some mgr /\ flat_lp_fee F pw' = flat_lp_fee F pw /\
   forall m, lst_fees F pw' m = lst_fees F pw m) \/
  exists accs ix r, flat_process R F pw accs ix = Ok (pw', r) /\ signed_by accs mgr /\ ix <> FlatInitialize.
Proof.
  intros D Hr Hs Hm. destruct Hs as [Hx|accs ix r H].
  - left. unfold flat_manager, flat_lp_fee, lst_fees, pdata in *.
    rewrite (Hx _ (or_introl eq_refl)). split; [auto|]. split; [auto|]. intros m.
    now rewrite (Hx _ (flat_pda_fee F m D)).
  - pose proof (C41_effects _ _ _ _ _ _ _ D Hr H) as He.
    destruct ix as [? v|? v|? v|? v|bps|i o| |i o| |];
      try (subst; left; auto; fail);
      try (destruct He as (mgr' & H1 & H2 & _); right; eexists _, _, _; split; [exact H|];
           split; [congruence|discriminate]).
    destruct He as (He & _). congruence.
Qed.

(** Initialisation succeeds at most once: once there is a manager there always is, and it fails. *)
Theorem C41_init_once R F pw pw' accs pw'' r :
  flat_derive_ok F -> flat_reachable R F pw -> flat_steps R F pw pw' -> flat_manager F pw <> None ->
  flat_manager F pw' <> None /\ flat_process R F pw' accs FlatInitialize <> Ok (pw'', r).
Proof.
  intros D Hr Hs Hm. assert (Hm' : flat_reachable R F pw' /\ flat_manager F pw' <> None).
  { induction Hs as [pw|pw1 pw2 pw3 Hs IH Hst]; [auto|]. destruct (IH Hr Hm) as (Hr2 & Hm2). split.
    - destruct Hr2 as (pw0 & H0 & Hs0). exists pw0. split; [auto|]. econstructor; eauto.
    - destruct Hst as [Hx|a ix r' H].
      + unfold flat_manager, pdata in *. now rewrite (Hx _ (or_introl eq_refl)).
      + pose proof (C41_effects _ _ _ _ _ _ _ D Hr2 H) as He.
        destruct ix as [? v|? v|? v|? v|bps|i o| |i o| |]; try (subst; auto; fail);
          destruct He as (? & ? & He); intuition congruence. }
  destruct Hm' as (Hr' & Hm'). split; [auto|]. intros H.
  pose proof (C41_effects _ _ _ _ _ _ _ D Hr' H) as (He & _). congruence.
Qed.

(** The manager can always set the fee of a listed LST: nothing else is needed. *)
Theorem C41_manager_can_set_fee R F pw mgr m i0 o0 i o a0 a1 a2 rest :
  flat_derive_ok F -> flat_reachable R F pw -> flat_manager F pw = Some mgr ->
  lst_fees F pw m = Some (i0, o0) -> -10000 <= i <= 10000 -> -10000 <= o <= 10000 ->
  mk a0 = mgr -> is_signer a0 = true -> mk a1 = fst (fd_find F m) -> is_writable a1 = true ->
  mk a2 = ff_state F ->
  exists pw', flat_process R F pw (a0 :: a1 :: a2 :: rest) (SetLstFee i o) = Ok (pw', None) /\
    lst_fees F pw' m = Some (i, o).
Proof.
  intros D Hr Hm Hf Hi Ho E0 S0 E1 W1 E2. pose proof (flat_reachable_inv _ _ _ D Hr) as HI.
  enough (exists pw', flat_process R F pw (a0 :: a1 :: a2 :: rest) (SetLstFee i o) = Ok (pw', None)) as (pw' & H).
  { exists pw'. split; [auto|].
    pose proof (C41_effects _ _ _ _ _ _ _ D Hr H) as (mg & _ & _ & _ & _ & _ & _ & Hs & _).
    apply Hs. unfold key_at. cbn. auto. }
  cbn [flat_process process_set_lst_fee]. unfold try_program_state, try_fee_account, verify_keys_privs,
    privileges_ok, verify_signed_fee_bps_bound, write_data. cbn [keys_match forallb].
  rewrite E0, S0, E1, W1, E2. unfold flat_manager in Hm. unfold lst_fees in Hf.
  destruct (pdata pw (ff_state F)) as [| | | | | | |mm ff| | |]; try discriminate. injection Hm as ->.
  destruct D as (D1 & _).
  destruct (fi_fee _ _ HI _ _ _ (D1 m)) as [Hn|(_ & x & y & Ha & _)]; unfold pdata in Hf.
  - rewrite Hn in Hf. discriminate.
  - unfold pdata, powner. rewrite Ha. cbn. rewrite !Z.eqb_refl. cbn.
    destruct (Z.leb_spec (-10000) i), (Z.leb_spec i 10000), (Z.leb_spec (-10000) o), (Z.leb_spec o 10000); try lia.
    cbn. eauto.
Qed.

(* ------------------------------------------------------------------ *)
(** * A concrete chain meeting the hypotheses *)

(** Fee PDA of mint m with bump b: canonical bump 255. State PDA 702. *)
Definition flat_cfg : FlatCfg := mkFlat 700 702 703
  (fun m b => if (0 <=? b) && (b <=? 255) then Some (100000 + 1000 * (2 * Z.abs m + (if m <? 0 then 1 else 0)) + b) else None)
  (fun m => (100000 + 1000 * (2 * Z.abs m + (if m <? 0 then 1 else 0)) + 255, 255)).
Example C24_case_derive : flat_derive_ok flat_cfg.
Proof.
  unfold flat_derive_ok, flat_cfg; cbn [fd_create fd_find ff_state ff_id fst snd]. split; [|split; [|split]].
  - intros m. reflexivity.
  - intros m b m' b' k.
    destruct ((0 <=? b) && (b <=? 255)) eqn:E1; [|discriminate].
    destruct ((0 <=? b') && (b' <=? 255)) eqn:E2; [|discriminate].
    apply andb_true_iff in E1, E2. rewrite !Z.leb_le in *. intros K1 K2.
    assert (H : 100000 + 1000 * (2 * Z.abs m + (if m <? 0 then 1 else 0)) + b =
                100000 + 1000 * (2 * Z.abs m' + (if m' <? 0 then 1 else 0)) + b') by congruence.
    clear K1 K2. destruct (Z.ltb_spec m 0), (Z.ltb_spec m' 0); lia.
  - intros m b. destruct ((0 <=? b) && (b <=? 255)) eqn:E1; [|discriminate].
    apply andb_true_iff in E1. rewrite !Z.leb_le in *. intros K.
    assert (H : 100000 + 1000 * (2 * Z.abs m + (if m <? 0 then 1 else 0)) + b = 702) by congruence.
    clear K. destruct (Z.ltb_spec m 0); lia.
  - discriminate.
Qed.
Definition fpw0 : PWorld := mkPW (fun k =>
  if k =? 801 then mkPAcc SPL_TOKEN_ID PMint else if k =? 802 then mkPAcc SPL_TOKEN_ID PMint
  else no_account) 7.
Definition fee801 := fst (fd_find flat_cfg 801).
Definition fee802 := fst (fd_find flat_cfg 802).
Definition fadd m := [mt 703 true true; mt 703 true true; mt (fst (fd_find flat_cfg m)) false true; mt m false false;
                      mt 702 false false; mt SYSTEM_PROGRAM_ID false false].
Definition fpw1 := put_acc fpw0 702 (mkPAcc 700 (PFlatState 703 5)).
Definition fpw2 := put_acc fpw1 fee801 (mkPAcc 700 (PFlatFee 255 100 200)).
Definition fpw3 := put_acc fpw2 fee802 (mkPAcc 700 (PFlatFee 255 (-30) 50)).
Example C24_case_reachable : flat_reachable ref_ratio_lib flat_cfg fpw3.
Proof.
  exists fpw0. split.
  - intros k [->|(m & b & Hk)]; [reflexivity|]. unfold flat_cfg in Hk; cbn [fd_create] in Hk.
    destruct ((0 <=? b) && (b <=? 255)) eqn:E1; [|discriminate].
    apply andb_true_iff in E1. rewrite !Z.leb_le in *.
    assert (H : 100000 + 1000 * (2 * Z.abs m + (if m <? 0 then 1 else 0)) + b = k) by congruence. clear Hk.
    unfold fpw0. cbn. destruct (Z.eqb_spec k 801); [destruct (m <? 0); lia|].
    destruct (Z.eqb_spec k 802); [destruct (m <? 0); lia|]. reflexivity.
  - eapply fss_cons with fpw2; [eapply fss_cons with fpw1; [eapply fss_cons with fpw0; [constructor|]|]|].
    + apply fs_call with [mt 900 true true; mt 702 false true; mt SYSTEM_PROGRAM_ID false false] FlatInitialize None. reflexivity.
    + apply fs_call with (fadd 801) (FlatAddLst 100 200) None. reflexivity.
    + apply fs_call with (fadd 802) (FlatAddLst (-30) 50) None. reflexivity.
Qed.
Definition fprice := [mt 801 false false; mt 802 false false; mt fee801 false false; mt fee802 false false].
Example C24_case_price :
  flat_process ref_ratio_lib flat_cfg fpw3 fprice (PriceExactIn 1 1000000) = Ok (fpw3, Some 985000) /\
  flat_process ref_ratio_lib flat_cfg fpw3 fprice (PriceExactOut 1 985000) = Ok (fpw3, Some 1000001) /\
  flat_process ref_ratio_lib flat_cfg fpw3 [mt 801 false false; mt 702 false false] (PriceLpTokensToRedeem 1 1999)
    = Ok (fpw3, Some 1998).
Proof. repeat split; reflexivity. Qed.
Example C41_case : flat_manager flat_cfg fpw3 = Some 703 /\ flat_lp_fee flat_cfg fpw3 = Some 5 /\
  lst_fees flat_cfg fpw3 801 = Some (100, 200) /\ lst_fees flat_cfg fpw3 802 = Some (-30, 50).
Proof. repeat split; reflexivity. Qed.
