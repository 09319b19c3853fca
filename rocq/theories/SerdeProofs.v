(** Lemmas about the byte-level model. *)
From Coq Require Import ZArith List Bool Lia ZifyBool ZifyNat.
From Verif Require Import Base State Controller Serde.
Import ListNotations.
Open Scope Z_scope.

(* ------------------------------------------------------------------ *)
(** * Integers *)

Lemma le_bytes_length n x : length (le_bytes n x) = n.
Proof. revert x; induction n; intros; cbn; auto. Qed.

Lemma le_bytes_ok n x : are_bytes (le_bytes n x) = true.
Proof.
  revert x; induction n; intros; cbn; auto.
  rewrite IHn, andb_true_r. pose proof (Z.mod_pos_bound x 256 ltac:(lia)). unfold u8b, U8_MAX. lia.
Qed.

Lemma le_val_bytes n x : 0 <= x < 256 ^ Z.of_nat n -> le_val (le_bytes n x) = x.
Proof.
  revert x; induction n; intros x Hx; cbn [le_bytes le_val].
  - cbn in Hx. lia.
  - rewrite IHn.
    + pose proof (Z.div_mod x 256 ltac:(lia)). lia.
    + rewrite Nat2Z.inj_succ, Z.pow_succ_r in Hx by lia. split.
      * apply Z.div_pos; lia.
      * apply Z.div_lt_upper_bound; lia.
Qed.

Lemma le_val_range b : are_bytes b = true -> 0 <= le_val b < 256 ^ Z.of_nat (length b).
Proof.
  induction b as [|x t IH]; cbn [le_val length are_bytes forallb]; intros H.
  - cbn. lia.
  - apply andb_true_iff in H as [Hx Ht]. specialize (IH Ht).
    rewrite Nat2Z.inj_succ, Z.pow_succ_r by lia. unfold u8b, U8_MAX in Hx. lia.
Qed.

Lemma le_bytes_val b : are_bytes b = true -> le_bytes (length b) (le_val b) = b.
Proof.
  induction b as [|x t IH]; cbn [le_val length are_bytes forallb le_bytes]; intros H; auto.
  apply andb_true_iff in H as [Hx Ht]. unfold u8b, U8_MAX in Hx.
  f_equal.
  - replace (x + 256 * le_val t) with (x + le_val t * 256) by lia.
    rewrite Z_mod_plus_full. apply Z.mod_small. lia.
  - replace ((x + 256 * le_val t) / 256) with (le_val t); [auto|].
    replace (x + 256 * le_val t) with (x + le_val t * 256) by lia.
    rewrite Z_div_plus_full by lia. rewrite Z.div_small by lia. lia.
Qed.

Lemma are_bytes_app a b : are_bytes (a ++ b) = are_bytes a && are_bytes b.
Proof. apply forallb_app. Qed.

Lemma are_bytes_firstn n b : are_bytes b = true -> are_bytes (firstn n b) = true.
Proof.
  intros H. rewrite <- (firstn_skipn n b), are_bytes_app in H. now apply andb_true_iff in H.
Qed.
Lemma are_bytes_skipn n b : are_bytes b = true -> are_bytes (skipn n b) = true.
Proof.
  intros H. rewrite <- (firstn_skipn n b), are_bytes_app in H. now apply andb_true_iff in H.
Qed.

Lemma firstn_exact {A} (a b : list A) n : length a = n -> firstn n (a ++ b) = a.
Proof. intros <-. rewrite firstn_app, Nat.sub_diag, firstn_all. cbn. apply app_nil_r. Qed.
Lemma skipn_exact {A} (a b : list A) n : length a = n -> skipn n (a ++ b) = b.
Proof. intros <-. rewrite skipn_app, Nat.sub_diag, skipn_all. reflexivity. Qed.

(* ------------------------------------------------------------------ *)
(** * Reading *)

Lemma read_app n x t : 0 <= x < 256 ^ Z.of_nat n -> read n (le_bytes n x ++ t) = Some (x, t).
Proof.
  intros Hx. unfold read.
  rewrite app_length, le_bytes_length.
  destruct (Nat.ltb_spec (n + length t) n); [lia|].
  rewrite firstn_exact, skipn_exact by apply le_bytes_length.
  now rewrite le_val_bytes.
Qed.

Lemma read_1 x t : u8b x = true -> read 1 (le_bytes 1 x ++ t) = Some (x, t).
Proof. unfold u8b, U8_MAX. intros. apply read_app. cbn. lia. Qed.
Lemma read_1' x t : read 1 (x :: t) = Some (x, t).
Proof. unfold read. cbn. f_equal. f_equal. lia. Qed.
Lemma read_2 x t : u16b x = true -> read 2 (le_bytes 2 x ++ t) = Some (x, t).
Proof. unfold u16b, U16_MAX. intros. apply read_app. cbn. lia. Qed.
Lemma read_4 x t : u32b x = true -> read 4 (le_bytes 4 x ++ t) = Some (x, t).
Proof. unfold u32b, U32_MAX. intros. apply read_app. cbn. lia. Qed.
Lemma read_8 x t : u64b x = true -> read 8 (le_bytes 8 x ++ t) = Some (x, t).
Proof. unfold u64b, U64_MAX. intros. apply read_app. cbn. lia. Qed.
Lemma read_opt x t : opt_u16b x = true -> read_opt16 (enc_opt16 x ++ t) = Some (x, t).
Proof.
  destruct x as [v|]; cbn [opt_u16b enc_opt16]; intros H; unfold read_opt16.
  - rewrite <- app_comm_cons, read_1'. cbn [Z.eqb Pos.eqb]. now rewrite read_2.
  - cbn [app]. rewrite read_1'. reflexivity.
Qed.

Lemma read_inv n b x t : are_bytes b = true -> read n b = Some (x, t) ->
  b = le_bytes n x ++ t /\ 0 <= x < 256 ^ Z.of_nat n /\ are_bytes t = true.
Proof.
  unfold read. intros Hb. destruct (Nat.ltb_spec (length b) n); [discriminate|].
  intros [= <- <-].
  assert (Hl : length (firstn n b) = n) by (rewrite firstn_length; lia).
  pose proof (are_bytes_firstn n b Hb) as Hf.
  repeat split.
  - pose proof (le_bytes_val _ Hf) as E. rewrite Hl in E. rewrite E. now rewrite firstn_skipn.
  - apply le_val_range in Hf. lia.
  - apply le_val_range in Hf. rewrite Hl in Hf. lia.
  - now apply are_bytes_skipn.
Qed.

Lemma read_opt_inv b x t : are_bytes b = true -> read_opt16 b = Some (x, t) ->
  b = enc_opt16 x ++ t /\ opt_u16b x = true /\ are_bytes t = true.
Proof.
  unfold read_opt16. intros Hb. destruct (read 1 b) as [[d b']|] eqn:R; [|discriminate].
  apply read_inv in R as (-> & Hd & Hb'); auto.
  destruct (Z.eqb_spec d 0) as [->|].
  - intros [= <- <-]. repeat split; auto.
  - destruct (Z.eqb_spec d 1) as [->|]; [|discriminate].
    destruct (read 2 b') as [[v b'']|] eqn:R; [|discriminate].
    intros [= <- <-]. apply read_inv in R as (-> & Hv & Hb''); auto.
    repeat split; auto. cbn. unfold u16b, U16_MAX. cbn in Hv. lia.
Qed.

(* ------------------------------------------------------------------ *)
(** * Instructions *)

Ltac rd :=
  repeat first
    [ rewrite <- !app_assoc
    | rewrite read_1 by assumption | rewrite read_4 by assumption | rewrite read_8 by assumption
    | rewrite read_opt by assumption ].

Ltac bsplit := repeat match goal with H : _ && _ = true |- _ => apply andb_true_iff in H; destruct H end.

Lemma dec_enc ix t : ix_wfb ix = true -> dec_ix (enc_ix ix ++ t) = Some ix.
Proof.
  intros H. unfold enc_ix. rewrite <- app_comm_cons. unfold dec_ix. rewrite read_1'.
  destruct ix as [| a | a | a | a | | | | | | | | | | | | | | | a | | |];
    cbn [discm enc_args Z.eqb Pos.eqb ix_wfb] in *; try reflexivity;
    unfold dec_index; bsplit; rd; try (destruct a); reflexivity.
Qed.

Lemma dec_wf b ix : are_bytes b = true -> dec_ix b = Some ix ->
  ix_wfb ix = true /\ exists t, b = enc_ix ix ++ t.
Proof.
  intros Hb. unfold dec_ix.
  destruct (read 1 b) as [[d b0]|] eqn:R; [|discriminate].
  apply read_inv in R as (-> & Hd & Hb0); auto.
  replace (le_bytes 1 d) with [d].
  2:{ cbn. rewrite Z.mod_small; auto. }
  clear Hb Hd. unfold dec_index.
  intros H.
  repeat match type of H with
  | (if ?x =? ?n then _ else _) = Some _ => destruct (Z.eqb_spec x n); [subst x|]
  end;
  repeat match type of H with
  | (match read ?n ?b with _ => _ end) = Some _ =>
      let R := fresh "R" in
      destruct (read n b) as [[? ?]|] eqn:R; [|discriminate];
      apply read_inv in R; [|assumption]; destruct R as (-> & ? & ?)
  | (match read_opt16 ?b with _ => _ end) = Some _ =>
      let R := fresh "R" in
      destruct (read_opt16 b) as [[? ?]|] eqn:R; [|discriminate];
      apply read_opt_inv in R; [|assumption]; destruct R as (-> & ? & ?)
  end; try discriminate; injection H as <-; unfold enc_ix;
  cbn [discm enc_args ix_wfb si_src_lst_value_calc_accs si_dst_lst_value_calc_accs
       si_src_lst_index si_dst_lst_index si_min_amount_out si_amount
       so_src_lst_value_calc_accs so_dst_lst_value_calc_accs so_src_lst_index so_dst_lst_index
       so_max_amount_in so_amount al_lst_value_calc_accs al_lst_index al_lst_amount al_min_lp_out
       rl_lst_value_calc_accs rl_lst_index rl_lp_token_amount rl_min_lst_out
       sr_src_lst_calc_accs sr_src_lst_index sr_dst_lst_index sr_amount sr_min_starting_src_lst
       sr_max_starting_dst_lst];
  (split; [unfold u8b, u32b, u64b, U8_MAX, U32_MAX, U64_MAX; cbn [Z.of_nat Pos.of_succ_nat Pos.succ] in *;
           change (256 ^ 1) with 256 in *; change (256 ^ 4) with 4294967296 in *;
           change (256 ^ 8) with 18446744073709551616 in *; (reflexivity || lia) |
           eexists; cbn [app]; f_equal; rewrite <- ?app_assoc; cbn [app]; reflexivity]).
Qed.

(* ------------------------------------------------------------------ *)
(** * Layouts *)

Definition fits (ws : list nat) (vs : list Z) : Prop :=
  Forall2 (fun w v => 0 <= v < 256 ^ Z.of_nat w) ws vs.

Lemma fits_length ws vs : fits ws vs -> length ws = length vs.
Proof. induction 1; cbn; auto. Qed.

Lemma enc_fields_length ws vs : length ws = length vs -> length (enc_fields ws vs) = width ws.
Proof.
  revert vs; induction ws as [|w ws IH]; intros [|v vs] H; cbn in *; try discriminate; auto.
  rewrite app_length, le_bytes_length, IH; lia.
Qed.

Lemma enc_fields_bytes ws vs : are_bytes (enc_fields ws vs) = true.
Proof.
  revert vs; induction ws as [|w ws IH]; intros [|v vs]; cbn [enc_fields]; auto.
  now rewrite are_bytes_app, le_bytes_ok, IH.
Qed.

Lemma dec_enc_fields ws vs t : fits ws vs -> dec_fields ws (enc_fields ws vs ++ t) = vs.
Proof.
  induction 1 as [|w v ws vs Hv Hr IH]; cbn [dec_fields enc_fields]; auto.
  rewrite <- app_assoc, firstn_exact, skipn_exact by apply le_bytes_length.
  now rewrite le_val_bytes, IH.
Qed.

Lemma enc_dec_fields ws b : are_bytes b = true -> length b = width ws ->
  enc_fields ws (dec_fields ws b) = b.
Proof.
  revert b; induction ws as [|w ws IH]; intros b Hb Hl; cbn [enc_fields dec_fields width] in *.
  - destruct b; [reflexivity|discriminate].
  - rewrite IH.
    + assert (E : length (firstn w b) = w) by (rewrite firstn_length; lia).
      pose proof (le_bytes_val _ (are_bytes_firstn w b Hb)) as F. rewrite E in F.
      rewrite F. apply firstn_skipn.
    + now apply are_bytes_skipn.
    + rewrite skipn_length. lia.
Qed.

Lemma dec_fields_fits ws b : are_bytes b = true -> length b = width ws -> fits ws (dec_fields ws b).
Proof.
  revert b; induction ws as [|w ws IH]; intros b Hb Hl; cbn [dec_fields width] in *; constructor.
  - assert (E : length (firstn w b) = w) by (rewrite firstn_length; lia).
    pose proof (le_val_range _ (are_bytes_firstn w b Hb)) as F. now rewrite E in F.
  - apply IH; [now apply are_bytes_skipn | rewrite skipn_length; lia].
Qed.

Lemma splice_skip a off new b : splice (length a + off) new (a ++ b) = a ++ splice off new b.
Proof.
  unfold splice. rewrite firstn_app, firstn_all2 by lia.
  replace (length a + off - length a)%nat with off by lia.
  rewrite skipn_app, (skipn_all2 a) by lia.
  replace (length a + off + length new - length a)%nat with (off + length new)%nat by lia.
  now rewrite <- app_assoc.
Qed.

Lemma splice_at_0 new old t : length new = length old -> splice 0 new (old ++ t) = new ++ t.
Proof.
  intros E. unfold splice. cbn [firstn app Nat.add]. f_equal. now apply skipn_exact.
Qed.

Lemma splice_field ws vs i w v t :
  length ws = length vs -> nth_error ws i = Some w ->
  splice (width (firstn i ws)) (le_bytes w v) (enc_fields ws vs ++ t) =
  enc_fields ws (replace_nth vs i v) ++ t.
Proof.
  revert vs i; induction ws as [|w0 ws IH]; intros [|v0 vs] i Hl Hi; cbn in Hl; try discriminate.
  { destruct i; discriminate. }
  destruct i as [|i]; cbn [nth_error] in Hi.
  - injection Hi as ->. cbn [firstn width replace_nth enc_fields].
    rewrite <- !app_assoc. apply splice_at_0. now rewrite !le_bytes_length.
  - cbn [firstn width replace_nth enc_fields].
    rewrite <- !app_assoc.
    rewrite <- (le_bytes_length w0 v0) at 1. rewrite splice_skip.
    f_equal. apply IH; auto.
Qed.

(* ------------------------------------------------------------------ *)
(** * Lists *)

Section Lists.
Variable A : Type.
Variable size : nat.
Variable enc : A -> bytes.
Variable dec : bytes -> A.
Hypothesis size_pos : (0 < size)%nat.
Hypothesis enc_len : forall x, length (enc x) = size.

Lemma enc_list_length l : length (enc_list enc l) = (length l * size)%nat.
Proof.
  unfold enc_list. induction l as [|x t IH]; cbn [map concat length]; auto.
  rewrite app_length, enc_len, IH. lia.
Qed.

Lemma enc_list_app l1 l2 : enc_list enc (l1 ++ l2) = enc_list enc l1 ++ enc_list enc l2.
Proof. unfold enc_list. now rewrite map_app, concat_app. Qed.

Lemma chunks_enc l t : chunks (length l) size (enc_list enc l ++ t) = map enc l.
Proof.
  induction l as [|x l IH]; cbn [length chunks]; auto.
  change (enc_list enc (x :: l)) with (enc x ++ enc_list enc l).
  rewrite <- app_assoc, firstn_exact, skipn_exact by apply enc_len.
  cbn [map]. now rewrite IH.
Qed.

Lemma try_list_enc l : (forall x, In x l -> dec (enc x) = x) ->
  try_list size dec (enc_list enc l) = Some l.
Proof using size_pos enc_len.
  intros H. unfold try_list. rewrite enc_list_length.
  rewrite Nat.mod_mul, Nat.div_mul by lia. cbn [Nat.eqb].
  rewrite <- (app_nil_r (enc_list enc l)), chunks_enc, map_map.
  f_equal. rewrite <- (map_id l) at 2. now apply map_ext_in.
Qed.

Lemma try_list_length b l : try_list size dec b = Some l -> length b = (length l * size)%nat.
Proof using size_pos. clear enc_len enc.
  unfold try_list. destruct (Nat.eqb_spec (Nat.modulo (length b) size) 0) as [E|]; [|discriminate].
  intros [= <-]. rewrite map_length.
  assert (Hc : forall n b, length (chunks n size b) = n).
  { induction n; intros; cbn; auto. }
  rewrite Hc. pose proof (Nat.div_mod (length b) size ltac:(lia)). lia.
Qed.

Lemma try_list_none b : try_list size dec b = None <-> Nat.modulo (length b) size <> O.
Proof using.
  unfold try_list. destruct (Nat.eqb_spec (Nat.modulo (length b) size) 0); split; congruence.
Qed.

(** Two ways round for byte strings. *)
Hypothesis enc_dec : forall c, are_bytes c = true -> length c = size -> enc (dec c) = c.

Lemma chunks_dec n b : are_bytes b = true -> length b = (n * size)%nat ->
  concat (map enc (map dec (chunks n size b))) = b.
Proof using size_pos enc_dec. clear enc_len.
  revert b; induction n; intros b Hb Hl; cbn [chunks map concat].
  - destruct b; [reflexivity | cbn in Hl; lia].
  - rewrite enc_dec, IHn.
    + apply firstn_skipn.
    + now apply are_bytes_skipn.
    + rewrite skipn_length. lia.
    + now apply are_bytes_firstn.
    + rewrite firstn_length. lia.
Qed.

Lemma try_list_dec b l : are_bytes b = true -> try_list size dec b = Some l -> enc_list enc l = b.
Proof using size_pos enc_dec. clear enc_len.
  intros Hb H. pose proof (try_list_length _ _ H) as HL. revert H.
  unfold try_list. destruct (Nat.eqb_spec (Nat.modulo (length b) size) 0) as [E|]; [|discriminate].
  intros [= <-]. apply chunks_dec; auto.
  pose proof (Nat.div_mod (length b) size ltac:(lia)). lia.
Qed.

Lemma append_elem_enc e l x :
  append_elem size e (enc x) (enc_list enc l) = Ok (enc_list enc (l ++ [x])).
Proof using size_pos enc_len. clear enc_dec dec.
  unfold append_elem, extend_list_pda.
  rewrite app_length, enc_list_length, repeat_length.
  replace (length l * size + size)%nat with ((length l + 1) * size)%nat by lia.
  rewrite Nat.mod_mul, Nat.div_mul by lia. cbn [Nat.eqb guard].
  destruct (Nat.eqb_spec (length l + 1) 0); [lia|]. cbn [negb guard]. f_equal.
  replace ((length l + 1) * size - size)%nat with (length (enc_list enc l) + 0)%nat
    by (rewrite enc_list_length; lia).
  rewrite splice_skip, enc_list_app. f_equal.
  unfold splice. cbn [firstn app Nat.add]. unfold enc_list. cbn [map concat]. f_equal.
  apply skipn_all2. rewrite repeat_length, enc_len. lia.
Qed.

Lemma memmove_enc l i (Hi : (i < length l)%nat) :
  let b := enc_list enc l in
  exists tail, length tail = size /\
  memmove (i * size) (i * size + size) (length b - (i * size + size)) b =
    Some (enc_list enc (remove_nth l i) ++ tail).
Proof using size_pos enc_len. clear enc_dec dec.
  intros b. unfold b.
  assert (HL : length (enc_list enc l) = (length l * size)%nat) by apply enc_list_length.
  rewrite HL.
  destruct (nth_error l i) as [x|] eqn:Hx; [|apply nth_error_None in Hx; lia].
  apply nth_error_split in Hx as (l1 & l2 & -> & Hl1).
  rewrite app_length in *. cbn [length] in *.
  assert (E : enc_list enc (l1 ++ x :: l2) = enc_list enc l1 ++ enc x ++ enc_list enc l2).
  { rewrite enc_list_app. reflexivity. }
  assert (R : remove_nth (l1 ++ x :: l2) i = l1 ++ l2).
  { rewrite remove_nth_app. subst i. rewrite firstn_app, Nat.sub_diag, firstn_all. cbn [firstn].
    rewrite app_nil_r. f_equal. rewrite skipn_app, skipn_all2 by lia.
    replace (S (length l1) - length l1)%nat with 1%nat by lia. reflexivity. }
  rewrite R.
  set (n := ((length l1 + S (length l2)) * size - (i * size + size))%nat).
  assert (Hn : n = (length l2 * size)%nat) by (unfold n; nia).
  unfold memmove.
  replace (Nat.leb (i * size + size + n) (length (enc_list enc (l1 ++ x :: l2)))) with true
    by (symmetry; apply Nat.leb_le; rewrite HL; nia).
  replace (Nat.leb (i * size + n) (length (enc_list enc (l1 ++ x :: l2)))) with true
    by (symmetry; apply Nat.leb_le; rewrite HL; nia).
  cbn [andb].
  assert (S1 : skipn (i * size + size) (enc_list enc (l1 ++ x :: l2)) = enc_list enc l2).
  { rewrite E, app_assoc. apply skipn_exact. rewrite app_length, enc_list_length, enc_len. lia. }
  rewrite S1.
  rewrite (firstn_all2 (enc_list enc l2)) by (rewrite enc_list_length; lia).
  replace (i * size)%nat with (length (enc_list enc l1) + 0)%nat by (rewrite enc_list_length; lia).
  rewrite E, splice_skip.
  unfold splice. cbn [firstn app Nat.add].
  exists (skipn (length (enc_list enc l2)) (enc x ++ enc_list enc l2)). split.
  - rewrite skipn_length, app_length, enc_len. lia.
  - now rewrite enc_list_app, <- app_assoc.
Qed.

Lemma remove_elem_enc l i :
  0 <= i -> Z.of_nat (length l * size) <= U64_MAX ->
  remove_elem size i (enc_list enc l) =
  if i <? Z.of_nat (length l) then Ok (enc_list enc (remove_nth l (Z.to_nat i)))
  else Err (Ctl MathError).
Proof using size_pos enc_len. clear enc_dec dec.
  intros H0 HU. unfold remove_elem.
  rewrite enc_list_length.
  destruct (Z.ltb_spec i (Z.of_nat (length l))) as [Hi|Hi].
  - assert (HB : i * Z.of_nat size + Z.of_nat size <= Z.of_nat (length l * size)) by nia.
    rewrite !(proj2 (Z.leb_le _ _)) by nia. cbn [guard].
    replace (Z.to_nat (i * Z.of_nat size)) with (Z.to_nat i * size)%nat by nia.
    destruct (memmove_enc l (Z.to_nat i) ltac:(lia)) as (tail & HT & E).
    cbn zeta in E. rewrite enc_list_length in E. rewrite E.
    f_equal. rewrite app_length, HT.
    replace (length (enc_list enc (remove_nth l (Z.to_nat i))) + size - size)%nat
      with (length (enc_list enc (remove_nth l (Z.to_nat i)))) by lia.
    now apply firstn_exact.
  - unfold guard.
    destruct (Z.leb_spec (i * Z.of_nat size) U64_MAX); [|reflexivity].
    destruct (Z.leb_spec (i * Z.of_nat size + Z.of_nat size) U64_MAX); [|reflexivity].
    destruct (Z.leb_spec (i * Z.of_nat size + Z.of_nat size) (Z.of_nat (length l * size)));
      [nia|reflexivity].
Qed.

(** Overwriting part of one element. *)
Lemma splice_elem l i x y off new :
  nth_error l i = Some x ->
  splice off new (enc x) = enc y -> (off + length new <= size)%nat ->
  splice (i * size + off) new (enc_list enc l) = enc_list enc (replace_nth l i y).
Proof using size_pos enc_len. clear enc_dec dec.
  intros Hx HS Hle. apply nth_error_split in Hx as (l1 & l2 & -> & Hl1).
  assert (R : replace_nth (l1 ++ x :: l2) i y = l1 ++ y :: l2).
  { subst i. clear. induction l1; cbn; auto. now rewrite IHl1. }
  rewrite R, !enc_list_app.
  change (enc_list enc (x :: l2)) with (enc x ++ enc_list enc l2).
  change (enc_list enc (y :: l2)) with (enc y ++ enc_list enc l2).
  replace (i * size)%nat with (length (enc_list enc l1)) by (rewrite enc_list_length; lia).
  rewrite splice_skip. f_equal. rewrite <- HS.
  unfold splice. rewrite firstn_app, skipn_app, !enc_len.
  replace (off - size)%nat with 0%nat by lia.
  replace (off + length new - size)%nat with 0%nat by lia.
  cbn [firstn skipn]. rewrite app_nil_r, <- !app_assoc. reflexivity.
Qed.
End Lists.
