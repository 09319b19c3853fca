(** C20, C21, C22: bytes on chain and in instruction data mean what the model says. *)
From Coq Require Import ZArith List Bool Lia ZifyBool ZifyNat.
From Verif Require Import Base State Controller Serde SerdeProofs.
Import ListNotations.
Open Scope Z_scope.

(* ------------------------------------------------------------------ *)
(** * Specification vocabulary *)

(** 32-byte keys *)
Definition keyb (k : key) : bool := (0 <=? k) && (k <? 2 ^ 256).
(** every field within its Rust type *)
Definition pool_wfb (ps : PoolState) : bool :=
  u64b (total_sol_value ps) && u16b (trading_protocol_fee_bps ps) && u16b (lp_protocol_fee_bps ps) &&
  u8b (version ps) && u8b (is_disabled ps) && u8b (is_rebalancing ps) && keyb (admin ps) &&
  keyb (rebalance_authority ps) && keyb (protocol_fee_beneficiary ps) && keyb (pricing_program ps) &&
  keyb (lp_token_mint ps).
Definition lst_wfb (ls : LstState) : bool :=
  u8b (is_input_disabled ls) && u8b (pool_reserves_bump ls) && u8b (protocol_fee_accumulator_bump ls) &&
  u64b (sol_value ls) && keyb (ls_mint ls) && keyb (sol_value_calculator ls).
Definition rec_wfb (r : RebalanceRecord) : bool :=
  u64b (old_total_sol_value r) && u32b (dst_lst_index r).
(** padding of [n] bytes *)
Definition padb (n : Z) (p : Z) : bool := (0 <=? p) && (p <? 256 ^ n).

(** the integer stored little-endian in bytes [off..off+n) *)
Definition at_ (b : bytes) (off n : nat) : Z := le_val (firstn n (skipn off b)).

Lemma keyb_range k : keyb k = true <-> 0 <= k < 256 ^ Z.of_nat 32.
Proof. unfold keyb. change (256 ^ Z.of_nat 32) with (2 ^ 256). lia. Qed.

Ltac pows :=
  cbn [Z.of_nat Pos.of_succ_nat Pos.succ] in *;
  change (256 ^ 1) with 256 in *; change (256 ^ 2) with 65536 in *;
  change (256 ^ 4) with 4294967296 in *; change (256 ^ 5) with 1099511627776 in *;
  change (256 ^ 8) with 18446744073709551616 in *.

(* ------------------------------------------------------------------ *)
(** * C22 *)

(** The data the client serialises decodes, whatever follows it, to exactly the instruction. *)
Theorem C22_roundtrip : forall ix tail, ix_wfb ix = true ->
  dec_ix (enc_ix ix ++ tail) = Some ix /\ are_bytes (enc_ix ix) = true.
Proof.
  intros ix tail H. split; [now apply dec_enc|].
  assert (B : forall n x, are_bytes (le_bytes n x) = true) by (intros; apply le_bytes_ok).
  assert (O : forall o, are_bytes (enc_opt16 o) = true).
  { intros [v|]; [|reflexivity]. unfold enc_opt16.
    change (are_bytes ([1] ++ le_bytes 2 v) = true). now rewrite are_bytes_app, B. }
  unfold enc_ix. change (discm ix :: enc_args ix) with ([discm ix] ++ enc_args ix).
  rewrite are_bytes_app. apply andb_true_iff. split; [destruct ix; reflexivity|].
  destruct ix; cbn [enc_args]; rewrite ?are_bytes_app, ?B, ?O; reflexivity.
Qed.

(** Two instructions never share data, nor is one's data a prefix of another's. *)
Theorem C22_unambiguous : forall ix1 ix2 t1 t2, ix_wfb ix1 = true -> ix_wfb ix2 = true ->
  enc_ix ix1 ++ t1 = enc_ix ix2 ++ t2 -> ix1 = ix2 /\ t1 = t2.
Proof.
  intros ix1 ix2 t1 t2 H1 H2 E.
  assert (ix1 = ix2) as <-.
  { pose proof (dec_enc ix1 t1 H1) as A. rewrite E, (dec_enc ix2 t2 H2) in A. congruence. }
  split; auto. now apply app_inv_head in E.
Qed.

(** Whatever data decodes is within the arguments' Rust types, and starts with that instruction's
    serialisation; so nothing but (serialisation ++ ignored bytes) is ever accepted. *)
Theorem C22_accepted_only : forall b ix, are_bytes b = true -> dec_ix b = Some ix ->
  ix_wfb ix = true /\ exists tail, b = enc_ix ix ++ tail.
Proof. exact dec_wf. Qed.

(** A cut-off serialisation is refused. *)
Theorem C22_truncated_refused : forall ix p s, ix_wfb ix = true -> enc_ix ix = p ++ s -> s <> [] ->
  dec_ix p = None.
Proof.
  intros ix p s H E Hs.
  destruct (dec_ix p) as [ix'|] eqn:D; auto. exfalso.
  assert (Hp : are_bytes p = true).
  { pose proof (proj2 (C22_roundtrip ix [] H)) as B. rewrite E, are_bytes_app in B.
    now apply andb_true_iff in B. }
  destruct (dec_wf _ _ Hp D) as (H' & t & ->).
  assert (E' : enc_ix ix ++ [] = enc_ix ix' ++ (t ++ s)) by (rewrite app_nil_r, E; now rewrite app_assoc).
  destruct (C22_unambiguous _ _ _ _ H H' E') as [_ N].
  symmetry in N. apply app_eq_nil in N. tauto.
Qed.

(** Data whose first byte is 20 is EndRebalance, and nothing else is. *)
Theorem C22_end_rebalance : forall b, dec_ix b = Some EndRebalance <-> exists tail, b = 20 :: tail.
Proof.
  intros b. split.
  - destruct b as [|d t]; [discriminate|]. unfold dec_ix. rewrite read_1'. intros H.
    exists t. f_equal. unfold dec_index in H.
    repeat match type of H with
    | (if ?x =? ?n then _ else _) = Some _ => destruct (Z.eqb_spec x n); [subst x|]
    end; auto; exfalso;
    repeat match type of H with
    | (match ?x with _ => _ end) = Some _ => destruct x as [[? ?]|]
    end; discriminate.
  - intros [t ->]. unfold dec_ix. rewrite read_1'. reflexivity.
Qed.

(** Empty data and unknown first bytes are refused. *)
Theorem C22_unknown_refused : dec_ix [] = None /\ forall d t, 22 < d -> dec_ix (d :: t) = None.
Proof.
  split; [reflexivity|]. intros d t Hd. unfold dec_ix. rewrite read_1'.
  repeat match goal with
  | |- (if ?x =? ?n then _ else _) = None => destruct (Z.eqb_spec x n); [lia|]
  end. reflexivity.
Qed.

(** The entry point does exactly what the decoded instruction's processor does, and only for the
    controller's program id. *)
Theorem C22_entrypoint : forall D E C p w accs b w', are_bytes b = true ->
  process_instruction D E C p w accs b = Ok w' <->
  p = S_CONTROLLER_ID /\
  exists ix tail, b = enc_ix ix ++ tail /\ ix_wfb ix = true /\ process D E C w accs ix = Ok w'.
Proof.
  intros D E C p w accs b w' Hb. unfold process_instruction.
  rewrite guard_ok, bind_ok. setoid_rewrite of_option_ok. split.
  - intros (Hp & ix & D' & P). split; [now apply Z.eqb_eq|].
    destruct (dec_wf _ _ Hb D') as (W & t & ->). eauto 6.
  - intros (-> & ix & t & -> & W & P). split; [reflexivity|].
    exists ix. split; auto. now apply dec_enc.
Qed.

Example C22_case :
  let ix := SetProtocolFee (Some 500) None in
  ix_wfb ix = true /\ enc_ix ix = [11; 1; 244; 1; 0] /\
  dec_ix [11; 1; 244; 1; 0; 99] = Some ix /\ dec_ix [11; 2; 244; 1; 0] = None /\
  dec_ix [11; 1; 244; 1] = None /\
  enc_ix (AddLiquidity (mkAddLiq 3 7 1000 5)) =
    [3; 3; 7;0;0;0; 232;3;0;0;0;0;0;0; 5;0;0;0;0;0;0;0].
Proof. repeat split. Qed.

(* ------------------------------------------------------------------ *)
(** * C21 *)

Ltac f2 := repeat match goal with
  | H : Forall2 _ (_ :: _) (_ :: _) |- _ =>
      inversion H; clear H; subst
  end.

Lemma pool_fits ps pad : fits pool_layout (pool_fields ps pad) <->
  pool_wfb ps = true /\ padb 1 pad = true.
Proof.
  unfold fits, pool_layout, pool_fields, pool_wfb, padb. split.
  - intros H. f2.
    rewrite !andb_true_iff. repeat apply conj; try (apply keyb_range; assumption);
    pows; unfold u64b, u16b, u8b, U64_MAX, U16_MAX, U8_MAX; lia.
  - rewrite !andb_true_iff. intros H. decompose [and] H.
    repeat constructor; try (now apply keyb_range); pows;
    unfold u64b, u16b, u8b, U64_MAX, U16_MAX, U8_MAX in *; lia.
Qed.

Lemma lst_fits ls pad : fits lst_layout (lst_fields ls pad) <->
  lst_wfb ls = true /\ padb 5 pad = true.
Proof.
  unfold fits, lst_layout, lst_fields, lst_wfb, padb. split.
  - intros H. f2.
    rewrite !andb_true_iff. repeat apply conj; try (apply keyb_range; assumption);
    pows; unfold u64b, u16b, u8b, U64_MAX, U16_MAX, U8_MAX; lia.
  - rewrite !andb_true_iff. intros H. decompose [and] H.
    repeat constructor; try (now apply keyb_range); pows;
    unfold u64b, u16b, u8b, U64_MAX, U16_MAX, U8_MAX in *; lia.
Qed.

Lemma rec_fits r pad : fits rec_layout (rec_fields r pad) <->
  rec_wfb r = true /\ padb 4 pad = true.
Proof.
  unfold fits, rec_layout, rec_fields, rec_wfb, padb. split.
  - intros H. f2. pows.
    rewrite !andb_true_iff. unfold u64b, u32b, U64_MAX, U32_MAX. repeat apply conj; lia.
  - rewrite !andb_true_iff. intros H. decompose [and] H.
    repeat constructor; pows; unfold u64b, u32b, U64_MAX, U32_MAX in *; lia.
Qed.

(** A PoolState account is 176 bytes; writing a state and reading it back gives the same state and
    padding; every 176-byte string is the encoding of exactly one in-range (state, padding); any
    other length is refused. *)
Theorem C21_pool_state :
  (forall ps pad, pool_wfb ps = true -> padb 1 pad = true ->
     length (enc_pool ps pad) = 176%nat /\ dec_pool (enc_pool ps pad) = Some (ps, pad)) /\
  (forall b, are_bytes b = true -> length b = 176%nat ->
     exists ps pad, dec_pool b = Some (ps, pad) /\ enc_pool ps pad = b /\
       pool_wfb ps = true /\ padb 1 pad = true) /\
  (forall b, length b <> 176%nat -> dec_pool b = None).
Proof.
  repeat apply conj.
  - intros ps pad H1 H2.
    assert (L : length (enc_pool ps pad) = 176%nat) by (unfold enc_pool; now rewrite enc_fields_length).
    split; auto. unfold dec_pool. rewrite L. change (Nat.eqb 176 (width pool_layout)) with true.
    cbn match. unfold enc_pool. rewrite <- (app_nil_r (enc_fields _ _)).
    rewrite dec_enc_fields by (now apply pool_fits). unfold pool_fields. destruct ps; reflexivity.
  - intros b Hb Hl. unfold dec_pool. rewrite Hl. change (Nat.eqb 176 (width pool_layout)) with true.
    cbn match.
    pose proof (enc_dec_fields pool_layout b Hb Hl) as E.
    pose proof (dec_fields_fits pool_layout b Hb Hl) as F.
    destruct (dec_fields pool_layout b) as [|t [|tf [|lf [|v [|d [|r [|pad [|a [|ra [|pfb [|pp [|lp [|? ?]]]]]]]]]]]]] eqn:Q;
      try (exfalso; apply fits_length in F; cbn in F; discriminate).
    eexists _, _. split; [reflexivity|]. split; [exact E|].
    apply pool_fits. exact F.
  - intros b Hl. unfold dec_pool. change (width pool_layout) with 176%nat.
    destruct (Nat.eqb_spec (length b) 176); congruence.
Qed.

(** The same for LstState (80 bytes) and RebalanceRecord (16 bytes). *)
Theorem C21_lst_state :
  (forall ls pad, lst_wfb ls = true -> padb 5 pad = true ->
     length (enc_lst (ls, pad)) = 80%nat /\ dec_lst (enc_lst (ls, pad)) = (ls, pad)) /\
  (forall b, are_bytes b = true -> length b = 80%nat ->
     exists ls pad, dec_lst b = (ls, pad) /\ enc_lst (ls, pad) = b /\
       lst_wfb ls = true /\ padb 5 pad = true).
Proof.
  split.
  - intros ls pad H1 H2.
    split; [unfold enc_lst; now rewrite enc_fields_length|].
    unfold dec_lst, enc_lst. rewrite <- (app_nil_r (enc_fields _ _)).
    rewrite dec_enc_fields by (now apply lst_fits). destruct ls; reflexivity.
  - intros b Hb Hl. unfold dec_lst.
    pose proof (enc_dec_fields lst_layout b Hb Hl) as E.
    pose proof (dec_fields_fits lst_layout b Hb Hl) as F.
    destruct (dec_fields lst_layout b) as [|d [|pr [|pf [|pad [|v [|m [|c [|? ?]]]]]]]] eqn:Q;
      try (exfalso; apply fits_length in F; cbn in F; discriminate).
    eexists _, _. split; [reflexivity|]. split; [exact E|]. apply lst_fits. exact F.
Qed.

Theorem C21_rebalance_record :
  (forall r pad, rec_wfb r = true -> padb 4 pad = true ->
     length (enc_rec r pad) = 16%nat /\ dec_rec (enc_rec r pad) = Some (r, pad)) /\
  (forall b, are_bytes b = true -> length b = 16%nat ->
     exists r pad, dec_rec b = Some (r, pad) /\ enc_rec r pad = b /\
       rec_wfb r = true /\ padb 4 pad = true) /\
  (forall b, length b <> 16%nat -> dec_rec b = None).
Proof.
  repeat apply conj.
  - intros r pad H1 H2.
    assert (L : length (enc_rec r pad) = 16%nat) by (unfold enc_rec; now rewrite enc_fields_length).
    split; auto. unfold dec_rec. rewrite L. change (Nat.eqb 16 (width rec_layout)) with true.
    cbn match. unfold enc_rec. rewrite <- (app_nil_r (enc_fields _ _)).
    rewrite dec_enc_fields by (now apply rec_fits). destruct r; reflexivity.
  - intros b Hb Hl. unfold dec_rec. rewrite Hl. change (Nat.eqb 16 (width rec_layout)) with true.
    cbn match.
    pose proof (enc_dec_fields rec_layout b Hb Hl) as E.
    pose proof (dec_fields_fits rec_layout b Hb Hl) as F.
    destruct (dec_fields rec_layout b) as [|t [|p [|i [|? ?]]]] eqn:Q;
      try (exfalso; apply fits_length in F; cbn in F; discriminate).
    eexists _, _. split; [reflexivity|]. split; [exact E|]. apply rec_fits. exact F.
  - intros b Hl. unfold dec_rec. change (width rec_layout) with 16%nat.
    destruct (Nat.eqb_spec (length b) 16); congruence.
Qed.

(** Where each field sits. *)
Theorem C21_offsets : forall b,
  (forall ps pad, dec_pool b = Some (ps, pad) ->
     total_sol_value ps = at_ b 0 8 /\ trading_protocol_fee_bps ps = at_ b 8 2 /\
     lp_protocol_fee_bps ps = at_ b 10 2 /\ version ps = at_ b 12 1 /\ is_disabled ps = at_ b 13 1 /\
     is_rebalancing ps = at_ b 14 1 /\ admin ps = at_ b 16 32 /\ rebalance_authority ps = at_ b 48 32 /\
     protocol_fee_beneficiary ps = at_ b 80 32 /\ pricing_program ps = at_ b 112 32 /\
     lp_token_mint ps = at_ b 144 32) /\
  (let ls := fst (dec_lst b) in
     is_input_disabled ls = at_ b 0 1 /\ pool_reserves_bump ls = at_ b 1 1 /\
     protocol_fee_accumulator_bump ls = at_ b 2 1 /\ sol_value ls = at_ b 8 8 /\
     ls_mint ls = at_ b 16 32 /\ sol_value_calculator ls = at_ b 48 32) /\
  (forall r pad, dec_rec b = Some (r, pad) ->
     old_total_sol_value r = at_ b 0 8 /\ dst_lst_index r = at_ b 12 4).
Proof.
  assert (SK : forall n m (b : bytes), skipn n (skipn m b) = skipn (m + n) b).
  { intros n m. revert n. induction m as [|m IH]; intros n b'; [reflexivity|].
    destruct b' as [|x b']; [destruct n; reflexivity|]. cbn [skipn Nat.add]. apply IH. }
  intros b. split; [|split].
  - intros ps pad. unfold dec_pool. destruct (Nat.eqb _ _); [|discriminate].
    cbn [dec_fields pool_layout]. rewrite !SK. intros [= <- <-].
    cbn [total_sol_value trading_protocol_fee_bps lp_protocol_fee_bps version is_disabled
         is_rebalancing admin rebalance_authority protocol_fee_beneficiary pricing_program
         lp_token_mint]. unfold at_. repeat split.
  - unfold dec_lst. cbn [dec_fields lst_layout]. rewrite !SK. cbn [fst is_input_disabled
      pool_reserves_bump protocol_fee_accumulator_bump sol_value ls_mint sol_value_calculator].
    unfold at_. repeat split.
  - intros r pad. unfold dec_rec. destruct (Nat.eqb _ _); [|discriminate].
    cbn [dec_fields rec_layout]. rewrite !SK. intros [= <- <-].
    cbn [old_total_sol_value dst_lst_index]. unfold at_. repeat split.
Qed.

(** The in-place writes the processors make through the reinterpreted reference change exactly the
    named field. *)
Theorem C21_pool_field_writes : forall b ps pad, are_bytes b = true -> dec_pool b = Some (ps, pad) ->
  (forall v, u64b v = true -> dec_pool (splice 0 (le_bytes 8 v) b) = Some (set_total ps v, pad)) /\
  (forall v, u16b v = true -> dec_pool (splice 8 (le_bytes 2 v) b) = Some (set_trading_fee ps v, pad)) /\
  (forall v, u16b v = true -> dec_pool (splice 10 (le_bytes 2 v) b) = Some (set_lp_fee ps v, pad)) /\
  (forall v, u8b v = true -> dec_pool (splice 13 (le_bytes 1 v) b) = Some (set_disabled ps v, pad)) /\
  (forall v, u8b v = true -> dec_pool (splice 14 (le_bytes 1 v) b) = Some (set_rebalancing ps v, pad)) /\
  (forall v, keyb v = true -> dec_pool (splice 16 (le_bytes 32 v) b) = Some (set_admin_key ps v, pad)) /\
  (forall v, keyb v = true ->
     dec_pool (splice 48 (le_bytes 32 v) b) = Some (set_rebalance_auth_key ps v, pad)) /\
  (forall v, keyb v = true ->
     dec_pool (splice 80 (le_bytes 32 v) b) = Some (set_beneficiary_key ps v, pad)) /\
  (forall v, keyb v = true -> dec_pool (splice 112 (le_bytes 32 v) b) = Some (set_pricing_key ps v, pad)).
Proof.
  intros b ps pad Hb Hd.
  assert (Hl : length b = 176%nat).
  { destruct (Nat.eq_dec (length b) 176) as [|N]; auto.
    rewrite (proj2 (proj2 C21_pool_state) b N) in Hd. discriminate. }
  destruct (proj1 (proj2 C21_pool_state) b Hb Hl) as (ps' & pad' & D & E & W & P).
  rewrite Hd in D. injection D as <- <-.
  assert (G : forall i w v (ps2 : PoolState),
    nth_error pool_layout i = Some w ->
    replace_nth (pool_fields ps pad) i v = pool_fields ps2 pad -> pool_wfb ps2 = true ->
    dec_pool (splice (width (firstn i pool_layout)) (le_bytes w v) b) = Some (ps2, pad)).
  { intros i w v ps2 Hi HR Hw. rewrite <- E at 1. unfold enc_pool.
    rewrite <- (app_nil_r (enc_fields _ _)), splice_field, app_nil_r, HR by auto.
    now apply (proj1 C21_pool_state). }
  unfold pool_wfb in W. rewrite !andb_true_iff in W. decompose [and] W. clear W.
  repeat apply conj; intros v Hv.
  - apply (G 0%nat 8%nat); [reflexivity|reflexivity|]. unfold pool_wfb; cbn. rewrite !andb_true_iff. tauto.
  - apply (G 1%nat 2%nat); [reflexivity|reflexivity|]. unfold pool_wfb; cbn. rewrite !andb_true_iff. tauto.
  - apply (G 2%nat 2%nat); [reflexivity|reflexivity|]. unfold pool_wfb; cbn. rewrite !andb_true_iff. tauto.
  - apply (G 4%nat 1%nat); [reflexivity|reflexivity|]. unfold pool_wfb; cbn. rewrite !andb_true_iff. tauto.
  - apply (G 5%nat 1%nat); [reflexivity|reflexivity|]. unfold pool_wfb; cbn. rewrite !andb_true_iff. tauto.
  - apply (G 7%nat 32%nat); [reflexivity|reflexivity|]. unfold pool_wfb; cbn. rewrite !andb_true_iff. tauto.
  - apply (G 8%nat 32%nat); [reflexivity|reflexivity|]. unfold pool_wfb; cbn. rewrite !andb_true_iff. tauto.
  - apply (G 9%nat 32%nat); [reflexivity|reflexivity|]. unfold pool_wfb; cbn. rewrite !andb_true_iff. tauto.
  - apply (G 10%nat 32%nat); [reflexivity|reflexivity|]. unfold pool_wfb; cbn. rewrite !andb_true_iff. tauto.
Qed.

Example C21_case :
  let ps := mkPool 123456789 1000 700 1 0 1 (2^200 + 5) 77 78 79 80 in
  pool_wfb ps = true /\ padb 1 9 = true /\ dec_pool (enc_pool ps 9) = Some (ps, 9) /\
  rec_wfb (mkRec 55 3) = true /\ enc_rec (mkRec 55 3) 0 = [55;0;0;0;0;0;0;0; 0;0;0;0; 3;0;0;0].
Proof. vm_compute. repeat split. Qed.

(* ------------------------------------------------------------------ *)
(** * C20 *)

(** The list of LSTs / keys the account bytes denote. *)
Definition lst_list (b : bytes) : option (list (LstState * Z)) := try_list LST_SIZE dec_lst b.
Definition key_list (b : bytes) : option (list key) := try_list KEY_SIZE dec_key b.

Lemma lst_len x : length (enc_lst x) = LST_SIZE.
Proof. unfold enc_lst. now rewrite enc_fields_length. Qed.
Lemma key_len k : length (enc_key k) = KEY_SIZE.
Proof. apply le_bytes_length. Qed.
Lemma lst_enc_dec c : are_bytes c = true -> length c = LST_SIZE -> enc_lst (dec_lst c) = c.
Proof.
  intros H L. destruct (proj2 C21_lst_state c H L) as (ls & pad & D & E & _). now rewrite D.
Qed.
Lemma key_enc_dec c : are_bytes c = true -> length c = KEY_SIZE -> enc_key (dec_key c) = c.
Proof. intros H L. unfold enc_key, dec_key. pose proof (le_bytes_val _ H) as E. now rewrite L in E. Qed.
Lemma lst_bytes_ok l : are_bytes (enc_list enc_lst l) = true.
Proof.
  unfold enc_list. induction l; cbn [map concat]; auto. rewrite are_bytes_app, IHl.
  unfold enc_lst. now rewrite enc_fields_bytes.
Qed.
Lemma key_bytes_ok l : are_bytes (enc_list enc_key l) = true.
Proof.
  unfold enc_list. induction l; cbn [map concat]; auto. rewrite are_bytes_app, IHl.
  unfold enc_key. now rewrite le_bytes_ok.
Qed.

(** elements decoded from bytes re-encode faithfully *)
Lemma lst_list_wf b l x : are_bytes b = true -> lst_list b = Some l -> In x l ->
  dec_lst (enc_lst x) = x.
Proof.
  intros Hb Hl Hx. unfold lst_list, try_list in Hl.
  destruct (Nat.eqb _ _); [|discriminate]. injection Hl as <-.
  apply in_map_iff in Hx as (c & <- & Hc).
  assert (G : forall n b, are_bytes b = true -> (n * LST_SIZE <= length b)%nat ->
            forall c, In c (chunks n LST_SIZE b) -> are_bytes c = true /\ length c = LST_SIZE).
  { clear. induction n; intros b Hb Hl c Hc; [destruct Hc|].
    cbn [chunks In] in Hc. destruct Hc as [<-|Hc].
    - split; [now apply are_bytes_firstn|]. rewrite firstn_length. lia.
    - eapply IHn; [| |exact Hc]; [now apply are_bytes_skipn|]. rewrite skipn_length. lia. }
  destruct (G (Nat.div (length b) LST_SIZE) b Hb) with (c := c) as [Cb Cl]; auto.
  { pose proof (Nat.mul_div_le (length b) LST_SIZE). unfold LST_SIZE in *. lia. }
  now rewrite lst_enc_dec.
Qed.
Lemma key_dec_enc k : keyb k = true -> dec_key (enc_key k) = k.
Proof. intros H. apply keyb_range in H. now apply le_val_bytes. Qed.
Lemma key_list_wf b l k : are_bytes b = true -> key_list b = Some l -> In k l -> dec_key (enc_key k) = k.
Proof.
  intros Hb Hl Hx. unfold key_list, try_list in Hl.
  destruct (Nat.eqb _ _); [|discriminate]. injection Hl as <-.
  apply in_map_iff in Hx as (c & <- & Hc).
  assert (G : forall n b, are_bytes b = true -> (n * KEY_SIZE <= length b)%nat ->
            forall c, In c (chunks n KEY_SIZE b) -> are_bytes c = true /\ length c = KEY_SIZE).
  { clear. induction n; intros b Hb Hl c Hc; [destruct Hc|].
    cbn [chunks In] in Hc. destruct Hc as [<-|Hc].
    - split; [now apply are_bytes_firstn|]. rewrite firstn_length. lia.
    - eapply IHn; [| |exact Hc]; [now apply are_bytes_skipn|]. rewrite skipn_length. lia. }
  destruct (G (Nat.div (length b) KEY_SIZE) b Hb) with (c := c) as [Cb Cl]; auto.
  { pose proof (Nat.mul_div_le (length b) KEY_SIZE). unfold KEY_SIZE in *. lia. }
  now rewrite key_enc_dec.
Qed.

(** Account data whose length is a multiple of the element size denotes one list, and only that;
    any other length is refused. *)
Theorem C20_meaning :
  (forall b, lst_list b = None <-> Nat.modulo (length b) 80 <> O) /\
  (forall b, key_list b = None <-> Nat.modulo (length b) 32 <> O) /\
  (forall b l, lst_list b = Some l -> length b = (length l * 80)%nat) /\
  (forall b l, key_list b = Some l -> length b = (length l * 32)%nat) /\
  (forall b b' l, are_bytes b = true -> are_bytes b' = true ->
     lst_list b = Some l -> lst_list b' = Some l -> b = b') /\
  (forall b b' l, are_bytes b = true -> are_bytes b' = true ->
     key_list b = Some l -> key_list b' = Some l -> b = b').
Proof.
  repeat apply conj.
  - intros. apply (try_list_none (LstState * Z) LST_SIZE dec_lst).
  - intros. apply (try_list_none key KEY_SIZE dec_key).
  - intros b l H. apply (try_list_length _ LST_SIZE dec_lst) in H; [exact H|]. unfold LST_SIZE; lia.
  - intros b l H. apply (try_list_length _ KEY_SIZE dec_key) in H; [exact H|]. unfold KEY_SIZE; lia.
  - intros b b' l Hb Hb' H H'.
    rewrite <- (try_list_dec _ LST_SIZE enc_lst dec_lst ltac:(unfold LST_SIZE; lia) lst_enc_dec _ _ Hb H).
    apply (try_list_dec _ LST_SIZE enc_lst dec_lst ltac:(unfold LST_SIZE; lia) lst_enc_dec _ _ Hb' H').
  - intros b b' l Hb Hb' H H'.
    rewrite <- (try_list_dec _ KEY_SIZE enc_key dec_key ltac:(unfold KEY_SIZE; lia) key_enc_dec _ _ Hb H).
    apply (try_list_dec _ KEY_SIZE enc_key dec_key ltac:(unfold KEY_SIZE; lia) key_enc_dec _ _ Hb' H').
Qed.

(** Growing the account by one element and writing the last slot appends exactly that element and
    leaves every earlier byte alone. *)
Theorem C20_append :
  (forall b l ls, are_bytes b = true -> lst_list b = Some l -> lst_wfb ls = true ->
     exists b', append_elem 80 InvalidLstStateListData (enc_lst (ls, 0)) b = Ok b' /\
       are_bytes b' = true /\ lst_list b' = Some (l ++ [(ls, 0)]) /\ firstn (length b) b' = b) /\
  (forall b l k, are_bytes b = true -> key_list b = Some l -> keyb k = true ->
     exists b', append_elem 32 InvalidDisablePoolAuthorityListData (enc_key k) b = Ok b' /\
       are_bytes b' = true /\ key_list b' = Some (l ++ [k]) /\ firstn (length b) b' = b).
Proof.
  split.
  - intros b l ls Hb Hl Hw.
    pose proof (try_list_dec _ LST_SIZE enc_lst dec_lst ltac:(unfold LST_SIZE; lia) lst_enc_dec _ _ Hb Hl) as E.
    exists (enc_list enc_lst (l ++ [(ls, 0)])). repeat split.
    + rewrite <- E. apply (append_elem_enc _ LST_SIZE enc_lst ltac:(unfold LST_SIZE; lia) lst_len).
    + apply lst_bytes_ok.
    + apply (try_list_enc _ LST_SIZE enc_lst dec_lst ltac:(unfold LST_SIZE; lia) lst_len).
      intros x Hx. apply in_app_iff in Hx as [Hx|[<-|[]]].
      * eapply lst_list_wf; eassumption.
      * now apply (proj1 C21_lst_state).
    + rewrite enc_list_app, E. now apply firstn_exact.
  - intros b l k Hb Hl Hw.
    pose proof (try_list_dec _ KEY_SIZE enc_key dec_key ltac:(unfold KEY_SIZE; lia) key_enc_dec _ _ Hb Hl) as E.
    exists (enc_list enc_key (l ++ [k])). repeat split.
    + rewrite <- E. apply (append_elem_enc _ KEY_SIZE enc_key ltac:(unfold KEY_SIZE; lia) key_len).
    + apply key_bytes_ok.
    + apply (try_list_enc _ KEY_SIZE enc_key dec_key ltac:(unfold KEY_SIZE; lia) key_len).
      intros x Hx. apply in_app_iff in Hx as [Hx|[<-|[]]].
      * eapply key_list_wf; eassumption.
      * now apply key_dec_enc.
    + rewrite enc_list_app, E. now apply firstn_exact.
Qed.

(** Shifting the tail down over the element at [i] and shrinking deletes exactly that element; an
    index past the end is refused. *)
Theorem C20_remove :
  (forall b l i, are_bytes b = true -> lst_list b = Some l -> Z.of_nat (length b) <= U64_MAX -> 0 <= i ->
     (i < Z.of_nat (length l) ->
        exists b', remove_elem 80 i b = Ok b' /\ are_bytes b' = true /\
          lst_list b' = Some (remove_nth l (Z.to_nat i))) /\
     (Z.of_nat (length l) <= i -> remove_elem 80 i b = Err (Ctl MathError))) /\
  (forall b l i, are_bytes b = true -> key_list b = Some l -> Z.of_nat (length b) <= U64_MAX -> 0 <= i ->
     (i < Z.of_nat (length l) ->
        exists b', remove_elem 32 i b = Ok b' /\ are_bytes b' = true /\
          key_list b' = Some (remove_nth l (Z.to_nat i))) /\
     (Z.of_nat (length l) <= i -> remove_elem 32 i b = Err (Ctl MathError))).
Proof.
  split.
  - intros b l i Hb Hl HU Hi.
    pose proof (try_list_dec _ LST_SIZE enc_lst dec_lst ltac:(unfold LST_SIZE; lia) lst_enc_dec _ _ Hb Hl) as E.
    pose proof (try_list_length _ LST_SIZE dec_lst ltac:(unfold LST_SIZE; lia) _ _ Hl) as L.
    pose proof (remove_elem_enc _ LST_SIZE enc_lst ltac:(unfold LST_SIZE; lia) lst_len l i Hi) as R.
    rewrite <- L, E in R. specialize (R HU). change LST_SIZE with 80%nat in R.
    split; intros Hlt.
    + rewrite (proj2 (Z.ltb_lt _ _) Hlt) in R.
      exists (enc_list enc_lst (remove_nth l (Z.to_nat i))). repeat split; auto.
      * apply lst_bytes_ok.
      * apply (try_list_enc _ LST_SIZE enc_lst dec_lst ltac:(unfold LST_SIZE; lia) lst_len).
        intros x Hx. apply In_remove_nth in Hx. eapply lst_list_wf; eassumption.
    + rewrite (proj2 (Z.ltb_ge _ _) Hlt) in R. exact R.
  - intros b l i Hb Hl HU Hi.
    pose proof (try_list_dec _ KEY_SIZE enc_key dec_key ltac:(unfold KEY_SIZE; lia) key_enc_dec _ _ Hb Hl) as E.
    pose proof (try_list_length _ KEY_SIZE dec_key ltac:(unfold KEY_SIZE; lia) _ _ Hl) as L.
    pose proof (remove_elem_enc _ KEY_SIZE enc_key ltac:(unfold KEY_SIZE; lia) key_len l i Hi) as R.
    rewrite <- L, E in R. specialize (R HU). change KEY_SIZE with 32%nat in R.
    split; intros Hlt.
    + rewrite (proj2 (Z.ltb_lt _ _) Hlt) in R.
      exists (enc_list enc_key (remove_nth l (Z.to_nat i))). repeat split; auto.
      * apply key_bytes_ok.
      * apply (try_list_enc _ KEY_SIZE enc_key dec_key ltac:(unfold KEY_SIZE; lia) key_len).
        intros x Hx. apply In_remove_nth in Hx. eapply key_list_wf; eassumption.
    + rewrite (proj2 (Z.ltb_ge _ _) Hlt) in R. exact R.
Qed.

(** In-place writes of one field of one list entry change exactly that field of that entry. *)
Theorem C20_field_writes : forall b l i ls pad, are_bytes b = true -> lst_list b = Some l ->
  nth_error l i = Some (ls, pad) ->
  (forall v, u8b v = true ->
     lst_list (splice (i * 80 + 0) (le_bytes 1 v) b) = Some (replace_nth l i (set_input_disabled ls v, pad))) /\
  (forall v, u64b v = true ->
     lst_list (splice (i * 80 + 8) (le_bytes 8 v) b) = Some (replace_nth l i (set_sol_value ls v, pad))) /\
  (forall v, keyb v = true ->
     lst_list (splice (i * 80 + 48) (le_bytes 32 v) b) = Some (replace_nth l i (set_calculator ls v, pad))).
Proof.
  intros b l i ls pad Hb Hl Hi.
  pose proof (try_list_dec _ LST_SIZE enc_lst dec_lst ltac:(unfold LST_SIZE; lia) lst_enc_dec _ _ Hb Hl) as E.
  assert (W : fits lst_layout (lst_fields ls pad)).
  { pose proof (lst_list_wf _ _ _ Hb Hl (nth_error_In _ _ Hi)) as D.
    assert (B : are_bytes (enc_lst (ls, pad)) = true) by apply enc_fields_bytes.
    pose proof (dec_fields_fits lst_layout (enc_lst (ls, pad)) B (lst_len _)) as F.
    unfold dec_lst in D.
    destruct (dec_fields lst_layout (enc_lst (ls, pad))) as [|a [|a1 [|a2 [|a3 [|a4 [|a5 [|a6 [|? ?]]]]]]]];
      try (exfalso; apply fits_length in F; cbn in F; discriminate).
    injection D as <- <-. exact F. }
  apply lst_fits in W as [W P]. unfold lst_wfb in W. rewrite !andb_true_iff in W. decompose [and] W. clear W.
  assert (G : forall j w v ls2,
    nth_error lst_layout j = Some w ->
    replace_nth (lst_fields ls pad) j v = lst_fields ls2 pad -> lst_wfb ls2 = true ->
    (width (firstn j lst_layout) + w <= LST_SIZE)%nat ->
    lst_list (splice (i * LST_SIZE + width (firstn j lst_layout)) (le_bytes w v) b) =
      Some (replace_nth l i (ls2, pad))).
  { intros j w v ls2 Hj HR Hw Hle. rewrite <- E.
    rewrite (splice_elem _ LST_SIZE enc_lst ltac:(unfold LST_SIZE; lia) lst_len l i (ls, pad) (ls2, pad)); auto.
    - apply (try_list_enc _ LST_SIZE enc_lst dec_lst ltac:(unfold LST_SIZE; lia) lst_len).
      intros x Hx. apply In_replace_nth in Hx as [->|Hx].
      + now apply (proj1 C21_lst_state).
      + eapply lst_list_wf; eassumption.
    - unfold enc_lst. cbn [fst snd]. rewrite <- (app_nil_r (enc_fields _ _)), splice_field by auto.
      rewrite HR. apply app_nil_r.
    - rewrite le_bytes_length. exact Hle. }
  repeat apply conj; intros v Hv.
  - apply (G 0%nat 1%nat); [reflexivity|reflexivity| |cbn; unfold LST_SIZE; lia].
    unfold lst_wfb; cbn. rewrite !andb_true_iff. tauto.
  - apply (G 4%nat 8%nat); [reflexivity|reflexivity| |cbn; unfold LST_SIZE; lia].
    unfold lst_wfb; cbn. rewrite !andb_true_iff. tauto.
  - apply (G 6%nat 32%nat); [reflexivity|reflexivity| |cbn; unfold LST_SIZE; lia].
    unfold lst_wfb; cbn. rewrite !andb_true_iff. tauto.
Qed.

Example C20_case :
  let b := enc_key 7 ++ enc_key (2^255 + 9) ++ enc_key 11 in
  are_bytes b = true /\ key_list b = Some [7; 2^255 + 9; 11] /\ Z.of_nat (length b) <= U64_MAX /\
  (exists b', remove_elem 32 1 b = Ok b' /\ key_list b' = Some [7; 11]) /\
  remove_elem 32 3 b = Err (Ctl MathError) /\ key_list (1 :: b) = None /\
  (exists b', remove_elem 32 0 (enc_key 7) = Ok b' /\ b' = []).
Proof.
  cbv zeta. repeat apply conj; try (vm_compute; (reflexivity || congruence)).
  all: eexists; vm_compute; split; reflexivity.
Qed.

Example C20_lst_case :
  let x := (mkLst 0 254 253 5 20 30, 0) in let y := (mkLst 1 252 251 9 21 31, 0) in
  let b := enc_list enc_lst [x; y] in
  are_bytes b = true /\ lst_list b = Some [x; y] /\ nth_error [x; y] 1 = Some y /\
  lst_wfb (mkLst 0 1 2 0 22 32) = true /\
  (exists b', append_elem 80 InvalidLstStateListData (enc_lst (mkLst 0 1 2 0 22 32, 0)) b = Ok b' /\
     lst_list b' = Some [x; y; (mkLst 0 1 2 0 22 32, 0)]) /\
  (exists b', remove_elem 80 0 b = Ok b' /\ lst_list b' = Some [y]).
Proof.
  cbv zeta. repeat apply conj; try (vm_compute; reflexivity).
  all: eexists; vm_compute; split; reflexivity.
Qed.
