(** C45: the programs understand each other's bytes, and the accounts they keep read back as written. *)
From Coq Require Import ZArith List Bool Lia ZifyBool ZifyNat.
From Verif Require Import Base Ratio Calc State Controller Spec InvProofs Periph PeriphSpec PeriphProofs Deploy Serde
  SerdeProofs PropSerde Wire WireSpec WireProofs Concrete ConcreteReach PropJup PropDeploy.
Import ListNotations.
Open Scope Z_scope.

(* ------------------------------------------------------------------ *)
(** * Requests *)

(** Layout of the requests: one byte of kind, then u64s, little-endian, nothing else. *)
Definition request (kind : Z) (args : list Z) (b : bytes) : Prop :=
  are_bytes b = true /\ length b = (1 + 8 * length args)%nat /\ at_ b 0 1 = kind /\
  forall i x, nth_error args i = Some x -> at_ b (1 + 8 * i) 8 = x.

Lemma request_intro kind args : u8b kind = true -> forallb u64b args = true ->
  request kind args (kind :: concat (map (le_bytes 8) args)).
Proof.
  intros Hk Ha. unfold request, at_.
  assert (HL : forall l, length (concat (map (le_bytes 8) l)) = (8 * length l)%nat).
  { induction l; cbn [map concat length]; auto. rewrite app_length, le_bytes_length, IHl. lia. }
  split; [|split; [|split]].
  - cbn [are_bytes forallb]. rewrite Hk. cbn [andb]. clear Ha. induction args as [|x t IH]; auto.
    cbn [map concat]. change (forallb u8b) with are_bytes in *. now rewrite are_bytes_app, le_bytes_ok.
  - cbn [length]. now rewrite HL.
  - cbn [skipn firstn le_val]. lia.
  - clear Hk. induction args as [|y t IH]; intros i x Hi; [destruct i; discriminate|].
    cbn [forallb] in Ha. apply andb_true_iff in Ha as (Hy & Ht). cbn [map concat].
    destruct i as [|i].
    + cbn [nth_error] in Hi. injection Hi as <-. change (1 + 8 * 0)%nat with 1%nat. cbn [skipn]. rewrite firstn_exact by apply le_bytes_length.
      apply le_val_bytes. unfold u64b, U64_MAX in Hy. cbn. lia.
    + cbn [nth_error] in Hi. specialize (IH Ht i x Hi).
      replace (1 + 8 * S i)%nat with (S (8 + 8 * i)) by lia.
      replace (1 + 8 * i)%nat with (S (8 * i)) in IH by lia.
      rewrite skipn_cons in *. rewrite <- IH. reflexivity.
Qed.

(** What the controller sends, and that every shipped program reads it as meant. *)
Theorem C45_requests : forall x y, u64b x = true -> u64b y = true ->
  request 0 [x] (lst_to_sol_ix_data x) /\ request 1 [x] (sol_to_lst_ix_data x) /\
  request 0 [x; y] (price_exact_in_ix_data x y) /\ request 1 [x; y] (price_exact_out_ix_data x y) /\
  request 2 [x; y] (price_lp_tokens_to_mint_ix_data x y) /\
  request 3 [x; y] (price_lp_tokens_to_redeem_ix_data x y) /\
  dec_calc_ix (lst_to_sol_ix_data x) = Some (LstToSol x) /\ dec_wsol_ix (lst_to_sol_ix_data x) = Some (LstToSol x) /\
  dec_calc_ix (sol_to_lst_ix_data x) = Some (SolToLst x) /\ dec_wsol_ix (sol_to_lst_ix_data x) = Some (SolToLst x) /\
  dec_flat_ix (price_exact_in_ix_data x y) = Some (PriceExactIn x y) /\
  dec_pricing_ix (price_exact_in_ix_data x y) = Some (PriceExactIn x y) /\
  dec_flat_ix (price_exact_out_ix_data x y) = Some (PriceExactOut x y) /\
  dec_pricing_ix (price_exact_out_ix_data x y) = Some (PriceExactOut x y) /\
  dec_flat_ix (price_lp_tokens_to_mint_ix_data x y) = Some (PriceLpTokensToMint x y) /\
  dec_pricing_ix (price_lp_tokens_to_mint_ix_data x y) = Some (PriceLpTokensToMint x y) /\
  dec_flat_ix (price_lp_tokens_to_redeem_ix_data x y) = Some (PriceLpTokensToRedeem x y) /\
  dec_pricing_ix (price_lp_tokens_to_redeem_ix_data x y) = Some (PriceLpTokensToRedeem x y).
Proof.
  intros x y Hx Hy.
  assert (R1 : forall k, u8b k = true -> request k [x] (k :: le_bytes 8 x)).
  { intros k Hk. replace (le_bytes 8 x) with (concat (map (le_bytes 8) [x])) by (cbn [map concat]; apply app_nil_r).
    apply request_intro; auto. cbn [forallb]. now rewrite Hx. }
  assert (R2 : forall k, u8b k = true -> request k [x; y] (k :: le_bytes 8 x ++ le_bytes 8 y)).
  { intros k Hk. replace (le_bytes 8 x ++ le_bytes 8 y) with (concat (map (le_bytes 8) [x; y]))
      by (cbn [map concat]; now rewrite app_nil_r).
    apply request_intro; auto. cbn [forallb]. now rewrite Hx, Hy. }
  pose proof (read_lst_to_sol x Hx). pose proof (read_sol_to_lst x Hx). pose proof (read_price x y Hx Hy).
  repeat match goal with |- _ /\ _ => split end; try (now apply R1); try (now apply R2); tauto.
Qed.

(* ------------------------------------------------------------------ *)
(** * Calls *)

(** A call to a shipped calculator over bytes gives the controller exactly the calculator's answer:
    the two ends of its range, or its refusal. *)
Theorem C45_calc_call : forall R dp pw other prog mint accs x, ratio_lib_ok R -> accounts_typed pw -> u64b x = true ->
  calc_call R dp pw other prog mint accs (lst_to_sol_ix_data x) =
    calc_answer R dp pw other prog mint accs (LstToSol x) /\
  calc_call R dp pw other prog mint accs (sol_to_lst_ix_data x) =
    calc_answer R dp pw other prog mint accs (SolToLst x).
Proof.
  intros R dp pw other prog mint accs x HR HT Hx. split.
  - apply calc_call_answer; auto; [eauto| |]; now apply read_lst_to_sol.
  - apply calc_call_answer; auto; [eauto| |]; now apply read_sol_to_lst.
Qed.
(** Likewise for the pricing programs. *)
Theorem C45_price_call : forall R dp pw other prog accs x y, ratio_lib_ok R -> accounts_typed pw ->
  u64b x = true -> u64b y = true ->
  price_call R dp pw other prog accs (price_exact_in_ix_data x y) =
    price_answer R dp pw other prog accs (PriceExactIn x y) /\
  price_call R dp pw other prog accs (price_exact_out_ix_data x y) =
    price_answer R dp pw other prog accs (PriceExactOut x y) /\
  price_call R dp pw other prog accs (price_lp_tokens_to_mint_ix_data x y) =
    price_answer R dp pw other prog accs (PriceLpTokensToMint x y) /\
  price_call R dp pw other prog accs (price_lp_tokens_to_redeem_ix_data x y) =
    price_answer R dp pw other prog accs (PriceLpTokensToRedeem x y).
Proof.
  intros R dp pw other prog accs x y HR HT Hx Hy.
  assert (W : u64b x && u64b y = true) by now rewrite Hx, Hy.
  pose proof (read_price x y Hx Hy) as P.
  repeat match goal with |- _ /\ _ => split end; apply price_call_answer; auto;
    try (exists x, y; auto 6); apply P.
Qed.

(** The whole controller, any instruction data, any accounts: with every call to the other programs going over
    bytes it does exactly what it does when the programs answer directly. *)
Theorem C45_program : forall D (HD : derive_ok D) R dp pw other C p w accs data, ratio_lib_ok R ->
  accounts_typed pw -> reachable D w ->
  process_instruction D (wire_env R dp pw other) C p w accs data =
  process_instruction D (deployed_env R dp pw other) C p w accs data.
Proof.
  intros D HD R dp pw other C p w accs data HR HT Hw. unfold process_instruction. apply guard_ext. intros _.
  apply bind_ext; [reflexivity|]. intros ix _.
  apply process_agree; [now apply wire_agree|]. apply (reachable_inv D HD w Hw).
Qed.

(* ------------------------------------------------------------------ *)
(** * Reading instruction data *)

Lemma prefix_refused {X} (dec : bytes -> option X) (enc : X -> bytes) (wf : X -> bool)
  (RT : forall ix t, wf ix = true -> dec (enc ix ++ t) = Some ix) (EB : forall ix, are_bytes (enc ix) = true)
  (ONLY : forall b ix, are_bytes b = true -> dec b = Some ix -> wf ix = true /\ exists t, b = enc ix ++ t) :
  forall ix p s, wf ix = true -> enc ix = p ++ s -> s <> [] -> dec p = None.
Proof.
  intros ix p s H E Hs. destruct (dec p) as [ix'|] eqn:D; auto. exfalso.
  assert (Hp : are_bytes p = true).
  { pose proof (EB ix) as B. rewrite E, are_bytes_app in B. now apply andb_true_iff in B. }
  destruct (ONLY _ _ Hp D) as (H' & t & ->).
  assert (E' : enc ix ++ [] = enc ix' ++ (t ++ s)) by (rewrite app_nil_r, E; now rewrite app_assoc).
  assert (ix = ix') as <-.
  { pose proof (RT ix [] H) as A. rewrite E', (RT ix' _ H') in A. congruence. }
  apply app_inv_head in E'. symmetry in E'. apply app_eq_nil in E'. tauto.
Qed.
Lemma unambiguous {X} (dec : bytes -> option X) (enc : X -> bytes) (wf : X -> bool)
  (RT : forall ix t, wf ix = true -> dec (enc ix ++ t) = Some ix) :
  forall ix1 ix2 t1 t2, wf ix1 = true -> wf ix2 = true -> enc ix1 ++ t1 = enc ix2 ++ t2 -> ix1 = ix2 /\ t1 = t2.
Proof.
  intros ix1 ix2 t1 t2 H1 H2 E. assert (ix1 = ix2) as <-.
  { pose proof (RT ix1 t1 H1) as A. rewrite E, (RT ix2 t2 H2) in A. congruence. }
  split; auto. now apply app_inv_head in E.
Qed.

(** Calculator instruction data: what is serialised reads back, whatever follows; two instructions never share
    data; nothing but a serialisation (and ignored bytes after it) is accepted, and then the arguments fit their
    types; a cut-off serialisation is refused. *)
Theorem C45_calc_codec :
  (forall ix tail, calc_ix_wfb ix = true -> dec_calc_ix (enc_calc_ix ix ++ tail) = Some ix) /\
  (forall ix1 ix2 t1 t2, calc_ix_wfb ix1 = true -> calc_ix_wfb ix2 = true ->
     enc_calc_ix ix1 ++ t1 = enc_calc_ix ix2 ++ t2 -> ix1 = ix2 /\ t1 = t2) /\
  (forall b ix, are_bytes b = true -> dec_calc_ix b = Some ix ->
     calc_ix_wfb ix = true /\ exists tail, b = enc_calc_ix ix ++ tail) /\
  (forall ix p s, calc_ix_wfb ix = true -> enc_calc_ix ix = p ++ s -> s <> [] -> dec_calc_ix p = None).
Proof.
  split; [exact dec_enc_calc|]. split; [exact (unambiguous _ _ _ dec_enc_calc)|].
  split; [exact dec_calc_wf|]. exact (prefix_refused _ _ _ dec_enc_calc enc_calc_bytes dec_calc_wf).
Qed.
(** The flat-fee program's instruction data likewise; negative fees included. *)
Theorem C45_flat_codec :
  (forall ix tail, flat_ix_wfb ix = true -> dec_flat_ix (enc_flat_ix ix ++ tail) = Some ix) /\
  (forall ix1 ix2 t1 t2, flat_ix_wfb ix1 = true -> flat_ix_wfb ix2 = true ->
     enc_flat_ix ix1 ++ t1 = enc_flat_ix ix2 ++ t2 -> ix1 = ix2 /\ t1 = t2) /\
  (forall b ix, are_bytes b = true -> dec_flat_ix b = Some ix ->
     flat_ix_wfb ix = true /\ exists tail, b = enc_flat_ix ix ++ tail) /\
  (forall ix p s, flat_ix_wfb ix = true -> enc_flat_ix ix = p ++ s -> s <> [] -> dec_flat_ix p = None).
Proof.
  split; [exact dec_enc_flat|]. split; [exact (unambiguous _ _ _ dec_enc_flat)|].
  split; [exact dec_flat_wf|]. exact (prefix_refused _ _ _ dec_enc_flat enc_flat_bytes dec_flat_wf).
Qed.

Ltac kinds :=
  repeat match goal with
  | |- (if ?x =? ?n then _ else _) = None => destruct (Z.eqb_spec x n); [lia|]
  end.
(** Data of an unknown kind, and no data, is refused by every program; the calculators and pricing programs whose
    only instructions are queries refuse everything else. *)
Theorem C45_unknown_refused :
  (forall d t, ~ In d [0; 1; 253; 254; 255] -> dec_calc_ix (d :: t) = None) /\
  (forall d t, ~ In d [0; 1] -> dec_wsol_ix (d :: t) = None) /\
  (forall d t, ~ In d [0; 1; 2; 3] -> dec_pricing_ix (d :: t) = None) /\
  (forall d t, ~ In d [0; 1; 2; 3; 250; 251; 252; 253; 254; 255] -> dec_flat_ix (d :: t) = None) /\
  dec_calc_ix [] = None /\ dec_wsol_ix [] = None /\ dec_pricing_ix [] = None /\ dec_flat_ix [] = None.
Proof.
  split; [|split; [|split; [|split; [|auto 6]]]]; intros d t H; cbn [In] in H;
    unfold dec_calc_ix, dec_wsol_ix, dec_pricing_ix, dec_flat_ix; rewrite read_1'; kinds; reflexivity.
Qed.

(** The administrative kinds are apart from the queries: no query data is read as an administrative instruction,
    and a request of either interface never reads as an instruction that changes anything. *)
Theorem C45_queries_change_nothing : forall R cfg F pw p accs data pw' ret,
  (match data with d :: _ => 0 <= d <= 3 | [] => True end) ->
  (calc_entry R cfg pw p accs data = Ok (pw', ret) -> pw' = pw /\ p = cc_id cfg) /\
  (flat_entry R F pw p accs data = Ok (pw', ret) -> pw' = pw /\ p = ff_id F).
Proof.
  intros R cfg F pw p accs data pw' ret Hd. unfold calc_entry, flat_entry. split; intros H;
    apply guard_ok in H as (Hp & H); apply Z.eqb_eq in Hp; split; auto;
    apply bind_ok in H as (ix & Hx & H); apply of_option_ok in Hx;
    apply bind_ok in H as ((pw1, r) & Hr & H);
    assert (pw' = pw1) as -> by congruence; clear H Hp.
  - destruct data as [|d t]; [discriminate|]. unfold dec_calc_ix in Hx. rewrite read_1' in Hx.
    destruct ix; cbn [calc_process] in Hr;
      try (apply bind_ok in Hr as (? & _ & Hr); apply bind_ok in Hr as (? & _ & Hr); congruence);
      exfalso;
      repeat match type of Hx with
      | (if ?x =? ?n then _ else _) = Some _ => destruct (Z.eqb_spec x n); [|]
      | (match ?x with _ => _ end) = Some _ => destruct x as [[? ?]|]
      end; try discriminate; try lia.
  - destruct data as [|d t]; [discriminate|]. unfold dec_flat_ix in Hx. rewrite read_1' in Hx.
    destruct ix; cbn [flat_process] in Hr;
      try (apply bind_ok in Hr as (? & _ & Hr); congruence);
      exfalso; unfold dec_price, dec_fees in Hx;
      repeat match type of Hx with
      | (if ?x =? ?n then _ else _) = Some _ => destruct (Z.eqb_spec x n); [|]
      | (match ?x with _ => _ end) = Some _ => destruct x as [[? ?]|]
      end; try discriminate; try lia.
Qed.

(* ------------------------------------------------------------------ *)
(** * Kept accounts *)

(** The programs keep what they store within its type, whatever the data sent to them. *)
Lemma put_typed pw k a : accounts_typed pw ->
  match pa_data a with
  | PSpl p => calc_typed (CSpl p) | PLido p => calc_typed (CLido p) | PMarinade p => calc_typed (CMarinade p)
  | PFlatState _ f => u16b f = true | PFlatFee _ i o => i16b i = true /\ i16b o = true | _ => True end ->
  accounts_typed (put_acc pw k a).
Proof.
  intros (H1 & H2) Ha. split; intros j; unfold pdata, put_acc; cbn [pw_acc]; unfold upd;
    destruct (j =? k); try apply H1; try apply H2; destruct (pa_data a); auto.
Qed.
Lemma write_typed prog pw k d pw' : accounts_typed pw ->
  match d with
  | PSpl p => calc_typed (CSpl p) | PLido p => calc_typed (CLido p) | PMarinade p => calc_typed (CMarinade p)
  | PFlatState _ f => u16b f = true | PFlatFee _ i o => i16b i = true /\ i16b o = true | _ => True end ->
  write_data prog pw k d = Ok pw' \/ init_account prog pw k d = Ok pw' -> accounts_typed pw'.
Proof.
  intros HT Hd [H|H]; [unfold write_data in H|unfold init_account in H]; apply guard_ok in H as (_ & H).
  - injection H as <-. now apply put_typed.
  - destruct (pdata pw k); try discriminate. injection H as <-. now apply put_typed.
Qed.

Ltac wk H :=
  repeat lazymatch type of H with
  | guard _ _ _ = Ok _ => apply guard_ok in H as (_ & H)
  | bind _ _ = Ok _ => apply bind_ok in H as (? & _ & H)
  | verify_keys_privs _ _ _ _ _ = Ok _ => unfold verify_keys_privs in H
  | (match ?l with nil => _ | cons _ _ => _ end) = Ok _ => destruct l; [discriminate|]
  | (let '(_, _) := ?x in _) = Ok _ => destruct x
  end.

Theorem C45_kept_typed : forall R cfg F pw p accs data pw' ret, are_bytes data = true -> accounts_typed pw ->
  calc_entry R cfg pw p accs data = Ok (pw', ret) \/ flat_entry R F pw p accs data = Ok (pw', ret) ->
  accounts_typed pw'.
Proof.
  intros R cfg F pw p accs data pw' ret Hb HT [H|H]; unfold calc_entry, flat_entry in H;
    apply guard_ok in H as (_ & H); apply bind_ok in H as (ix & Hx & H); apply of_option_ok in Hx;
    apply bind_ok in H as ((pw1, r) & Hr & H); assert (pw' = pw1) as -> by congruence; clear H.
  - destruct ix; cbn [calc_process] in Hr; apply bind_ok in Hr as (v & Hv & Hr);
      try (apply bind_ok in Hr as (? & _ & Hr)).
    + assert (pw1 = pw) as -> by congruence. auto.
    + assert (pw1 = pw) as -> by congruence. auto.
    + assert (pw1 = v) as -> by congruence. unfold process_update_last_upgrade_slot in Hv. wk Hv.
      eapply write_typed; [exact HT| |left; exact Hv]. exact I.
    + assert (pw1 = v) as -> by congruence. unfold process_calc_set_manager in Hv. wk Hv.
      eapply write_typed; [exact HT| |left; exact Hv]. exact I.
    + assert (pw1 = v) as -> by congruence. unfold process_calc_init in Hv. wk Hv.
      eapply write_typed; [exact HT| |right; exact Hv]. exact I.
  - apply dec_flat_wf in Hx as (W & _); auto.
    destruct ix; cbn [flat_process flat_ix_wfb] in Hr, W; apply bind_ok in Hr as (v & Hv & Hr);
      first [assert (pw1 = pw) as -> by congruence; exact HT | assert (pw1 = v) as -> by congruence].
    + unfold process_set_lp_withdrawal_fee in Hv. wk Hv. eapply write_typed; [exact HT| |left; exact Hv]. exact W.
    + unfold process_set_lst_fee in Hv. wk Hv. eapply write_typed; [exact HT| |left; exact Hv].
      now apply andb_true_iff in W.
    + unfold process_flat_remove_lst in Hv. wk Hv. destruct (powner pw _ =? _).
      * injection Hv as <-. apply put_typed; auto. exact I.
      * destruct (pdata pw _); try discriminate. now injection Hv as <-.
    + unfold process_flat_add_lst in Hv. wk Hv. eapply write_typed; [exact HT| |right; exact Hv].
      now apply andb_true_iff in W.
    + unfold process_flat_set_manager in Hv.
      do 3 (destruct accs as [|? accs]; [discriminate|]). apply guard_ok in Hv as (_ & Hv).
      apply bind_ok in Hv as (st & Hst & Hv). wk Hv. eapply write_typed; [exact HT| |left; exact Hv].
      unfold try_program_state in Hst. pose proof (proj2 HT (mk m1)) as K.
      destruct (pdata pw (mk m1)); try discriminate. injection Hst as <-. exact K.
    + unfold process_flat_initialize in Hv. wk Hv. eapply write_typed; [exact HT| |right; exact Hv]. reflexivity.
Qed.

(** Account layouts: what is stored reads back; what parses is exactly the layout's length, its values fit their
    types, and storing them again gives the same bytes (up to the fee account's padding byte); the three sizes
    differ, so no account of one kind parses as another. *)
Theorem C45_layouts :
  (forall m s, keyb m = true -> u64b s = true ->
     length (enc_calc_state m s) = 40%nat /\ dec_calc_state (enc_calc_state m s) = Some (m, s)) /\
  (forall m f, keyb m = true -> u16b f = true ->
     length (enc_flat_state m f) = 34%nat /\ dec_flat_state (enc_flat_state m f) = Some (m, f)) /\
  (forall b p i o, u8b b = true -> u8b p = true -> i16b i = true -> i16b o = true ->
     length (enc_fee_acc b p i o) = 6%nat /\ dec_fee_acc (enc_fee_acc b p i o) = Some (b, i, o)) /\
  (forall d m s, are_bytes d = true -> dec_calc_state d = Some (m, s) ->
     length d = 40%nat /\ keyb m = true /\ u64b s = true /\ d = enc_calc_state m s) /\
  (forall d m f, are_bytes d = true -> dec_flat_state d = Some (m, f) ->
     length d = 34%nat /\ keyb m = true /\ u16b f = true /\ d = enc_flat_state m f) /\
  (forall d b i o, are_bytes d = true -> dec_fee_acc d = Some (b, i, o) ->
     length d = 6%nat /\ u8b b = true /\ i16b i = true /\ i16b o = true /\ exists p, d = enc_fee_acc b p i o) /\
  (forall d, length d <> 40%nat -> dec_calc_state d = None) /\
  (forall d, length d <> 34%nat -> dec_flat_state d = None) /\
  (forall d, length d <> 6%nat -> dec_fee_acc d = None).
Proof.
  assert (HM : forall x, 0 <= x mod 65536 < 65536) by (intros; apply Z.mod_pos_bound; lia).
  assert (HI : forall v, 0 <= v < 65536 -> i16b (i16_of v) = true /\ i16_of v mod 65536 = v).
  { intros v Hv. unfold i16_of, i16b. destruct (Z.ltb_spec v 32768).
    - split; [lia|]. apply Z.mod_small. lia.
    - split; [lia|]. replace (v - 65536) with (v + (-1) * 65536) by lia. rewrite Z.mod_add by lia.
      apply Z.mod_small. lia. }
  split; [|split; [|split; [|split; [|split; [|split; [|split; [|split]]]]]]].
  - intros m s Hm Hs. split; [unfold enc_calc_state; now rewrite enc_fields_length|].
    unfold dec_calc_state, enc_calc_state. rewrite enc_fields_length by reflexivity. rewrite Nat.eqb_refl.
    rewrite <- (app_nil_r (enc_fields _ _)), dec_enc_fields; auto.
    apply keyb_range in Hm. unfold u64b, U64_MAX in Hs. repeat constructor; pows; lia.
  - intros m s Hm Hs. split; [unfold enc_flat_state; now rewrite enc_fields_length|].
    unfold dec_flat_state, enc_flat_state. rewrite enc_fields_length by reflexivity. rewrite Nat.eqb_refl.
    rewrite <- (app_nil_r (enc_fields _ _)), dec_enc_fields; auto.
    apply keyb_range in Hm. unfold u16b, U16_MAX in Hs. repeat constructor; pows; lia.
  - intros b p i o Hb Hp Hi Ho. split; [unfold enc_fee_acc; now rewrite enc_fields_length|].
    unfold dec_fee_acc, enc_fee_acc. rewrite enc_fields_length by reflexivity. rewrite Nat.eqb_refl.
    rewrite <- (app_nil_r (enc_fields _ _)), dec_enc_fields.
    + now rewrite !i16_of_mod.
    + pose proof (HM i). pose proof (HM o). unfold u8b, U8_MAX in *. repeat constructor; pows; lia.
  - intros d m s Hd H. unfold dec_calc_state in H.
    destruct (Nat.eqb_spec (length d) (width calc_state_layout)) as [L|]; [|discriminate].
    pose proof (dec_fields_fits _ _ Hd L) as F. pose proof (enc_dec_fields _ _ Hd L) as R.
    destruct (dec_fields calc_state_layout d) as [|v1 [|v2 [|]]]; try discriminate.
    assert (v1 = m /\ v2 = s) as (-> & ->) by (split; congruence). unfold fits, calc_state_layout in F. f2.
    split; [exact L|]. split; [now apply keyb_range|]. split; [pows; unfold u64b, U64_MAX; lia|]. now symmetry.
  - intros d m s Hd H. unfold dec_flat_state in H.
    destruct (Nat.eqb_spec (length d) (width flat_state_layout)) as [L|]; [|discriminate].
    pose proof (dec_fields_fits _ _ Hd L) as F. pose proof (enc_dec_fields _ _ Hd L) as R.
    destruct (dec_fields flat_state_layout d) as [|v1 [|v2 [|]]]; try discriminate.
    assert (v1 = m /\ v2 = s) as (-> & ->) by (split; congruence). unfold fits, flat_state_layout in F. f2.
    split; [exact L|]. split; [now apply keyb_range|]. split; [pows; unfold u16b, U16_MAX; lia|]. now symmetry.
  - intros d b i o Hd H. unfold dec_fee_acc in H.
    destruct (Nat.eqb_spec (length d) (width fee_acc_layout)) as [L|]; [|discriminate].
    pose proof (dec_fields_fits _ _ Hd L) as F. pose proof (enc_dec_fields _ _ Hd L) as R.
    destruct (dec_fields fee_acc_layout d) as [|v1 [|v2 [|v3 [|v4 [|]]]]]; try discriminate.
    assert (v1 = b /\ i16_of v3 = i /\ i16_of v4 = o) as (-> & <- & <-) by (repeat split; congruence).
    unfold fits, fee_acc_layout in F. f2. pows.
    destruct (HI v3) as (A1 & A2); auto. destruct (HI v4) as (A3 & A4); auto.
    split; [exact L|]. split; [unfold u8b, U8_MAX; lia|]. split; [auto|]. split; [auto|].
    exists v2. unfold enc_fee_acc. now rewrite A2, A4.
  - intros d H. unfold dec_calc_state. destruct (Nat.eqb_spec (length d) (width calc_state_layout)); auto. contradiction.
  - intros d H. unfold dec_flat_state. destruct (Nat.eqb_spec (length d) (width flat_state_layout)); auto. contradiction.
  - intros d H. unfold dec_fee_acc. destruct (Nat.eqb_spec (length d) (width fee_acc_layout)); auto. contradiction.
Qed.

(** Writing one field in place changes that field and nothing else: the calculator's manager (bytes 0..32) and last
    upgrade slot (32..40), the flat-fee manager (0..32) and withdrawal fee (32..34), the fees of a fee account
    (2..4, 4..6); and setting every field of a fresh zeroed account gives the whole account. *)
Theorem C45_field_writes :
  (forall m s m', splice 0 (le_bytes 32 m') (enc_calc_state m s) = enc_calc_state m' s) /\
  (forall m s s', splice 32 (le_bytes 8 s') (enc_calc_state m s) = enc_calc_state m s') /\
  (forall m f m', splice 0 (le_bytes 32 m') (enc_flat_state m f) = enc_flat_state m' f) /\
  (forall m f f', splice 32 (le_bytes 2 f') (enc_flat_state m f) = enc_flat_state m f') /\
  (forall b p i o i', splice 2 (i16_bytes i') (enc_fee_acc b p i o) = enc_fee_acc b p i' o) /\
  (forall b p i o o', splice 4 (i16_bytes o') (enc_fee_acc b p i o) = enc_fee_acc b p i o') /\
  (forall m, splice 0 (le_bytes 32 m) (repeat 0 40) = enc_calc_state m 0) /\
  (forall m f, splice 32 (le_bytes 2 f) (splice 0 (le_bytes 32 m) (repeat 0 34)) = enc_flat_state m f) /\
  (forall b i o, splice 4 (i16_bytes o) (splice 2 (i16_bytes i) (splice 0 (le_bytes 1 b) (repeat 0 6))) =
     enc_fee_acc b 0 i o).
Proof.
  assert (SF : forall ws vs n w v, length ws = length vs -> nth_error ws n = Some w ->
    splice (width (firstn n ws)) (le_bytes w v) (enc_fields ws vs) = enc_fields ws (replace_nth vs n v)).
  { intros. pose proof (splice_field ws vs n w v [] H H0) as X. now rewrite !app_nil_r in X. }
  assert (C0 : forall m s m', splice 0 (le_bytes 32 m') (enc_calc_state m s) = enc_calc_state m' s)
    by (intros; apply (SF calc_state_layout [m; s] 0%nat 32%nat m'); reflexivity).
  assert (C1 : forall m s s', splice 32 (le_bytes 8 s') (enc_calc_state m s) = enc_calc_state m s')
    by (intros; apply (SF calc_state_layout [m; s] 1%nat 8%nat s'); reflexivity).
  assert (F0 : forall m f m', splice 0 (le_bytes 32 m') (enc_flat_state m f) = enc_flat_state m' f)
    by (intros; apply (SF flat_state_layout [m; f] 0%nat 32%nat m'); reflexivity).
  assert (F1 : forall m f f', splice 32 (le_bytes 2 f') (enc_flat_state m f) = enc_flat_state m f')
    by (intros; apply (SF flat_state_layout [m; f] 1%nat 2%nat f'); reflexivity).
  assert (A0 : forall b p i o b', splice 0 (le_bytes 1 b') (enc_fee_acc b p i o) = enc_fee_acc b' p i o)
    by (intros; apply (SF fee_acc_layout [b; p; i mod 65536; o mod 65536] 0%nat 1%nat b'); reflexivity).
  assert (A2 : forall b p i o i', splice 2 (i16_bytes i') (enc_fee_acc b p i o) = enc_fee_acc b p i' o)
    by (intros; apply (SF fee_acc_layout [b; p; i mod 65536; o mod 65536] 2%nat 2%nat (i' mod 65536)); reflexivity).
  assert (A4 : forall b p i o o', splice 4 (i16_bytes o') (enc_fee_acc b p i o) = enc_fee_acc b p i o')
    by (intros; apply (SF fee_acc_layout [b; p; i mod 65536; o mod 65536] 3%nat 2%nat (o' mod 65536)); reflexivity).
  split; [exact C0|]. split; [exact C1|]. split; [exact F0|]. split; [exact F1|]. split; [exact A2|].
  split; [exact A4|]. split; [|split].
  - intros m. change (repeat 0 40) with (enc_calc_state 0 0). apply C0.
  - intros m f. change (repeat 0 34) with (enc_flat_state 0 0). now rewrite F0, F1.
  - intros b i o. change (repeat 0 6) with (enc_fee_acc 0 0 0 0). now rewrite A0, A2, A4.
Qed.

(* ------------------------------------------------------------------ *)
(** * Cases *)

Example pw1_accounts_typed : accounts_typed pw1.
Proof.
  split; [exact pw1_typed|]. intros k. unfold pw1, pw1_2, pw1_1, pw1_0, pdata, put_acc. cbn [pw_acc]. unfold upd.
  repeat match goal with |- context [if ?x then _ else _] => destruct x end; cbn; auto.
Qed.

Example C45_bytes_case :
  lst_to_sol_ix_data 1001 = [0; 233; 3; 0; 0; 0; 0; 0; 0] /\
  price_exact_out_ix_data 258 7 = [1; 2; 1; 0; 0; 0; 0; 0; 0; 7; 0; 0; 0; 0; 0; 0; 0] /\
  enc_flat_ix (SetLstFee (-5) 15) = [251; 251; 255; 15; 0] /\ dec_flat_ix [251; 251; 255; 15; 0] = Some (SetLstFee (-5) 15) /\
  enc_fee_acc 255 0 (-5) 15 = [255; 0; 251; 255; 15; 0] /\
  flat_entry ref_ratio_lib flat1 pw1 PP [cpi_ro MA; cpi_ro MB; cpi_ro fee_a; cpi_ro fee_b] (price_exact_in_ix_data 5 10000) =
    Ok (pw1, le_bytes 8 9975).
Proof. repeat split; vm_compute; reflexivity. Qed.

(** A deposit with every call over bytes. *)
Example C45_program_case :
  process D0 (wire_env ref_ratio_lib dp1 pw1 E0) C0 W8 accs1 (AddLiquidity dep1) = Ok wd1 /\
  process D0 (wire_env ref_ratio_lib dp1 pw1 E0) C0 W8 accs1 (AddLiquidity dep1) =
  process D0 (deployed_env ref_ratio_lib dp1 pw1 E0) C0 W8 accs1 (AddLiquidity dep1).
Proof.
  destruct shipped_case as (HW & _ & _ & _ & _ & _ & _ & _ & HP & _).
  assert (X : process D0 (wire_env ref_ratio_lib dp1 pw1 E0) C0 W8 accs1 (AddLiquidity dep1) =
    process D0 (deployed_env ref_ratio_lib dp1 pw1 E0) C0 W8 accs1 (AddLiquidity dep1)).
  { apply process_agree.
    - apply wire_agree; [exact ref_ratio_lib_ok|exact pw1_accounts_typed].
    - exact (proj1 (reachable_inv D0 D0_ok W8 HW)). }
  split; [rewrite X; exact HP|exact X].
Qed.
