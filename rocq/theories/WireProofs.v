(** Lemmas about the byte-level calls. *)
From Coq Require Import ZArith List Bool Lia ZifyBool ZifyNat.
From Verif Require Import Base Ratio Calc State Controller Inversion ProcInv Spec CalcProofs InvProofs
  Serde SerdeProofs Periph PeriphSpec PeriphProofs PropCalc Deploy Wire WireSpec.
Import ListNotations.
Open Scope Z_scope.

(* ------------------------------------------------------------------ *)
(** * Codecs *)

Lemma u64b_t x : U64 x -> u64b x = true.
Proof. unfold U64, u64b. rewrite andb_true_iff, !Z.leb_le. auto. Qed.

Lemma read_i16_bytes x t : i16b x = true -> read_i16 (i16_bytes x ++ t) = Some (x, t).
Proof.
  unfold i16b. intros H. unfold read_i16, i16_bytes.
  pose proof (Z.mod_pos_bound x 65536 ltac:(lia)) as Hm.
  rewrite read_app by (cbn; lia). repeat f_equal.
  pose proof (Z.div_mod x 65536 ltac:(lia)) as Hd.
  assert (x / 65536 = 0 \/ x / 65536 = -1) as Hq.
  { assert (-1 <= x / 65536) by (apply Z.div_le_lower_bound; lia).
    assert (x / 65536 < 1) by (apply Z.div_lt_upper_bound; lia). lia. }
  destruct (Z.ltb_spec (x mod 65536) 32768); lia.
Qed.

Lemma read_i16_inv b x t : are_bytes b = true -> read_i16 b = Some (x, t) ->
  b = i16_bytes x ++ t /\ i16b x = true /\ are_bytes t = true.
Proof.
  unfold read_i16. intros Hb. destruct (read 2 b) as [[v b']|] eqn:R; [|discriminate].
  apply read_inv in R as (-> & Hv & Hb'); auto. cbn in Hv. intros [= <- <-].
  unfold i16_bytes, i16b. destruct (Z.ltb_spec v 32768); repeat split; auto; try lia.
  - rewrite Z.mod_small by lia. reflexivity.
  - replace (v - 65536) with (v + (-1) * 65536) by lia. rewrite Z_mod_plus_full, Z.mod_small by lia. reflexivity.
Qed.

Lemma i16_of_mod x : i16b x = true -> i16_of (x mod 65536) = x.
Proof.
  unfold i16b. intros H. unfold i16_of.
  pose proof (Z.mod_pos_bound x 65536 ltac:(lia)) as Hm.
  pose proof (Z.div_mod x 65536 ltac:(lia)) as Hd.
  assert (x / 65536 = 0 \/ x / 65536 = -1) as Hq.
  { assert (-1 <= x / 65536) by (apply Z.div_le_lower_bound; lia).
    assert (x / 65536 < 1) by (apply Z.div_lt_upper_bound; lia). lia. }
  destruct (Z.ltb_spec (x mod 65536) 32768); lia.
Qed.

Ltac wrd := repeat first
  [ rewrite <- !app_assoc | rewrite <- app_comm_cons | rewrite read_1'
  | rewrite read_8 by assumption | rewrite read_2 by assumption
  | rewrite read_i16_bytes by assumption ].

Lemma dec_enc_calc ix t : calc_ix_wfb ix = true -> dec_calc_ix (enc_calc_ix ix ++ t) = Some ix.
Proof.
  intros H. unfold dec_calc_ix. destruct ix; cbn [enc_calc_ix calc_ix_wfb] in *; wrd;
    cbn [Z.eqb Pos.eqb]; wrd; reflexivity.
Qed.
Lemma dec_enc_flat ix t : flat_ix_wfb ix = true -> dec_flat_ix (enc_flat_ix ix ++ t) = Some ix.
Proof.
  intros H. unfold dec_flat_ix. destruct ix; cbn [enc_flat_ix flat_ix_wfb] in *;
    bsplit; wrd; cbn [Z.eqb Pos.eqb]; unfold dec_price, dec_fees; wrd; reflexivity.
Qed.

Ltac one_byte d := replace (le_bytes 1 d) with [d] by (cbn; rewrite Z.mod_small; auto).
Ltac dec_inv H :=
  repeat match type of H with
  | (if ?x =? ?n then _ else _) = Some _ => destruct (Z.eqb_spec x n); [subst x|]
  end;
  repeat match type of H with
  | (match read ?n ?b with _ => _ end) = Some _ =>
      let R := fresh "R" in
      destruct (read n b) as [[? ?]|] eqn:R; [|discriminate];
      apply read_inv in R; [|assumption]; destruct R as (-> & ? & ?)
  | (match read_i16 ?b with _ => _ end) = Some _ =>
      let R := fresh "R" in
      destruct (read_i16 b) as [[? ?]|] eqn:R; [|discriminate];
      apply read_i16_inv in R; [|assumption]; destruct R as (-> & ? & ?)
  end; try discriminate; injection H as <-.
Ltac dec_fin :=
  split; [unfold u16b, u64b, U16_MAX, U64_MAX; cbn [Z.of_nat Pos.of_succ_nat Pos.succ] in *;
          change (256 ^ 2) with 65536 in *; change (256 ^ 8) with 18446744073709551616 in *;
          (reflexivity || lia || (apply andb_true_iff; auto)) |
          eexists; cbn [app]; f_equal; rewrite <- ?app_assoc; cbn [app]; reflexivity].

Lemma dec_calc_wf b ix : are_bytes b = true -> dec_calc_ix b = Some ix ->
  calc_ix_wfb ix = true /\ exists t, b = enc_calc_ix ix ++ t.
Proof.
  intros Hb. unfold dec_calc_ix. destruct (read 1 b) as [[d b0]|] eqn:R; [|discriminate].
  apply read_inv in R as (-> & Hd & Hb0); auto. one_byte d. clear Hb Hd.
  intros H. dec_inv H; cbn [enc_calc_ix calc_ix_wfb]; dec_fin.
Qed.
Lemma dec_flat_wf b ix : are_bytes b = true -> dec_flat_ix b = Some ix ->
  flat_ix_wfb ix = true /\ exists t, b = enc_flat_ix ix ++ t.
Proof.
  intros Hb. unfold dec_flat_ix. destruct (read 1 b) as [[d b0]|] eqn:R; [|discriminate].
  apply read_inv in R as (-> & Hd & Hb0); auto. one_byte d. clear Hb Hd. unfold dec_price, dec_fees.
  intros H. dec_inv H; cbn [enc_flat_ix flat_ix_wfb]; dec_fin.
Qed.

Lemma enc_calc_bytes ix : are_bytes (enc_calc_ix ix) = true.
Proof.
  destruct ix; try reflexivity; unfold enc_calc_ix.
  - change (are_bytes ([0] ++ le_bytes 8 amount) = true). now rewrite are_bytes_app, le_bytes_ok.
  - change (are_bytes ([1] ++ le_bytes 8 amount) = true). now rewrite are_bytes_app, le_bytes_ok.
Qed.
Lemma cons_bytes d b : u8b d = true -> are_bytes b = true -> are_bytes (d :: b) = true.
Proof. intros H1 H2. cbn. rewrite H1. exact H2. Qed.
Lemma enc_flat_bytes ix : are_bytes (enc_flat_ix ix) = true.
Proof.
  destruct ix; unfold enc_flat_ix, i16_bytes; (apply cons_bytes; [reflexivity|]);
    rewrite ?are_bytes_app, ?le_bytes_ok; reflexivity.
Qed.

(* ------------------------------------------------------------------ *)
(** * Return data *)

Lemma range_round r : U64 (fst r) -> U64 (snd r) -> range_back (range_bytes (Some r)) = Ok r.
Proof.
  destruct r as (lo & hi). cbn [fst snd]. intros Hl Hh. unfold range_back, range_bytes.
  rewrite read_8 by (apply u64b_t; auto). rewrite <- (app_nil_r (le_bytes 8 hi)), read_8 by (apply u64b_t; auto).
  reflexivity.
Qed.
Lemma price_round x : U64 x -> price_back (price_bytes (Some x)) = Ok x.
Proof.
  intros H. unfold price_back, price_bytes. rewrite <- (app_nil_r (le_bytes 8 x)), read_8 by (apply u64b_t; auto).
  reflexivity.
Qed.

(* ------------------------------------------------------------------ *)
(** * The answers are u64s *)

Section Answers.
Variable R : RatioLib.
Hypothesis HR : ratio_lib_ok R.

Lemma answer_l2s c x v : calc_typed c -> U64 x -> calc_lst_to_sol c x = Ok v -> U64 (fst v) /\ U64 (snd v).
Proof.
  intros Ht Hx H. unfold U64 in Hx. apply calc_lst_to_sol_exact in H as (Ha & ->); [|auto|lia]. cbn [fst snd].
  assert (U64 (worth c x)); [|auto]. split.
  - apply worth_nonneg; [auto|eapply answers_fee; eauto|lia].
  - destruct c as [|p|p|p]; cbn [answers] in Ha; [cbn [worth]; lia|lia|lia|]. cbn [worth]. destruct Ha as (_ & Ha & _).
    destruct Ht as (_ & _ & _ & _ & _ & Hs & Hf).
    assert (0 <= down (share x (marinade_total p) (ma_msol_supply p) * ma_fee_cents p) 1000000).
    { apply Z.div_pos; [|lia]. unfold U64 in *. pose proof (share_nonneg x (marinade_total p) (ma_msol_supply p)
        ltac:(lia) (marinade_total_nonneg p) ltac:(lia)). nia. }
    lia.
Qed.
Lemma answer_s2l c s v : U64 s -> calc_sol_to_lst R c s = Ok v -> U64 (fst v) /\ U64 (snd v).
Proof.
  intros Hs H. destruct HR as (_ & _ & _ & H1 & H2 & H3). destruct c as [|p|p|p]; cbn [calc_sol_to_lst] in H.
  - injection H as <-. auto.
  - unfold spl_sol_to_lst in H. apply bind_ok in H as (r & _ & H). apply guard_ok in H as (_ & H).
    apply bind_ok in H as ((a1 & a2) & Ha & H). apply bind_ok in H as ((b1 & b2) & Hb & H).
    apply try_from_min_max_ok in H as (-> & _). apply H2 in Ha, Hb. cbn [fst snd]. tauto.
  - destruct v as (a & b). apply H1 in H as (? & ? & ?). auto.
  - unfold marinade_sol_to_lst in H. apply guard_ok in H as (_ & H). apply bind_ok in H as (r & _ & H).
    apply bind_ok in H as (t & _ & H).
    apply bind_ok in H as ((a1 & a2) & Ha & H). apply bind_ok in H as ((b1 & b2) & Hb & H).
    apply try_from_min_max_ok in H as (-> & _). apply H1 in Ha, Hb. cbn [fst snd]. tauto.
Qed.

Lemma calc_answer_u64 cfg pw accs ix pw' v : pools_typed pw -> calc_ix_wfb ix = true ->
  calc_process R cfg pw accs ix = Ok (pw', Some v) -> U64 (fst v) /\ U64 (snd v).
Proof.
  intros HT Hx H. destruct ix as [x|x| | |]; cbn [calc_process calc_ix_wfb] in *.
  - apply wf_u64 in Hx. apply bind_ok in H as (c & Hc & H). apply verify_common_iff in Hc.
    apply bind_ok in H as (u & Hu & H). injection H as <- <-.
    eapply answer_l2s; eauto. eapply pool_of_typed; eauto. exact (q_pool _ _ _ _ Hc).
  - apply wf_u64 in Hx. apply bind_ok in H as (c & Hc & H).
    apply bind_ok in H as (u & Hu & H). injection H as <- <-. eapply answer_s2l; eauto.
  - apply bind_ok in H as (? & _ & H). discriminate.
  - apply bind_ok in H as (? & _ & H). discriminate.
  - apply bind_ok in H as (? & _ & H). discriminate.
Qed.

Lemma flat_answer_u64 F pw accs ix pw' v : accounts_typed pw -> flat_ix_wfb ix = true ->
  flat_process R F pw accs ix = Ok (pw', Some v) -> U64 v.
Proof.
  intros (_ & HT) Hx H.
  destruct ix as [x y|x y|x y|x y| | | | | |]; cbn [flat_process flat_ix_wfb] in *;
    try (apply bind_ok in H as (? & _ & H); discriminate H);
    apply andb_true_iff in Hx as (Hx & Hy); apply wf_u64 in Hx, Hy;
    apply bind_ok in H as (r & Hr & H); injection H as <- <-.
  - unfold process_price_exact_in in Hr. apply bind_ok in Hr as ((f & g) & _ & Hr). cbn [fst snd] in Hr.
    unfold calculate_price_exact_in in Hr. apply bind_ok in Hr as (q & Hq & Hr).
    unfold out_sol_value_ratio in Hq. apply guard_ok in Hq as (_ & Hq). apply guard_ok in Hq as (Hq1 & Hq).
    assert (q = 10000 - (f + g)) by congruence. subst q. apply andb_true_iff in Hq1 as (_ & Hq1).
    destruct (floor_apply (10000 - (f + g)) BPS_DENOMINATOR y) as [z|] eqn:Hz; [|discriminate Hr].
    injection Hr as <-. unfold floor_apply in Hz.
    destruct ((10000 - (f + g) =? 0) || (BPS_DENOMINATOR =? 0)).
    { injection Hz as <-. unfold U64, U64_MAX. lia. }
    destruct (Z.leb_spec (y * (10000 - (f + g)) / BPS_DENOMINATOR) U64_MAX); [|discriminate].
    injection Hz as <-. split; auto. apply Z.div_pos; [|unfold BPS_DENOMINATOR; lia].
    apply Z.leb_le in Hq1. apply Z.mul_nonneg_nonneg; [apply Hy|exact Hq1].
  - unfold process_price_exact_out in Hr. apply bind_ok in Hr as ((f & g) & _ & Hr).
    unfold calculate_price_exact_out in Hr. apply bind_ok in Hr as (q & Hq & Hr).
    apply bind_ok in Hr as ((lo & hi) & Hr & E). injection E as <-.
    destruct (rl_reverse R q BPS_DENOMINATOR y) as [(a & b)|] eqn:Hz; [|discriminate Hr].
    injection Hr as <- <-. destruct HR as (_ & _ & _ & H1 & _). apply H1 in Hz. cbn [snd]. tauto.
  - injection Hr as <-. exact Hy.
  - unfold process_price_lp_tokens_to_redeem in Hr. destruct accs as [|a [|b accs]]; try discriminate Hr.
    apply guard_ok in Hr as (_ & Hr). apply bind_ok in Hr as ((m & f) & Hst & Hr). cbn [snd] in Hr.
    unfold try_program_state in Hst. specialize (HT (mk b)).
    destruct (pdata pw (mk b)); try discriminate Hst. injection Hst as -> ->.
    apply wf_u16 in HT. unfold calculate_price_lp_tokens_to_redeem in Hr.
    destruct (ceil_fee_after f BPS_DENOMINATOR y) as [z|] eqn:Hz; [|discriminate Hr]. injection Hr as <-.
    unfold ceil_fee_after, ceil_fee_charged, BPS_DENOMINATOR in Hz.
    destruct (Z.ltb_spec 10000 f); [discriminate|].
    destruct (Z.eqb_spec f 0); cbn [orb Z.eqb bind] in Hz.
    { injection Hz as <-. unfold U64. lia. }
    injection Hz as <-. unfold U64. unfold ceil_div.
    assert (0 <= (y * f + 10000 - 1) / 10000) by (apply Z.div_pos; nia).
    assert ((y * f + 10000 - 1) / 10000 < y + 1); [|lia].
    apply Z.div_lt_upper_bound; [lia|]. nia.
Qed.
End Answers.

(* ------------------------------------------------------------------ *)
(** * A call over bytes is the call *)

Lemma calc_cfg_id dp prog cfg : calc_cfg dp prog = Some cfg -> cc_id cfg = prog.
Proof.
  unfold calc_cfg. intros H.
  repeat match type of H with
  | (if ?x =? ?n then _ else _) = Some _ => destruct (Z.eqb_spec x n); [injection H as <-; auto|]
  end. discriminate.
Qed.

Section Calls.
Variables (R : RatioLib) (dp : Deploy) (pw : PWorld).
Hypotheses (HR : ratio_lib_ok R) (HT : accounts_typed pw).

Lemma calc_call_answer other prog mint accs ix data : calc_ix_wfb ix = true ->
  (exists x, ix = LstToSol x \/ ix = SolToLst x) ->
  dec_calc_ix data = Some ix -> dec_wsol_ix data = Some ix ->
  calc_call R dp pw other prog mint accs data = calc_answer R dp pw other prog mint accs ix.
Proof.
  intros Hx Hk Hd Hw. unfold calc_call, calc_answer. destruct (prog =? dp_wsol dp) eqn:E.
  - unfold wsol_entry. rewrite E, Hw. cbn [guard of_option bind wsol_process cpi_ro mk].
    destruct (mint =? WSOL_MINT); [|reflexivity]. cbn [guard].
    destruct Hk as (x & [->| ->]); cbn [calc_ix_wfb] in Hx; apply wf_u64 in Hx;
      unfold wsol_lst_to_sol, wsol_sol_to_lst; cbn [bind]; apply range_round; auto.
  - destruct (calc_cfg dp prog) as [cfg|] eqn:HC; [|reflexivity].
    apply calc_cfg_id in HC. unfold calc_entry. rewrite HC, Z.eqb_refl, Hd. cbn [guard of_option bind].
    destruct (calc_process R cfg pw (cpi_ro mint :: accs) ix) as [(pw' & r)|e] eqn:HP; [|reflexivity].
    cbn [bind]. assert (exists v, r = Some v) as (v & ->).
    { destruct Hk as (x & [->| ->]); cbn [calc_process] in HP; apply bind_ok in HP as (c & _ & HP);
        apply bind_ok in HP as (v & _ & HP); injection HP as _ <-; eauto. }
    apply calc_answer_u64 in HP; auto; [|apply HT]. cbn [of_option]. apply range_round; tauto.
Qed.

Lemma price_call_answer other prog accs ix data : flat_ix_wfb ix = true ->
  (exists x y, ix = PriceExactIn x y \/ ix = PriceExactOut x y \/ ix = PriceLpTokensToMint x y \/
               ix = PriceLpTokensToRedeem x y) ->
  dec_flat_ix data = Some ix -> dec_pricing_ix data = Some ix ->
  price_call R dp pw other prog accs data = price_answer R dp pw other prog accs ix.
Proof.
  intros Hx Hk Hd Hw. unfold price_call, price_answer. destruct (prog =? ff_id (dp_flat dp)) eqn:E.
  - unfold flat_entry. rewrite E, Hd. cbn [guard of_option bind].
    destruct (flat_process R (dp_flat dp) pw accs ix) as [(pw' & r)|e] eqn:HP; [|reflexivity].
    cbn [bind]. assert (exists v, r = Some v) as (v & ->).
    { destruct Hk as (x & y & [->|[->|[->| ->]]]); cbn [flat_process] in HP; apply bind_ok in HP as (c & _ & HP);
        injection HP as _ <-; eauto. }
    apply flat_answer_u64 in HP; auto. cbn [of_option]. apply price_round; tauto.
  - destruct (prog =? dp_nofee dp); [|reflexivity]. unfold nofee_entry. rewrite Hw. cbn [of_option bind].
    destruct Hk as (x & y & [->|[->|[->| ->]]]); cbn [flat_ix_wfb] in Hx; apply andb_true_iff in Hx as (_ & Hx);
      apply wf_u64 in Hx; cbn [nofee_process bind]; apply price_round; auto.
Qed.
End Calls.

(** The controller's requests as the programs read them. *)
Lemma read_lst_to_sol x : u64b x = true ->
  dec_calc_ix (lst_to_sol_ix_data x) = Some (LstToSol x) /\ dec_wsol_ix (lst_to_sol_ix_data x) = Some (LstToSol x).
Proof.
  intros H. unfold dec_calc_ix, dec_wsol_ix, lst_to_sol_ix_data. wrd. cbn [Z.eqb Pos.eqb].
  rewrite <- (app_nil_r (le_bytes 8 x)). wrd. auto.
Qed.
Lemma read_sol_to_lst x : u64b x = true ->
  dec_calc_ix (sol_to_lst_ix_data x) = Some (SolToLst x) /\ dec_wsol_ix (sol_to_lst_ix_data x) = Some (SolToLst x).
Proof.
  intros H. unfold dec_calc_ix, dec_wsol_ix, sol_to_lst_ix_data. wrd. cbn [Z.eqb Pos.eqb].
  rewrite <- (app_nil_r (le_bytes 8 x)). wrd. auto.
Qed.
Lemma read_price x y : u64b x = true -> u64b y = true ->
  (dec_flat_ix (price_exact_in_ix_data x y) = Some (PriceExactIn x y) /\
   dec_pricing_ix (price_exact_in_ix_data x y) = Some (PriceExactIn x y)) /\
  (dec_flat_ix (price_exact_out_ix_data x y) = Some (PriceExactOut x y) /\
   dec_pricing_ix (price_exact_out_ix_data x y) = Some (PriceExactOut x y)) /\
  (dec_flat_ix (price_lp_tokens_to_mint_ix_data x y) = Some (PriceLpTokensToMint x y) /\
   dec_pricing_ix (price_lp_tokens_to_mint_ix_data x y) = Some (PriceLpTokensToMint x y)) /\
  (dec_flat_ix (price_lp_tokens_to_redeem_ix_data x y) = Some (PriceLpTokensToRedeem x y) /\
   dec_pricing_ix (price_lp_tokens_to_redeem_ix_data x y) = Some (PriceLpTokensToRedeem x y)).
Proof.
  intros Hx Hy. unfold dec_flat_ix, dec_pricing_ix, price_exact_in_ix_data, price_exact_out_ix_data,
    price_lp_tokens_to_mint_ix_data, price_lp_tokens_to_redeem_ix_data.
  wrd. cbn [Z.eqb Pos.eqb]. unfold dec_price. rewrite <- (app_nil_r (le_bytes 8 y)). wrd. auto 10.
Qed.

(* ------------------------------------------------------------------ *)
(** * Two environments that agree on u64 requests *)

Record env_agree (E E' : Env) : Prop := {
  ag_l2s : forall w p m accs x, U64 x -> e_lst_to_sol E w p m accs x = e_lst_to_sol E' w p m accs x;
  ag_s2l : forall w p m accs x, U64 x -> e_sol_to_lst E w p m accs x = e_sol_to_lst E' w p m accs x;
  ag_in : forall w p i o accs x y, U64 x -> U64 y ->
    e_price_exact_in E w p i o accs x y = e_price_exact_in E' w p i o accs x y;
  ag_out : forall w p i o accs x y, U64 x -> U64 y ->
    e_price_exact_out E w p i o accs x y = e_price_exact_out E' w p i o accs x y;
  ag_mint : forall w p m accs x y, U64 x -> U64 y ->
    e_price_lp_to_mint E w p m accs x y = e_price_lp_to_mint E' w p m accs x y;
  ag_redeem : forall w p m accs x y, U64 x -> U64 y ->
    e_price_lp_to_redeem E w p m accs x y = e_price_lp_to_redeem E' w p m accs x y }.

Lemma wire_agree R dp pw other : ratio_lib_ok R -> accounts_typed pw ->
  env_agree (wire_env R dp pw other) (deployed_env R dp pw other).
Proof.
  intros HR HT. split; cbn [wire_env deployed_env e_lst_to_sol e_sol_to_lst e_price_exact_in e_price_exact_out
    e_price_lp_to_mint e_price_lp_to_redeem]; intros.
  - apply calc_call_answer; auto; [now apply u64b_t|eauto| |]; apply read_lst_to_sol; now apply u64b_t.
  - apply calc_call_answer; auto; [now apply u64b_t|eauto| |]; apply read_sol_to_lst; now apply u64b_t.
  - apply price_call_answer; auto; [apply andb_true_iff; split; now apply u64b_t|exists x, y; auto 6| |];
      apply (read_price x y); now apply u64b_t.
  - apply price_call_answer; auto; [apply andb_true_iff; split; now apply u64b_t|exists x, y; auto 6| |];
      apply (read_price x y); now apply u64b_t.
  - apply price_call_answer; auto; [apply andb_true_iff; split; now apply u64b_t|exists x, y; auto 6| |];
      apply (read_price x y); now apply u64b_t.
  - apply price_call_answer; auto; [apply andb_true_iff; split; now apply u64b_t|exists x, y; auto 6| |];
      apply (read_price x y); now apply u64b_t.
Qed.

Lemma bind_ext {A B} (m m' : res A) (f f' : A -> res B) :
  m = m' -> (forall a, m' = Ok a -> f a = f' a) -> bind m f = bind m' f'.
Proof. intros <- H. destruct m; cbn; auto. Qed.
Lemma guard_ext {A} b e (r r' : res A) : (b = true -> r = r') -> guard b e r = guard b e r'.
Proof. destruct b; cbn; auto. Qed.

Section Agree.
Variables (D : Derive) (E E' : Env).
Hypothesis HE : env_agree E E'.

Lemma inv_l2s w c m x : U64 x -> invoke_lst_to_sol E w c m x = invoke_lst_to_sol E' w c m x.
Proof. intros. unfold invoke_lst_to_sol. rewrite (ag_l2s _ _ HE); auto. Qed.
Lemma inv_s2l w c m x : U64 x -> invoke_sol_to_lst E w c m x = invoke_sol_to_lst E' w c m x.
Proof. intros. unfold invoke_sol_to_lst. rewrite (ag_s2l _ _ HE); auto. Qed.

Lemma balance_typed w k v : tokens_u64 w -> token_account_balance w k = Ok v -> U64 v.
Proof.
  intros (H & _) Hb. unfold token_account_balance in Hb. apply bind_ok in Hb as (t & Ht & Hb).
  apply of_option_ok in Ht. injection Hb as <-. eauto.
Qed.

Lemma sync_agree w P L r c m i : tokens_u64 w ->
  sync_sol_value_unchecked E w P L r c m i = sync_sol_value_unchecked E' w P L r c m i.
Proof.
  intros HT. unfold sync_sol_value_unchecked. apply bind_ext; [reflexivity|]. intros b Hb.
  rewrite inv_l2s; [reflexivity|]. eapply balance_typed; eauto.
Qed.

Ltac same := apply bind_ext; [reflexivity|].
Ltac gd := apply guard_ext; intros _.

Lemma pool_field_ok {A} w k (f : PoolState -> A) x : pool_field w k f = Ok x ->
  exists ps, w_pool w k = Some ps /\ x = f ps.
Proof.
  unfold pool_field, try_pool_state. intros H. apply bind_ok in H as (ps & Hp & H).
  apply of_option_ok in Hp. injection H as <-. eauto.
Qed.


Lemma sync_tokens e w P L r c m i w' :
  sync_sol_value_unchecked e w P L r c m i = Ok w' -> tokens_u64 w -> tokens_u64 w'.
Proof.
  intros H. apply sync_inv in H. destruct H as (t & ps & l0 & ls & lo & hi & H). decompose [and] H. subst w'. auto.
Qed.

Lemma sync_proc_agree w accs i : tokens_u64 w ->
  process_sync_sol_value D E w accs i = process_sync_sol_value D E' w accs i.
Proof.
  intros HT. unfold process_sync_sol_value.
  repeat match goal with |- (match ?x with _ => _ end) = _ => destruct x; try reflexivity end.
  same; intros ex _. unfold verify_keys_privs. gd. gd. same; intros ps _. same; intros _ _. same; intros c _.
  now apply sync_agree.
Qed.

Lemma set_calculator_agree w accs i : tokens_u64 w ->
  process_set_sol_value_calculator D E w accs i = process_set_sol_value_calculator D E' w accs i.
Proof.
  intros HT. unfold process_set_sol_value_calculator.
  repeat match goal with |- (match ?x with _ => _ end) = _ => destruct x; try reflexivity end.
  same; intros ex _. unfold verify_keys_privs. gd. gd. same; intros ps _. same; intros _ _. same; intros c _.
  same; intros _ _. same; intros l _. same; intros ls _. now apply sync_agree.
Qed.

Lemma end_agree w accs : tokens_u64 w -> process_end_rebalance D E w accs = process_end_rebalance D E' w accs.
Proof.
  intros HT. unfold process_end_rebalance.
  repeat match goal with |- (match ?x with _ => _ end) = _ => destruct x; try reflexivity end.
  same; intros (ex & di) _. unfold verify_keys_privs. gd. gd. same; intros ps _. gd. same; intros c _.
  same; intros r _. apply bind_ext; [now apply sync_agree|]. reflexivity.
Qed.


Lemma start_agree C w accs a : tokens_u64 w -> u64b (sr_amount a) = true ->
  process_start_rebalance D E C w accs a = process_start_rebalance D E' C w accs a.
Proof.
  intros HT Ha. apply wf_u64 in Ha. unfold process_start_rebalance.
  do 12 (destruct accs as [|? accs]; [reflexivity|]).
  same; intros ex _. unfold verify_keys_privs. gd. gd.
  same; intros sb _. gd. same; intros db _. gd. same; intros ps _. same; intros ? _. same; intros l0 _.
  same; intros dst _. same; intros ? _. same; intros (cs & cd) _. same; intros ? _.
  apply bind_ext; [now apply sync_agree|]. intros w1 S1. assert (T1 : tokens_u64 w1) by eauto using sync_tokens.
  apply bind_ext; [now apply sync_agree|]. intros w2 S2. assert (T2 : tokens_u64 w2) by eauto using sync_tokens.
  same; intros ot _. same; intros w3 S3.
  assert (T3 : tokens_u64 w3) by (eapply transfer_u64; [|exact S3|exact T2]; apply Ha).
  apply bind_ext; [now apply sync_agree|]. reflexivity.
Qed.

Lemma settle_agree w A cs cd i j st si so tp : tokens_u64 w -> 0 <= si -> 0 <= so -> 0 <= tp ->
  swap_settle E w A cs cd i j st si so tp = swap_settle E' w A cs cd i j st si so tp.
Proof.
  intros HT Hi Ho Hp. unfold swap_settle. same; intros to _. same; intros db _. gd.
  same; intros w1 T1. same; intros w2 T2. same; intros w3 T3.
  assert (tokens_u64 w3) by (eapply transfer_u64; [exact Ho|exact T3|]; eapply transfer_u64; [exact Hp|exact T2|];
    eapply transfer_u64; [exact Hi|exact T1|]; exact HT).
  unfold sync_src, sync_dst.
  apply bind_ext; [now apply sync_agree|]. intros w4 S4. assert (tokens_u64 w4) by eauto using sync_tokens.
  apply bind_ext; [now apply sync_agree|]. reflexivity.
Qed.

Lemma swap_in_agree w accs a : base_inv w -> ix_wfb (SwapExactIn a) = true ->
  process_swap_exact_in D E w accs a = process_swap_exact_in D E' w accs a.
Proof.
  intros HB Hwf. wf Hwf. unfold process_swap_exact_in. gd.
  apply bind_ext; [reflexivity|]. intros (A & ((cs & cd) & cp)) HV.
  apply verify_swap_inv in HV; [|lia|lia]. destruct HV as (ps & l & lsrc & ldst & HF).
  destruct HF as (_ & _ & _ & _ & _ & HP & HL & _). unfold sync_src, sync_dst. rewrite HP, HL.
  apply bind_ext; [apply sync_agree; now apply base_u64|]. intros w1 S1.
  assert (B1 : base_inv w1) by eauto using sync_base.
  apply bind_ext; [apply sync_agree; now apply base_u64|]. intros w2 S2.
  assert (B2 : base_inv w2) by eauto using sync_base.
  same; intros st _.
  apply bind_ext; [apply inv_l2s; assumption|]. intros (is & ih) I1. gd.
  apply invoke_lst_to_sol_ok in I1 as (_ & U1 & _).
  apply bind_ext; [unfold invoke_price_exact_in; now rewrite (ag_in _ _ HE)|]. intros os I2.
  apply invoke_price_exact_in_ok in I2 as (_ & U2).
  apply bind_ext; [now apply inv_s2l|]. intros (dl & dh) I3. gd. gd.
  apply invoke_sol_to_lst_ok in I3 as (_ & U3 & _).
  same; intros bps Hb. same; intros tp Htp.
  apply pool_field_ok in Hb as (ps2 & Hp2 & ->).
  pose proof (base_pool _ _ B2 Hp2) as (_ & Hf & _). unfold U64 in *.
  apply calc_swap_fees_ok in Htp; try lia.
  apply settle_agree; [now apply base_u64|lia..].
Qed.

Lemma swap_out_agree w accs a : base_inv w -> ix_wfb (SwapExactOut a) = true ->
  process_swap_exact_out D E w accs a = process_swap_exact_out D E' w accs a.
Proof.
  intros HB Hwf. wf Hwf. unfold process_swap_exact_out. gd.
  apply bind_ext; [reflexivity|]. intros (A & ((cs & cd) & cp)) HV.
  apply verify_swap_inv in HV; [|lia|lia]. destruct HV as (ps & l & lsrc & ldst & HF).
  destruct HF as (_ & _ & _ & _ & _ & HP & HL & _). unfold sync_src, sync_dst. rewrite HP, HL.
  apply bind_ext; [apply sync_agree; now apply base_u64|]. intros w1 S1.
  assert (B1 : base_inv w1) by eauto using sync_base.
  apply bind_ext; [apply sync_agree; now apply base_u64|]. intros w2 S2.
  assert (B2 : base_inv w2) by eauto using sync_base.
  same; intros st _.
  apply bind_ext; [apply inv_l2s; assumption|]. intros (il & os) I1. gd.
  apply invoke_lst_to_sol_ok in I1 as (_ & _ & U1).
  apply bind_ext; [unfold invoke_price_exact_out; now rewrite (ag_out _ _ HE)|]. intros is I2.
  apply invoke_price_exact_out_ok in I2 as (_ & U2).
  apply bind_ext; [now apply inv_s2l|]. intros (dl & dh) I3. gd. gd.
  apply invoke_sol_to_lst_ok in I3 as (_ & _ & U3).
  same; intros bps Hb. same; intros tp Htp.
  apply pool_field_ok in Hb as (ps2 & Hp2 & ->).
  pose proof (base_pool _ _ B2 Hp2) as (_ & Hf & _). unfold U64 in *.
  apply calc_swap_fees_ok in Htp; try lia.
  apply settle_agree; [now apply base_u64|lia..].
Qed.

Lemma supply_typed w k v : tokens_u64 w -> mint_supply w k = Ok v -> U64 v.
Proof.
  intros (_ & H) Hb. unfold mint_supply in Hb. apply bind_ok in Hb as (t & Ht & Hb).
  apply of_option_ok in Ht. injection Hb as <-. eauto.
Qed.

Lemma add_liq_agree w accs a : base_inv w -> ix_wfb (AddLiquidity a) = true ->
  process_add_liquidity D E w accs a = process_add_liquidity D E' w accs a.
Proof.
  intros HB Hwf. wf Hwf. unfold process_add_liquidity. gd.
  apply bind_ext; [reflexivity|]. intros (A & (c & cp)) HV.
  apply verify_liquidity_inv in HV. destruct HV as (ps & l & ls & HF).
  destruct HF as (_ & _ & _ & _ & HP & HL & _). unfold sync_liq. rewrite HP, HL.
  apply bind_ext; [apply sync_agree; now apply base_u64|]. intros w1 S1.
  assert (B1 : base_inv w1) by eauto using sync_base.
  same; intros st _.
  apply bind_ext; [apply inv_l2s; assumption|]. intros (is & ih) I1.
  apply invoke_lst_to_sol_ok in I1 as (_ & U1 & _).
  apply bind_ext; [unfold invoke_price_lp_to_mint; now rewrite (ag_mint _ _ HE)|]. intros af I2.
  apply invoke_price_lp_to_mint_ok in I2 as (_ & U2).
  apply guard_ext; intros Haf. apply Z.leb_le in Haf.
  same; intros bps Hb. apply pool_field_ok in Hb as (ps2 & Hp2 & ->).
  pose proof (base_pool _ _ B1 Hp2) as (Ht & _ & Hf & _).
  same; intros (tr & tp) Hc. apply calc_add_fees_ok in Hc; unfold U64 in *; try lia.
  same; intros pt Hpt. apply pool_field_ok in Hpt as (ps3 & Hp3 & ->). rewrite Hp2 in Hp3. injection Hp3 as <-.
  same; intros su Hsu. apply supply_typed in Hsu; [|now apply base_u64].
  same; intros lp Hlp. apply lp_to_mint_nonneg in Hlp; unfold U64 in *; try lia.
  gd. gd. same; intros w2 T2. same; intros w3 T3. same; intros w4 T4.
  assert (base_inv w4) by (eapply mint_to_base; [exact Hlp|exact T4|]; eapply transfer_base; [|exact T3|]; [lia|];
    eapply transfer_base; [|exact T2|exact B1]; lia).
  apply bind_ext; [apply sync_agree; now apply base_u64|]. reflexivity.
Qed.

Lemma remove_liq_agree w accs a : base_inv w -> ix_wfb (RemoveLiquidity a) = true ->
  process_remove_liquidity D E w accs a = process_remove_liquidity D E' w accs a.
Proof.
  intros HB Hwf. wf Hwf. unfold process_remove_liquidity. gd.
  apply bind_ext; [reflexivity|]. intros (A & (c & cp)) HV.
  apply verify_liquidity_inv in HV. destruct HV as (ps & l & ls & HF).
  destruct HF as (_ & _ & _ & _ & HP & HL & _). unfold sync_liq. rewrite HP, HL.
  apply bind_ext; [apply sync_agree; now apply base_u64|]. intros w1 S1.
  assert (B1 : base_inv w1) by eauto using sync_base.
  same; intros pt Hpt. apply pool_field_ok in Hpt as (ps3 & Hp3 & ->).
  pose proof (base_pool _ _ B1 Hp3) as (Ht & _ & Hf & _).
  same; intros su Hsu. apply supply_typed in Hsu; [|now apply base_u64].
  same; intros ls0 Hls. apply lp_sol_value_le in Hls; unfold U64 in *; try lia.
  apply bind_ext; [unfold invoke_price_lp_to_redeem; rewrite (ag_redeem _ _ HE); auto; unfold U64; lia|].
  intros af I2. apply invoke_price_lp_to_redeem_ok in I2 as (_ & U2).
  apply guard_ext; intros Haf. apply Z.leb_le in Haf.
  apply bind_ext; [now apply inv_s2l|]. intros (tu & th) I3.
  apply invoke_sol_to_lst_ok in I3 as (_ & U3 & _).
  same; intros bps Hb. apply pool_field_ok in Hb as (ps2 & Hp2 & ->). rewrite Hp2 in Hp3. injection Hp3 as <-.
  same; intros tp Htp. unfold U64 in *. apply calc_remove_fees_ok in Htp; try lia.
  gd. gd. same; intros w2 T2. same; intros w3 T3. same; intros w4 T4.
  assert (base_inv w4) by (eapply transfer_base; [|exact T4|]; [lia|]; eapply transfer_base; [|exact T3|]; [lia|];
    eapply burn_base; [|exact T2|exact B1]; lia).
  apply sync_agree; now apply base_u64.
Qed.

(** Every instruction of the controller does the same in the two environments. *)
Lemma process_agree C w accs ix : base_inv w -> process D E C w accs ix = process D E' C w accs ix.
Proof.
  intros HB. pose proof (base_u64 _ HB) as HT. unfold process. apply guard_ext; intros Hwf.
  destruct ix; lazymatch goal with
  | |- process_sync_sol_value _ _ _ _ _ = _ => now apply sync_proc_agree
  | |- process_swap_exact_in _ _ _ _ _ = _ => now apply swap_in_agree
  | |- process_swap_exact_out _ _ _ _ _ = _ => now apply swap_out_agree
  | |- process_add_liquidity _ _ _ _ _ = _ => now apply add_liq_agree
  | |- process_remove_liquidity _ _ _ _ _ = _ => now apply remove_liq_agree
  | |- process_set_sol_value_calculator _ _ _ _ _ = _ => now apply set_calculator_agree
  | |- process_start_rebalance _ _ _ _ _ _ = _ => apply start_agree; auto; cbn [ix_wfb] in Hwf;
      repeat (apply andb_true_iff in Hwf as (Hwf & ?)); auto
  | |- process_end_rebalance _ _ _ _ = _ => now apply end_agree
  | |- _ => reflexivity
  end.
Qed.
End Agree.
