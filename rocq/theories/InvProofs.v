(** Invariants of reachable worlds. *)
From Coq Require Import ZArith List Bool Lia.
From Verif Require Import Base Ratio Calc State Controller Inversion ProcInv Spec CalcProofs.
Import ListNotations.
Open Scope Z_scope.

Ltac csplit := repeat match goal with |- _ /\ _ => split end.

Definition lst_ok (ls : LstState) : Prop :=
  U64 (sol_value ls) /\ (is_input_disabled ls = 0 \/ is_input_disabled ls = 1) /\
  0 <= pool_reserves_bump ls <= U8_MAX /\ 0 <= protocol_fee_accumulator_bump ls <= U8_MAX.
Definition pool_ok (ps : PoolState) : Prop :=
  U64 (total_sol_value ps) /\ 0 <= trading_protocol_fee_bps ps <= 10000 /\
  0 <= lp_protocol_fee_bps ps <= 10000 /\
  (is_disabled ps = 0 \/ is_disabled ps = 1) /\ (is_rebalancing ps = 0 \/ is_rebalancing ps = 1) /\
  version ps = 1.

Definition base_inv (w : World) : Prop :=
  exists l au,
    the_list w = Some l /\ the_authorities w = Some au /\
    NoDup (map ls_mint l) /\ NoDup au /\ Forall lst_ok l /\ tokens_u64 w /\
    match the_pool w with
    | None => l = []
    | Some ps => pool_ok ps /\ total_sol_value ps = sumZ (map sol_value l)
    end.

Definition flag_inv (w : World) : Prop :=
  match the_pool w with
  | None => the_record w = None
  | Some ps =>
      (is_rebalancing ps = 0 /\ the_record w = None) \/
      (is_rebalancing ps = 1 /\ is_disabled ps = 0 /\
       exists r l, the_record w = Some r /\ the_list w = Some l /\
         U64 (old_total_sol_value r) /\ 0 <= dst_lst_index r <= U32_MAX /\
         nth_lst l (dst_lst_index r) <> None)
  end.
Definition inv (w : World) : Prop := base_inv w /\ flag_inv w.

(* ------------------------------------------------------------------ *)
(** Changing only recorded values *)
Definition strip (ls : LstState) : LstState := set_sol_value ls 0.

Definition vals_only (w w' : World) : Prop :=
  the_authorities w' = the_authorities w /\ the_record w' = the_record w /\
  (the_pool w' = the_pool w \/
   exists ps v, the_pool w = Some ps /\ the_pool w' = Some (set_total ps v)) /\
  (the_list w' = the_list w \/
   exists l l', the_list w = Some l /\ the_list w' = Some l' /\ map strip l' = map strip l).

Lemma vals_refl w : vals_only w w.
Proof. repeat split; auto. Qed.

Lemma vals_trans w1 w2 w3 : vals_only w1 w2 -> vals_only w2 w3 -> vals_only w1 w3.
Proof.
  intros (A1 & B1 & C1 & D1) (A2 & B2 & C2 & D2). repeat split; try congruence.
  - destruct C1 as [C1|(ps & v & C1 & C1')], C2 as [C2|(ps' & v' & C2 & C2')].
    + left; congruence.
    + right. exists ps', v'. split; congruence.
    + right. exists ps, v. split; congruence.
    + right. exists ps, v'. split; auto. rewrite C1' in C2. injection C2 as <-. exact C2'.
  - destruct D1 as [D1|(l & l' & D1 & D1' & E1)], D2 as [D2|(m & m' & D2 & D2' & E2)].
    + left; congruence.
    + right. exists m, m'. repeat split; congruence.
    + right. exists l, l'. repeat split; congruence.
    + right. exists l, m'. repeat split; auto. rewrite D1' in D2. injection D2 as <-. congruence.
Qed.

Lemma ctl_vals w w' : ctl_eq w w' -> vals_only w w'.
Proof.
  intros (A & B & C & Dd & _).
  repeat split; unfold the_pool, the_list, the_authorities, the_record;
    rewrite ?A, ?B, ?C, ?Dd; auto.
Qed.

Lemma vals_pool w w' ps : vals_only w w' -> the_pool w = Some ps ->
  exists v, the_pool w' = Some (set_total ps v).
Proof.
  intros (_ & _ & [C|(p & v & C & C')] & _) H.
  - exists (total_sol_value ps). rewrite C, H. now destruct ps.
  - exists v. congruence.
Qed.
Lemma vals_list w w' l : vals_only w w' -> the_list w = Some l ->
  exists l', the_list w' = Some l' /\ map strip l' = map strip l.
Proof.
  intros (_ & _ & _ & [C|(l0 & l' & C & C' & Ee)]) H.
  - exists l. split; congruence.
  - exists l'. split; congruence.
Qed.

Lemma strip_length l l' : map strip l' = map strip l -> length l' = length l.
Proof. intros H. apply (f_equal (@length _)) in H. now rewrite !map_length in H. Qed.

Lemma strip_nth l l' i ls : map strip l' = map strip l -> nth_error l i = Some ls ->
  exists ls', nth_error l' i = Some ls' /\ strip ls' = strip ls.
Proof.
  intros H Hi. apply (map_nth_error strip) in Hi. rewrite <- H in Hi.
  rewrite nth_error_map in Hi. destruct (nth_error l' i) as [ls'|] eqn:E; cbn [option_map] in Hi; [|discriminate].
  exists ls'. split; auto. congruence.
Qed.

Lemma strip_mint ls ls' : strip ls' = strip ls -> ls_mint ls' = ls_mint ls.
Proof. intros [=]. assumption. Qed.
Lemma strip_mints l l' : map strip l' = map strip l -> map ls_mint l' = map ls_mint l.
Proof.
  intros H. assert (E : forall x, map ls_mint x = map ls_mint (map strip x)).
  { intros x. rewrite map_map. reflexivity. }
  rewrite (E l'), (E l), H. reflexivity.
Qed.
Lemma strip_set_sol ls v : strip (set_sol_value ls v) = strip ls.
Proof. now destruct ls. Qed.

(* ------------------------------------------------------------------ *)
(** Sync with the canonical accounts *)
Lemma sync_revalued E w R c m i w' :
  sync_sol_value_unchecked E w POOL_STATE_ID LST_STATE_LIST_ID R c m i = Ok w' ->
  revalued E w i R (mk (cpi_prog c)) m (cpi_accs c) w'.
Proof.
  intros H. apply sync_inv in H.
  destruct H as (t & ps & l & ls & lo & hi & Ht & He & _ & _ & Hp & Hl & Hn & _ & _ & ->).
  exists lo, hi, ps, l, ls. unfold balance, the_pool, the_list, the_authorities, the_record. rewrite Ht.
  cbn. repeat split; auto; try congruence; now rewrite upd_same.
Qed.

Lemma revalued_vals E w i R c m accs w' : revalued E w i R c m accs w' -> vals_only w w'.
Proof.
  intros (v & hi & ps & l & ls & _ & _ & Hp & Hl & Hn & Hp' & Hl' & Ha & Hr & _).
  repeat split; auto.
  - right. eauto.
  - right. exists l, (replace_nth l (Z.to_nat i) (set_sol_value ls v)). repeat split; auto.
    rewrite map_replace_nth, strip_set_sol. apply replace_nth_self. now apply map_nth_error.
Qed.

Lemma revalued_tokens E w i R c m accs w' : revalued E w i R c m accs w' -> same_tokens w w'.
Proof. intros (v & hi & ps & l & ls & H). decompose [and] H. split; auto. Qed.

Lemma sync_base E w R c m i w' :
  sync_sol_value_unchecked E w POOL_STATE_ID LST_STATE_LIST_ID R c m i = Ok w' ->
  base_inv w -> base_inv w'.
Proof.
  intros H (l & au & Hl & Ha & Hnd & Hna & Hf & Ht & Hp). apply sync_inv in H.
  destruct H as (t & ps & l0 & ls & lo & hi & _ & _ & Hlo & _ & Hps & Hl0 & Hn & Hle & Hmax & ->).
  unfold the_pool, the_list in Hp, Hl. rewrite Hl0 in Hl. injection Hl as ->.
  rewrite Hps in Hp. destruct Hp as (Hok & Hsum).
  exists (replace_nth l (Z.to_nat i) (set_sol_value ls lo)), au.
  unfold the_pool, the_list, the_authorities in *. cbn. rewrite !upd_same.
  unfold nth_lst in Hn.
  csplit; auto.
  - rewrite map_replace_nth. rewrite replace_nth_self; auto.
    apply map_nth_error with (f := ls_mint) in Hn. exact Hn.
  - apply Forall_replace_nth; auto.
    rewrite Forall_forall in Hf. specialize (Hf ls (nth_error_In _ _ Hn)).
    unfold lst_ok, U64 in *. cbn. tauto.
  - unfold pool_ok, U64 in *. cbn. destruct Hlo. csplit; try lia; tauto.
  - cbn. rewrite map_replace_nth.
    apply map_nth_error with (f := sol_value) in Hn. rewrite (sumZ_replace _ _ _ _ Hn). cbn. lia.
Qed.

Lemma ctl_base w w' : ctl_eq w w' -> tokens_u64 w' -> base_inv w -> base_inv w'.
Proof.
  intros (A & B & C & Dd & _) Ht (l & au & Hl & Ha & Hnd & Hna & Hf & _ & Hp).
  exists l, au. unfold the_pool, the_list, the_authorities in *. rewrite A, B, C. auto 10.
Qed.

Lemma base_u64 w : base_inv w -> tokens_u64 w.
Proof. intros (l & au & H). tauto. Qed.

Lemma put_tok_u64 w k t : tokens_u64 w -> U64 (ta_amount t) -> tokens_u64 (put_tok w k (Some t)).
Proof.
  intros (A & B) Ht. split; cbn; auto. intros k' t'. unfold upd.
  destruct (k' =? k); [intros [= <-]; auto | eauto].
Qed.
Lemma put_mint_u64 w k t : tokens_u64 w -> U64 (m_supply t) -> tokens_u64 (put_mint w k (Some t)).
Proof.
  intros (A & B) Ht. split; cbn; auto. intros k' t'. unfold upd.
  destruct (k' =? k); [intros [= <-]; auto | eauto].
Qed.

Lemma transfer_u64 w prog from to mint auth s amt w' :
  0 <= amt -> transfer_checked w prog from to mint auth s amt = Ok w' ->
  tokens_u64 w -> tokens_u64 w'.
Proof.
  intros Ha H Hu. apply transfer_inv in H.
  destruct H as (f & t & m & _ & Hf & Ht & _ & _ & _ & _ & _ & _ & _ & _ & Hle & [(_ & ->)|(_ & Hm & ->)]); auto.
  pose proof (proj1 Hu _ _ Hf) as [? ?]. pose proof (proj1 Hu _ _ Ht) as [? ?].
  apply put_tok_u64; [apply put_tok_u64; auto|]; cbn; split; lia.
Qed.
Lemma mint_to_u64 w prog mint to auth s amt w' :
  0 <= amt -> mint_to w prog mint to auth s amt = Ok w' -> tokens_u64 w -> tokens_u64 w'.
Proof.
  intros Ha H Hu. apply mint_to_inv in H.
  destruct H as (t & m & _ & Ht & Hm & _ & _ & _ & _ & _ & H1 & H2 & ->).
  pose proof (proj1 Hu _ _ Ht) as [? ?]. pose proof (proj2 Hu _ _ Hm) as [? ?].
  apply put_mint_u64; [apply put_tok_u64; auto|]; cbn; split; lia.
Qed.
Lemma burn_u64 w prog mint from auth s amt w' :
  0 <= amt -> burn w prog mint from auth s amt = Ok w' -> tokens_u64 w -> tokens_u64 w'.
Proof.
  intros Ha H Hu. apply burn_inv in H.
  destruct H as (t & m & _ & Ht & Hm & _ & _ & _ & _ & _ & H1 & H2 & ->).
  pose proof (proj1 Hu _ _ Ht) as [? ?]. pose proof (proj2 Hu _ _ Hm) as [? ?].
  apply put_mint_u64; [apply put_tok_u64; auto|]; cbn; split; lia.
Qed.
Lemma close_u64 w prog acc auth s w' :
  close_token_account w prog acc auth s = Ok w' -> tokens_u64 w -> tokens_u64 w'.
Proof.
  intros H (A & B). apply close_inv in H. destruct H as (t & _ & _ & _ & _ & _ & _ & ->).
  split; cbn; auto. intros k t'. unfold upd. destruct (k =? acc); [discriminate|eauto].
Qed.
Lemma create_ata_u64 w ata wallet mint prog w' :
  create_ata_if_not_exist w ata wallet mint prog = Ok w' -> tokens_u64 w -> tokens_u64 w'.
Proof.
  intros H Hu. apply create_ata_if_inv in H. destruct H as [(t & _ & _ & ->)|(_ & _ & _ & ->)]; auto.
  destruct Hu as (A & B). split; cbn; auto. intros k t'. unfold upd.
  destruct (k =? ata); [intros [= <-]; cbn; split; unfold U64_MAX; lia|eauto].
Qed.

Lemma transfer_base w prog from to mint auth s amt w' :
  0 <= amt -> transfer_checked w prog from to mint auth s amt = Ok w' -> base_inv w -> base_inv w'.
Proof. intros. eapply ctl_base; eauto using transfer_ctl, transfer_u64, base_u64. Qed.
Lemma mint_to_base w prog mint to auth s amt w' :
  0 <= amt -> mint_to w prog mint to auth s amt = Ok w' -> base_inv w -> base_inv w'.
Proof. intros. eapply ctl_base; eauto using mint_to_ctl, mint_to_u64, base_u64. Qed.
Lemma burn_base w prog mint to auth s amt w' :
  0 <= amt -> burn w prog mint to auth s amt = Ok w' -> base_inv w -> base_inv w'.
Proof. intros. eapply ctl_base; eauto using burn_ctl, burn_u64, base_u64. Qed.

(** Flags only depend on what [vals_only] preserves. *)
Lemma vals_flag w w' : vals_only w w' -> flag_inv w -> flag_inv w'.
Proof.
  intros Hv. unfold flag_inv. pose proof Hv as (_ & Hr & Hp & _). rewrite Hr.
  destruct (the_pool w) as [ps|] eqn:Hps.
  - destruct (vals_pool _ _ _ Hv Hps) as (v & ->). cbn.
    intros [?|(? & ? & r & l & ? & Hl & ? & ? & Hn)]; auto. right. repeat split; auto.
    destruct (vals_list _ _ _ Hv Hl) as (l' & Hl' & He). exists r, l'. csplit; try tauto.
    unfold nth_lst in *. intros Hx. apply Hn. apply nth_error_None. apply nth_error_None in Hx.
    now rewrite <- (strip_length _ _ He).
  - destruct Hp as [->|(? & ? & ? & _)]; [auto|congruence].
Qed.

(* ------------------------------------------------------------------ *)
(** Instructions that only change recorded values *)

Lemma invoke_lst_to_sol_ok E w c m x lo hi :
  invoke_lst_to_sol E w c m x = Ok (lo, hi) ->
  e_lst_to_sol E w (mk (cpi_prog c)) m (cpi_accs c) x = Ok (lo, hi) /\ U64 lo /\ U64 hi.
Proof. apply decode_range_ok. Qed.
Lemma invoke_sol_to_lst_ok E w c m x lo hi :
  invoke_sol_to_lst E w c m x = Ok (lo, hi) ->
  e_sol_to_lst E w (mk (cpi_prog c)) m (cpi_accs c) x = Ok (lo, hi) /\ U64 lo /\ U64 hi.
Proof. apply decode_range_ok. Qed.
Lemma invoke_price_exact_in_ok E w c s d a v r :
  invoke_price_exact_in E w c s d a v = Ok r ->
  e_price_exact_in E w (mk (cpi_prog c)) s d (cpi_accs c) a v = Ok r /\ U64 r.
Proof. apply decode_u64_ok. Qed.
Lemma invoke_price_exact_out_ok E w c s d a v r :
  invoke_price_exact_out E w c s d a v = Ok r ->
  e_price_exact_out E w (mk (cpi_prog c)) s d (cpi_accs c) a v = Ok r /\ U64 r.
Proof. apply decode_u64_ok. Qed.
Lemma invoke_price_lp_to_mint_ok E w c m a v r :
  invoke_price_lp_to_mint E w c m a v = Ok r ->
  e_price_lp_to_mint E w (mk (cpi_prog c)) m (cpi_accs c) a v = Ok r /\ U64 r.
Proof. apply decode_u64_ok. Qed.
Lemma invoke_price_lp_to_redeem_ok E w c m a v r :
  invoke_price_lp_to_redeem E w c m a v = Ok r ->
  e_price_lp_to_redeem E w (mk (cpi_prog c)) m (cpi_accs c) a v = Ok r /\ U64 r.
Proof. apply decode_u64_ok. Qed.

Ltac dec_invokes :=
  repeat match goal with
  | H : invoke_lst_to_sol _ _ _ _ _ = Ok _ |- _ => apply invoke_lst_to_sol_ok in H; destruct H as (H & ? & ?)
  | H : invoke_sol_to_lst _ _ _ _ _ = Ok _ |- _ => apply invoke_sol_to_lst_ok in H; destruct H as (H & ? & ?)
  | H : invoke_price_exact_in _ _ _ _ _ _ _ = Ok _ |- _ => apply invoke_price_exact_in_ok in H; destruct H as (H & ?)
  | H : invoke_price_exact_out _ _ _ _ _ _ _ = Ok _ |- _ => apply invoke_price_exact_out_ok in H; destruct H as (H & ?)
  | H : invoke_price_lp_to_mint _ _ _ _ _ _ = Ok _ |- _ => apply invoke_price_lp_to_mint_ok in H; destruct H as (H & ?)
  | H : invoke_price_lp_to_redeem _ _ _ _ _ _ = Ok _ |- _ => apply invoke_price_lp_to_redeem_ok in H; destruct H as (H & ?)
  end.

Lemma sync_vals E w R c m i w' :
  sync_sol_value_unchecked E w POOL_STATE_ID LST_STATE_LIST_ID R c m i = Ok w' -> vals_only w w'.
Proof. intros H. eapply revalued_vals, sync_revalued, H. Qed.

Lemma base_pool w ps : base_inv w -> the_pool w = Some ps -> pool_ok ps.
Proof. intros (l & au & _ & _ & _ & _ & _ & _ & H) Hp. rewrite Hp in H. tauto. Qed.

Lemma wf_u8 x : u8b x = true -> 0 <= x <= U8_MAX.
Proof. unfold u8b. rewrite andb_true_iff, !Z.leb_le. auto. Qed.
Lemma wf_u16 x : u16b x = true -> 0 <= x <= U16_MAX.
Proof. unfold u16b. rewrite andb_true_iff, !Z.leb_le. auto. Qed.
Lemma wf_u32 x : u32b x = true -> 0 <= x <= U32_MAX.
Proof. unfold u32b. rewrite andb_true_iff, !Z.leb_le. auto. Qed.
Lemma wf_u64 x : u64b x = true -> 0 <= x <= U64_MAX.
Proof. unfold u64b. rewrite andb_true_iff, !Z.leb_le. auto. Qed.
Ltac wf H :=
  cbn in H; repeat match goal with
  | H : (_ && _) = true |- _ => apply andb_true_iff in H; destruct H
  | H : u8b _ = true |- _ => apply wf_u8 in H
  | H : u16b _ = true |- _ => apply wf_u16 in H
  | H : u32b _ = true |- _ => apply wf_u32 in H
  | H : u64b _ = true |- _ => apply wf_u64 in H
  end.

Section WithDerive.
Variable D : Derive.

Lemma settle_vals E w w' A cs cd i j st si so tp :
  mk (sa_pool_state A) = POOL_STATE_ID -> mk (sa_lst_state_list A) = LST_STATE_LIST_ID ->
  settle_facts E w w' A cs cd i j st si so tp ->
  vals_only w w' /\ (0 <= si -> 0 <= so -> 0 <= tp -> base_inv w -> base_inv w').
Proof.
  intros HP HL (w1 & w2 & w3 & w4 & ps' & t & _ & _ & _ & T1 & T2 & T3 & S1 & S2 & _).
  unfold sync_src, sync_dst in *. rewrite HP, HL in *. split.
  - eapply vals_trans; [eapply ctl_vals, transfer_ctl, T1|].
    eapply vals_trans; [eapply ctl_vals, transfer_ctl, T2|].
    eapply vals_trans; [eapply ctl_vals, transfer_ctl, T3|].
    eapply vals_trans; eapply sync_vals; eauto.
  - intros Hsi Hso Htp Hb. eapply sync_base; [exact S2|]. eapply sync_base; [exact S1|].
    eapply transfer_base; [exact Hso|exact T3|]. eapply transfer_base; [exact Htp|exact T2|].
    eapply transfer_base; [exact Hsi|exact T1|exact Hb].
Qed.

Lemma swap_in_vals E w accs a w' :
  ix_wfb (SwapExactIn a) = true -> process_swap_exact_in D E w accs a = Ok w' ->
  vals_only w w' /\ (base_inv w -> base_inv w').
Proof.
  intros Hwf H. apply swap_exact_in_inv in H; auto. wf Hwf.
  destruct H as (A & cs & cd & cp & ps & l & lsrc & ldst & w1 & w2 & ps2 & in_sol & in_hi & out_sol &
    dst_out & dst_hi & tp & HF & _ & S1 & S2 & Hp2 & I1 & _ & I2 & I3 & _ & _ & Hc & HS).
  destruct HF as (_ & _ & _ & _ & _ & HP & HL & _).
  unfold sync_src, sync_dst in S1, S2. rewrite HP, HL in *.
  destruct (settle_vals _ _ _ _ _ _ _ _ _ _ _ _ HP HL HS) as (HV & HB).
  split.
  - eapply vals_trans; [eapply sync_vals, S1|]. eapply vals_trans; [eapply sync_vals, S2|]. auto.
  - intros Hb. assert (Hb2 : base_inv w2) by eauto using sync_base.
    pose proof (base_pool _ _ Hb2 Hp2) as (_ & Hf & _). dec_invokes. unfold U64 in *.
    apply calc_swap_fees_ok in Hc; try lia. apply HB; auto; lia.
Qed.

Lemma swap_out_vals E w accs a w' :
  ix_wfb (SwapExactOut a) = true -> process_swap_exact_out D E w accs a = Ok w' ->
  vals_only w w' /\ (base_inv w -> base_inv w').
Proof.
  intros Hwf H. apply swap_exact_out_inv in H; auto. wf Hwf.
  destruct H as (A & cs & cd & cp & ps & l & lsrc & ldst & w1 & w2 & ps2 & out_lo & out_sol & in_sol &
    src_lo & src_in & tp & HF & _ & _ & S1 & S2 & Hp2 & I1 & _ & I2 & I3 & _ & _ & Hc & HS).
  destruct HF as (_ & _ & _ & _ & _ & HP & HL & _).
  unfold sync_src, sync_dst in S1, S2. rewrite HP, HL in *.
  destruct (settle_vals _ _ _ _ _ _ _ _ _ _ _ _ HP HL HS) as (HV & HB).
  split.
  - eapply vals_trans; [eapply sync_vals, S1|]. eapply vals_trans; [eapply sync_vals, S2|]. auto.
  - intros Hb. assert (Hb2 : base_inv w2) by eauto using sync_base.
    pose proof (base_pool _ _ Hb2 Hp2) as (_ & Hf & _). dec_invokes. unfold U64 in *.
    apply calc_swap_fees_ok in Hc; try lia. apply HB; auto; lia.
Qed.

Lemma add_liq_vals E w accs a w' :
  ix_wfb (AddLiquidity a) = true -> process_add_liquidity D E w accs a = Ok w' ->
  vals_only w w' /\ (base_inv w -> base_inv w').
Proof.
  intros Hwf H. apply add_liquidity_inv in H; auto. wf Hwf.
  destruct H as (A & c & cp & ps & l & ls & w1 & ps1 & lst_sol & lst_hi & af & tr & tp & mi & lp & w2 &
    w3 & w4 & ps' & HF & _ & S1 & Hp1 & I1 & I2 & Haf & Hc & Hmi & Hlp & _ & _ & _ & T1 & T2 & M1 & S2 & _).
  destruct HF as (_ & _ & _ & _ & HP & HL & _).
  unfold sync_liq in *. rewrite HP, HL in *.
  split.
  - eapply vals_trans; [eapply sync_vals, S1|].
    eapply vals_trans; [eapply ctl_vals, transfer_ctl, T1|].
    eapply vals_trans; [eapply ctl_vals, transfer_ctl, T2|].
    eapply vals_trans; [eapply ctl_vals, mint_to_ctl, M1|].
    eapply sync_vals, S2.
  - intros Hb. assert (Hb1 : base_inv w1) by eauto using sync_base.
    pose proof (base_pool _ _ Hb1 Hp1) as (Ht & _ & Hf & _). dec_invokes.
    pose proof (proj2 (base_u64 _ Hb1) _ _ Hmi) as Hs. unfold U64 in *.
    apply calc_add_fees_ok in Hc; try lia.
    apply lp_to_mint_nonneg in Hlp; try lia.
    eapply sync_base; [exact S2|]. eapply mint_to_base; [exact Hlp|exact M1|].
    eapply transfer_base; [|exact T2|]; [lia|]. eapply transfer_base; [|exact T1|exact Hb1]; lia.
Qed.

Lemma remove_liq_vals E w accs a w' :
  ix_wfb (RemoveLiquidity a) = true -> process_remove_liquidity D E w accs a = Ok w' ->
  vals_only w w' /\ (base_inv w -> base_inv w').
Proof.
  intros Hwf H. apply remove_liquidity_inv in H; auto. wf Hwf.
  destruct H as (A & c & cp & ps & l & ls & w1 & ps1 & mi & lp_sol & af & tu & tuh & tp & w2 & w3 & w4 &
    HF & _ & S1 & Hp1 & Hmi & Hlp & I1 & Haf & I2 & Hc & _ & _ & B1 & T1 & T2 & S2).
  destruct HF as (_ & _ & _ & _ & HP & HL & _).
  unfold sync_liq in *. rewrite HP, HL in *.
  split.
  - eapply vals_trans; [eapply sync_vals, S1|].
    eapply vals_trans; [eapply ctl_vals, burn_ctl, B1|].
    eapply vals_trans; [eapply ctl_vals, transfer_ctl, T1|].
    eapply vals_trans; [eapply ctl_vals, transfer_ctl, T2|].
    eapply sync_vals, S2.
  - intros Hb. assert (Hb1 : base_inv w1) by eauto using sync_base.
    pose proof (base_pool _ _ Hb1 Hp1) as (Ht & _ & Hf & _). dec_invokes.
    pose proof (proj2 (base_u64 _ Hb1) _ _ Hmi) as Hs. unfold U64 in *.
    apply lp_sol_value_le in Hlp; try lia.
    apply calc_remove_fees_ok in Hc; try lia.
    eapply sync_base; [exact S2|].
    eapply transfer_base; [|exact T2|]; [lia|]. eapply transfer_base; [|exact T1|]; [lia|].
    eapply burn_base; [|exact B1|exact Hb1]; lia.
Qed.

Lemma sync_proc_vals E w accs i w' :
  process_sync_sol_value D E w accs i = Ok w' ->
  vals_only w w' /\ (base_inv w -> base_inv w').
Proof.
  intros H. apply sync_proc_inv in H.
  destruct H as (? & ? & ? & ? & ps & l & ls & c & _ & _ & _ & _ & _ & _ & _ & _ & _ & _ & _ & _ & S).
  split; [eapply sync_vals, S | eapply sync_base, S].
Qed.

Lemma withdraw_ctl w accs a w' :
  process_withdraw_protocol_fees D w accs a = Ok w' ->
  ctl_eq w w' /\ (0 <= a -> base_inv w -> base_inv w').
Proof.
  intros H. apply withdraw_inv in H. destruct H as (? & ? & ? & ? & ? & ? & ? & ? & ? & ? & ? & H).
  decompose [and] H. split; [eapply transfer_ctl; eauto| intros; eapply transfer_base; eauto].
Qed.

(* ------------------------------------------------------------------ *)
(** Preservation of the base invariant by every instruction *)

Lemma put_pool_base w ps ps' :
  the_pool w = Some ps -> pool_ok ps' -> total_sol_value ps' = total_sol_value ps ->
  base_inv w -> base_inv (put_pool w POOL_STATE_ID (Some ps')).
Proof.
  intros Hp Hok Ht (l & au & Hl & Ha & Hnd & Hna & Hf & Hu & HP).
  exists l, au. unfold the_pool, the_list, the_authorities in *. cbn. rewrite upd_same.
  rewrite Hp in HP. csplit; auto; lia.
Qed.

Lemma put_list_base w l l' :
  the_list w = Some l -> NoDup (map ls_mint l') -> Forall lst_ok l' ->
  (the_pool w = None -> l' = []) ->
  sumZ (map sol_value l') = sumZ (map sol_value l) ->
  base_inv w -> base_inv (put_list w LST_STATE_LIST_ID (Some l')).
Proof.
  intros Hl0 Hn Hf' Hnone Hs (l1 & au & Hl & Ha & Hnd & Hna & Hf & Hu & HP).
  exists l', au. unfold the_pool, the_list, the_authorities in *. cbn. rewrite upd_same.
  rewrite Hl0 in Hl. injection Hl as <-.
  csplit; auto. destruct (w_pool w POOL_STATE_ID); auto. rewrite Hs. tauto.
Qed.

Lemma put_auth_base w au' :
  NoDup au' -> base_inv w -> base_inv (put_auth w DISABLE_POOL_AUTHORITY_LIST_ID (Some au')).
Proof.
  intros Hn (l1 & au & Hl & Ha & Hnd & Hna & Hf & Hu & HP).
  exists l1, au'. unfold the_pool, the_list, the_authorities in *. cbn. rewrite upd_same. auto 10.
Qed.
Lemma put_rec_base w r : base_inv w -> base_inv (put_rec w REBALANCE_RECORD_ID r).
Proof. auto. Qed.

Lemma base_list w l : base_inv w -> the_list w = Some l -> NoDup (map ls_mint l) /\ Forall lst_ok l.
Proof. intros (l1 & au & Hl & H) Hx. assert (l1 = l) by congruence. subst. tauto. Qed.
Lemma base_auth w l : base_inv w -> the_authorities w = Some l -> NoDup l.
Proof. intros (l1 & au & Hl & Ha & H) Hx. assert (au = l) by congruence. subst. tauto. Qed.

Lemma nth_lst_ok l i ls : Forall lst_ok l -> nth_lst l i = Some ls -> lst_ok ls.
Proof. intros Hf Hn. rewrite Forall_forall in Hf. apply Hf. eapply nth_error_In, Hn. Qed.

Lemma set_entry_base w l i ls ls' :
  the_list w = Some l -> nth_lst l i = Some ls ->
  ls_mint ls' = ls_mint ls -> sol_value ls' = sol_value ls -> lst_ok ls' ->
  base_inv w ->
  base_inv (put_list w LST_STATE_LIST_ID (Some (replace_nth l (Z.to_nat i) ls'))).
Proof.
  intros Hl Hn Hm Hs Hok Hb. destruct (base_list _ _ Hb Hl) as (Hnd & Hf).
  pose proof Hb as (l1 & au & Hl1 & _ & _ & _ & _ & _ & HP).
  apply (put_list_base _ l); auto.
  - rewrite map_replace_nth, Hm, replace_nth_self; auto. now apply map_nth_error.
  - now apply Forall_replace_nth.
  - intros Hx. rewrite Hx in HP. assert (l = []) as -> by congruence. reflexivity.
  - rewrite map_replace_nth, Hs, replace_nth_self; auto. now apply map_nth_error.
Qed.

Lemma fee_ok_range o : opt_u16b o = true -> fee_ok o = true ->
  match o with Some x => 0 <= x <= 10000 | None => True end.
Proof.
  destruct o; cbn; auto. intros H1 H2. apply wf_u16 in H1. apply Z.leb_le in H2.
  unfold BPS_DENOMINATOR in *. lia.
Qed.

Lemma process_base (HD : derive_ok D) E C w accs ix w' :
  process D E C w accs ix = Ok w' -> base_inv w -> base_inv w'.
Proof.
  intros H Hb. unfold process in H. apply guard_ok in H as (Hwf & H).
  destruct ix.
  - (* Sync *) eapply sync_proc_vals; eauto.
  - eapply swap_in_vals; eauto.
  - eapply swap_out_vals; eauto.
  - eapply add_liq_vals; eauto.
  - eapply remove_liq_vals; eauto.
  - (* DisableLstInput *)
    apply set_lst_input_inv in H.
    destruct H as (? & ? & ? & ? & ? & ps & l & ls & _ & _ & _ & _ & _ & _ & _ & Hp & _ & Hl & Hn & _ & ->).
    destruct (base_list _ _ Hb Hl) as (_ & Hf). pose proof (nth_lst_ok _ _ _ Hf Hn) as Hok.
    eapply set_entry_base; eauto. unfold lst_ok in *. cbn. tauto.
  - (* EnableLstInput *)
    apply set_lst_input_inv in H.
    destruct H as (? & ? & ? & ? & ? & ps & l & ls & _ & _ & _ & _ & _ & _ & _ & Hp & _ & Hl & Hn & _ & ->).
    destruct (base_list _ _ Hb Hl) as (_ & Hf). pose proof (nth_lst_ok _ _ _ Hf Hn) as Hok.
    eapply set_entry_base; eauto. unfold lst_ok in *. cbn. tauto.
  - (* AddLst *)
    apply add_lst_inv in H.
    destruct H as (adm & payer & lst_mint & pr & pfa & pfaa & calc & pst & lsl & ap & sp & ltp & rest &
      ps & l & mi & w1 & w2 & prb & pfb & _ & _ & _ & _ & _ & _ & _ & _ & _ & _ & _ & F1 & F2 & _ & _ & _ &
      Hp & _ & Hl & Hni & C1 & C2 & ->).
    assert (Hb2 : base_inv w2).
    { assert (base_inv w1) by (eapply ctl_base; [eapply create_ata_if_ctl, C1| |auto];
        eapply create_ata_u64; [eapply C1 | eapply base_u64, Hb]).
      eapply ctl_base; [eapply create_ata_if_ctl, C2| |auto].
      eapply create_ata_u64; [eapply C2 | eapply base_u64; auto]. }
    assert (Hl2 : the_list w2 = Some l).
    { destruct (create_ata_if_ctl _ _ _ _ _ _ C1) as (_ & X1 & _).
      destruct (create_ata_if_ctl _ _ _ _ _ _ C2) as (_ & X2 & _). unfold the_list. congruence. }
    assert (Hp2 : the_pool w2 = Some ps).
    { destruct (create_ata_if_ctl _ _ _ _ _ _ C1) as (X1 & _).
      destruct (create_ata_if_ctl _ _ _ _ _ _ C2) as (X2 & _). unfold the_pool. congruence. }
    destruct (base_list _ _ Hb2 Hl2) as (Hnd & Hf).
    eapply put_list_base; eauto.
    + rewrite map_app. cbn. apply NoDup_app_comm_cons; auto.
    + apply Forall_app. split; auto. constructor; auto. unfold lst_ok, U64. cbn.
      destruct HD as (_ & _ & _ & HD).
      pose proof (HD POOL_STATE_ID (w_owner w (mk lst_mint)) (mk lst_mint)) as B1.
      pose proof (HD PROTOCOL_FEE_ID (w_owner w (mk lst_mint)) (mk lst_mint)) as B2.
      rewrite F1 in B1. rewrite F2 in B2. cbn in *. unfold U64_MAX. lia.
    + congruence.
    + rewrite map_app, sumZ_app. cbn. lia.
  - (* RemoveLst *)
    apply remove_lst_inv in H.
    destruct H as (adm & rf & lm & pr & pfa & pfaa & pst & lsl & ltp & rest & ps & l & ls & tr & tf & w1 &
      w2 & _ & _ & _ & _ & _ & _ & _ & _ & _ & _ & Hp & _ & Hl & Hn & _ & _ & _ & _ & _ & Hz & _ & _ &
      C1 & C2 & ->).
    assert (Hb2 : base_inv w2).
    { assert (base_inv w1) by (eapply ctl_base; [eapply close_ctl, C1| |auto];
        eapply close_u64; [eapply C1 | eapply base_u64, Hb]).
      eapply ctl_base; [eapply close_ctl, C2| |auto].
      eapply close_u64; [eapply C2 | eapply base_u64; auto]. }
    assert (Hl2 : the_list w2 = Some l).
    { destruct (close_ctl _ _ _ _ _ _ C1) as (_ & X1 & _).
      destruct (close_ctl _ _ _ _ _ _ C2) as (_ & X2 & _). unfold the_list. congruence. }
    assert (Hp2 : the_pool w2 = Some ps).
    { destruct (close_ctl _ _ _ _ _ _ C1) as (X1 & _).
      destruct (close_ctl _ _ _ _ _ _ C2) as (X2 & _). unfold the_pool. congruence. }
    destruct (base_list _ _ Hb2 Hl2) as (Hnd & Hf).
    eapply put_list_base; eauto.
    + rewrite map_remove_nth. now apply NoDup_remove_nth.
    + now apply Forall_remove_nth.
    + congruence.
    + rewrite map_remove_nth. apply (map_nth_error sol_value) in Hn.
      rewrite (sumZ_remove _ _ _ Hn). lia.
  - (* SetSolValueCalculator *)
    apply set_calculator_inv in H.
    destruct H as (? & ? & ? & ? & ? & ps & l & ls & c & _ & _ & _ & _ & _ & _ & _ & Hp & _ & Hl & Hn & _ &
      _ & _ & S).
    eapply sync_base; [exact S|].
    destruct (base_list _ _ Hb Hl) as (_ & Hf). pose proof (nth_lst_ok _ _ _ Hf Hn) as Hok.
    eapply set_entry_base; eauto.
  - apply set_admin_inv in H. destruct H as (? & ? & ? & ? & ps & _ & _ & _ & _ & _ & Hp & ->).
    pose proof (base_pool _ _ Hb Hp). eapply put_pool_base; eauto.
  - apply set_protocol_fee_inv in H.
    destruct H as (? & ? & ? & ps & _ & _ & _ & _ & _ & Hp & _ & F1 & F2 & ->).
    pose proof (base_pool _ _ Hb Hp) as Hok. cbn in Hwf. apply andb_true_iff in Hwf as (W1 & W2).
    pose proof (fee_ok_range _ W1 F2). pose proof (fee_ok_range _ W2 F1).
    eapply put_pool_base; eauto; destruct new_trading, new_lp; cbn; auto; unfold pool_ok in *; cbn; tauto.
  - apply set_beneficiary_inv in H. destruct H as (? & ? & ? & ? & ps & _ & _ & _ & _ & _ & Hp & _ & ->).
    pose proof (base_pool _ _ Hb Hp). eapply put_pool_base; eauto.
  - apply set_pricing_inv in H. destruct H as (? & ? & ? & ? & ps & _ & _ & _ & _ & _ & _ & Hp & _ & ->).
    pose proof (base_pool _ _ Hb Hp). eapply put_pool_base; eauto.
  - wf Hwf. eapply withdraw_ctl; eauto. lia.
  - apply add_auth_inv in H.
    destruct H as (? & ? & ? & na & ? & ? & ? & ps & l & _ & _ & _ & _ & _ & _ & _ & Ha & Hni & ->).
    apply put_auth_base; auto. pose proof (base_auth _ _ Hb Ha). apply NoDup_app_comm_cons; auto.
  - apply remove_auth_inv in H.
    destruct H as (? & ? & ? & ? & ? & ? & ps & l & _ & _ & _ & _ & _ & _ & _ & Ha & _ & ->).
    apply put_auth_base; auto. apply NoDup_remove_nth. exact (base_auth _ _ Hb Ha).
  - apply disable_pool_inv in H. destruct H as (? & ? & ? & ? & ps & _ & _ & _ & _ & _ & Hp & _ & _ & ->).
    pose proof (base_pool _ _ Hb Hp) as Hok. eapply put_pool_base; eauto. unfold pool_ok in *. cbn. tauto.
  - apply enable_pool_inv in H. destruct H as (? & ? & ? & ps & _ & _ & _ & _ & _ & Hp & _ & ->).
    pose proof (base_pool _ _ Hb Hp) as Hok. eapply put_pool_base; eauto. unfold pool_ok in *. cbn. tauto.
  - (* StartRebalance *)
    apply start_rebalance_inv in H.
    destruct H as (x1&x2&x3&x4&x5&x6&x7&x8&x9&x10&x11&x12&cs&cd&ps&l&lsrc&ldst&ts&td&w1&w2&ps2&w3&w4&ps4&H).
    decompose [and] H. clear H. subst.
    match goal with H : w_pool w4 _ = Some _ |- _ => rename H into Hp4 end.
    wf Hwf.
    assert (Hb4 : base_inv w4).
    { eapply sync_base; [eassumption|]. eapply transfer_base; [|eassumption|]; [lia|].
      eapply sync_base; [eassumption|]. eapply sync_base; eassumption. }
    pose proof (base_pool _ _ Hb4 Hp4) as Hok.
    eapply put_pool_base; [exact Hp4| | |apply put_rec_base, Hb4]; auto.
    unfold pool_ok in *. cbn. tauto.
  - (* EndRebalance *)
    apply end_rebalance_inv in H.
    destruct H as (x1&x2&x3&x4&x5&x6&c&ps&l&r&ldst&w2&ps2&H).
    decompose [and] H. clear H. subst.
    apply put_rec_base. eapply sync_base; [eassumption|].
    match goal with H : w_pool w _ = Some _ |- _ => pose proof (base_pool _ _ Hb H) as Hok; rename H into Hp end.
    eapply put_pool_base; eauto. unfold pool_ok in *. cbn. tauto.
  - apply set_rebalance_authority_inv in H. destruct H as (? & ? & ? & ? & ps & _ & _ & _ & _ & _ & Hp & _ & ->).
    pose proof (base_pool _ _ Hb Hp). eapply put_pool_base; eauto.
  - (* Initialize *)
    apply initialize_inv in H.
    destruct H as (? & ? & ? & lpm & ? & ? & ? & m & _ & _ & _ & _ & _ & _ & _ & _ & Hp & _ & _ & _ & _ & _ & _ & ->).
    destruct Hb as (l & au & Hl & Ha & Hnd & Hna & Hf & Hu & HP).
    unfold the_pool in HP. rewrite Hp in HP. subst l.
    exists [], au. unfold the_pool, the_list, the_authorities in *. cbn. rewrite upd_same.
    csplit; auto.
    + apply put_mint_u64; [apply put_mint_u64; auto|]; cbn; unfold U64, U64_MAX; lia.
    + unfold pool_ok, U64, U64_MAX; cbn; lia.
Qed.

(** Preservation of the flag invariant. *)
Lemma flag_pool w ps' :
  (forall ps, the_pool w = Some ps -> is_rebalancing ps' = is_rebalancing ps) ->
  (forall ps, the_pool w = Some ps -> is_rebalancing ps <> 0 -> is_disabled ps' = 0) ->
  the_pool w <> None ->
  flag_inv w -> flag_inv (put_pool w POOL_STATE_ID (Some ps')).
Proof.
  unfold flag_inv, the_pool, the_record, the_list. cbn. rewrite upd_same.
  destruct (w_pool w POOL_STATE_ID) as [ps|]; [|congruence].
  intros H1 H2 _ [(A & B)|(A & B & Hr)]; rewrite (H1 ps eq_refl); auto.
  right. csplit; auto. apply (H2 ps); auto. lia.
Qed.
Lemma flag_put_auth w k v : flag_inv w -> flag_inv (put_auth w k v).
Proof. auto. Qed.
Lemma flag_active w l ps : the_pool w = Some ps -> active ps -> flag_inv w ->
  flag_inv (put_list w LST_STATE_LIST_ID l).
Proof.
  unfold flag_inv, the_pool, the_record. cbn. intros Hp (Hr & _). rewrite Hp.
  intros [?|(? & _)]; [auto|lia].
Qed.
Lemma ctl_flag w w' : ctl_eq w w' -> flag_inv w -> flag_inv w'.
Proof. intros H. apply vals_flag, ctl_vals, H. Qed.

Lemma process_flag (HD : derive_ok D) E C w accs ix w' :
  process D E C w accs ix = Ok w' -> base_inv w -> flag_inv w -> flag_inv w'.
Proof.
  intros H Hb Hf. unfold process in H. apply guard_ok in H as (Hwf & H).
  destruct ix.
  - eapply vals_flag; [|exact Hf]. eapply sync_proc_vals; eauto.
  - eapply vals_flag; [|exact Hf]. eapply swap_in_vals; eauto.
  - eapply vals_flag; [|exact Hf]. eapply swap_out_vals; eauto.
  - eapply vals_flag; [|exact Hf]. eapply add_liq_vals; eauto.
  - eapply vals_flag; [|exact Hf]. eapply remove_liq_vals; eauto.
  - apply set_lst_input_inv in H.
    destruct H as (? & ? & ? & ? & ? & ps & l & ls & _ & _ & _ & _ & _ & _ & _ & Hp & Hac & Hl & Hn & _ & ->).
    eapply flag_active; eauto.
  - apply set_lst_input_inv in H.
    destruct H as (? & ? & ? & ? & ? & ps & l & ls & _ & _ & _ & _ & _ & _ & _ & Hp & Hac & Hl & Hn & _ & ->).
    eapply flag_active; eauto.
  - apply add_lst_inv in H.
    destruct H as (adm & payer & lst_mint & pr & pfa & pfaa & calc & pst & lsl & ap & sp & ltp & rest &
      ps & l & mi & w1 & w2 & prb & pfb & _ & _ & _ & _ & _ & _ & _ & _ & _ & _ & _ & F1 & F2 & _ & _ & _ &
      Hp & Hac & Hl & Hni & C1 & C2 & ->).
    assert (Hc : ctl_eq w w2) by eauto using ctl_eq_trans, create_ata_if_ctl.
    apply (flag_active _ _ ps); auto; [|eapply ctl_flag; eauto].
    unfold the_pool. destruct Hc as (-> & _). exact Hp.
  - apply remove_lst_inv in H.
    destruct H as (adm & rf & lm & pr & pfa & pfaa & pst & lsl & ltp & rest & ps & l & ls & tr & tf & w1 &
      w2 & _ & _ & _ & _ & _ & _ & _ & _ & _ & _ & Hp & Hac & Hl & Hn & _ & _ & _ & _ & _ & Hz & _ & _ &
      C1 & C2 & ->).
    assert (Hc : ctl_eq w w2) by eauto using ctl_eq_trans, close_ctl.
    apply (flag_active _ _ ps); auto; [|eapply ctl_flag; eauto].
    unfold the_pool. destruct Hc as (-> & _). exact Hp.
  - apply set_calculator_inv in H.
    destruct H as (? & ? & ? & ? & ? & ps & l & ls & c & _ & _ & _ & _ & _ & _ & _ & Hp & Hac & Hl & Hn & _ &
      _ & _ & S).
    eapply vals_flag; [eapply sync_vals, S|]. eapply flag_active; eauto.
  - apply set_admin_inv in H. destruct H as (? & ? & ? & ? & ps & _ & _ & _ & _ & _ & Hp & ->).
    assert (Hp' : the_pool w = Some ps) by exact Hp. unfold flag_inv in Hf. rewrite Hp' in Hf.
    apply flag_pool; try (unfold flag_inv; rewrite Hp'; exact Hf); try (cbn; congruence).
    intros ps0 Hps0. assert (ps0 = ps) by congruence. subst. cbn. destruct Hf as [(?&_)|(_ & ? & _)]; [lia|auto].
  - apply set_protocol_fee_inv in H.
    destruct H as (? & ? & ? & ps & _ & _ & _ & _ & _ & Hp & (A1 & A2) & F1 & F2 & ->).
    apply flag_pool; auto; unfold the_pool; intros; try congruence;
      match goal with H : w_pool w _ = Some ?x |- _ => assert (x = ps) by congruence; subst x end;
      destruct new_trading, new_lp; auto.
  - apply set_beneficiary_inv in H. destruct H as (? & ? & ? & ? & ps & _ & _ & _ & _ & _ & Hp & (A1 & A2) & ->).
    apply flag_pool; auto; unfold the_pool; intros; try congruence;
      match goal with H : w_pool w _ = Some ?x |- _ => assert (x = ps) by congruence; subst x end; auto.
  - apply set_pricing_inv in H. destruct H as (? & ? & ? & ? & ps & _ & _ & _ & _ & _ & _ & Hp & (A1 & A2) & ->).
    apply flag_pool; auto; unfold the_pool; intros; try congruence;
      match goal with H : w_pool w _ = Some ?x |- _ => assert (x = ps) by congruence; subst x end; auto.
  - eapply ctl_flag; [|exact Hf]. eapply withdraw_ctl; eauto.
  - apply add_auth_inv in H.
    destruct H as (? & ? & ? & na & ? & ? & ? & ps & l & _ & _ & _ & _ & _ & _ & _ & Ha & Hni & ->). exact Hf.
  - apply remove_auth_inv in H.
    destruct H as (? & ? & ? & ? & ? & ? & ps & l & _ & _ & _ & _ & _ & _ & _ & Ha & _ & ->). exact Hf.
  - apply disable_pool_inv in H. destruct H as (? & ? & ? & ? & ps & _ & _ & _ & _ & _ & Hp & (A1 & A2) & _ & ->).
    apply flag_pool; auto; unfold the_pool; intros; try congruence;
      match goal with H : w_pool w _ = Some ?x |- _ => assert (x = ps) by congruence; subst x end; auto; lia.
  - apply enable_pool_inv in H. destruct H as (? & ? & ? & ps & _ & _ & _ & _ & _ & Hp & A1 & ->).
    apply flag_pool; auto; unfold the_pool; intros; try congruence;
      match goal with H : w_pool w _ = Some ?x |- _ => assert (x = ps) by congruence; subst x end; auto.
  - (* StartRebalance *)
    apply start_rebalance_inv in H. wf Hwf.
    destruct H as (x1&x2&x3&x4&x5&x6&x7&x8&x9&x10&x11&x12&cs&cd&ps&l&lsrc&ldst&ts&td&w1&w2&ps2&w3&w4&ps4&
      _ & _ & _ & _ & _ & _ & _ & _ & _ & Hp & Hac & Hl & _ & Hnd & _ & _ & _ & _ & _ & _ & _ & _ & _ & _ & _ & _ &
      S1 & S2 & Hp2 & T & S3 & Hr4 & Hp4 & ->).
    assert (Hb2 : base_inv w2).
    { eapply sync_base; [exact S2|]. eapply sync_base; [exact S1|exact Hb]. }
    pose proof (base_pool _ _ Hb2 Hp2) as Hok2.
    assert (HV : vals_only w w4).
    { eapply vals_trans; [eapply sync_vals, S1|]. eapply vals_trans; [eapply sync_vals, S2|].
      eapply vals_trans; [eapply ctl_vals, transfer_ctl, T|]. eapply sync_vals, S3. }
    destruct (vals_pool _ _ _ HV Hp) as (v & Hpv).
    assert (ps4 = set_total ps v) by (unfold the_pool in Hpv; congruence). subst ps4.
    destruct (vals_list _ _ _ HV Hl) as (l' & Hl' & Hst).
    unfold flag_inv, the_pool, the_record, the_list in *. cbn. rewrite !upd_same. right. cbn.
    csplit; auto; [apply Hac|]. eexists _, l'. csplit; eauto; cbn; try apply Hok2; try lia.
    destruct (strip_nth _ _ _ _ Hst Hnd) as (? & Hx & _). unfold nth_lst. congruence.
  - (* EndRebalance *)
    apply end_rebalance_inv in H.
    destruct H as (x1&x2&x3&x4&x5&x6&c&ps&l&r&ldst&w2&ps2&_&_&_&_&_&_&_&_&_&Hp&_&_&_&_&_&_&_&S&Hp2&_&->).
    apply sync_vals in S. destruct (vals_pool _ _ (set_rebalancing ps 0) S) as (v & Hv).
    { unfold the_pool. cbn. now rewrite upd_same. }
    unfold flag_inv, the_pool, the_record in *. cbn. rewrite Hv. left. cbn. now rewrite upd_same.
  - apply set_rebalance_authority_inv in H. destruct H as (? & ? & ? & ? & ps & _ & _ & _ & _ & _ & Hp & (A1 & A2) & ->).
    apply flag_pool; auto; unfold the_pool; intros; try congruence;
      match goal with H : w_pool w _ = Some ?x |- _ => assert (x = ps) by congruence; subst x end; auto.
  - (* Initialize *)
    apply initialize_inv in H.
    destruct H as (? & ? & ? & lpm & ? & ? & ? & m & _ & _ & _ & _ & _ & _ & _ & _ & Hp & _ & _ & _ & _ & _ & _ & ->).
    unfold flag_inv, the_pool, the_record in *. cbn. rewrite upd_same. rewrite Hp in Hf. cbn. auto.
Qed.

Lemma genesis_inv w : genesis D w -> inv w.
Proof.
  intros (Hp & Hl & Ha & Hr & Hu & _). split.
  - exists [], []. rewrite Hp. csplit; auto; constructor.
  - unfold flag_inv. now rewrite Hp.
Qed.

Lemma external_inv w w' : external_step D w w' -> inv w -> inv w'.
Proof.
  intros [Xp Xl Xa Xr _ _ Xu _] (Hb & Hf). split.
  - destruct Hb as (l & au & Hl & Ha & Hnd & Hna & Hff & Hu & HP).
    exists l, au. rewrite Xl, Xa, Xp. auto 10.
  - unfold flag_inv in *. now rewrite Xp, Xr, Xl.
Qed.

Lemma step_inv (HD : derive_ok D) w w' : step D w w' -> inv w -> inv w'.
Proof.
  intros [Hx | E C accs ix _ Hp] Hi.
  - eapply external_inv; eauto.
  - destruct Hi as (Hb & Hf). split; [eapply process_base | eapply process_flag]; eauto.
Qed.

Lemma steps_inv (HD : derive_ok D) w w' : steps D w w' -> inv w -> inv w'.
Proof. induction 1; auto. intros. eapply step_inv; eauto. Qed.

Theorem reachable_inv (HD : derive_ok D) w : reachable D w -> inv w.
Proof. intros (w0 & Hg & Hs). eapply steps_inv; eauto using genesis_inv. Qed.

End WithDerive.
