(** Proofs about Fee.v: the inversions and invariants of ProcInv.v, InvProofs.v, ShapeProofs.v and MoneyProofs.v, redone
    for transfers that withhold a fee. *)
From Coq Require Import ZArith List Bool Lia.
From Verif Require Import Base Ratio Calc State Controller Inversion ProcInv Spec CalcProofs InvProofs TokProofs AccessProofs
  ShapeProofs MoneyProofs Fee FeeSpec.
Import ListNotations.
Open Scope Z_scope.

Section WithFee.
Variable D : Derive.
Variable F : key -> Z -> Z.

Lemma transfer_inv_f w prog from to mint auth s amt w' :
  transfer_fee F w prog from to mint auth s amt = Ok w' ->
  exists f t m,
    is_token_program prog = true /\
    w_tok w from = Some f /\ w_tok w to = Some t /\ w_mint w mint = Some m /\
    w_owner w from = prog /\ w_owner w to = prog /\ w_owner w mint = prog /\
    ta_mint f = mint /\ ta_mint t = mint /\ ta_owner f = auth /\ s = true /\
    amt <= ta_amount f /\
    ((from = to /\ w' = w) \/
     (from <> to /\ ta_amount t + (amt - withheld F prog mint amt) <= U64_MAX /\
      w' = put_tok (put_tok w from (Some (mkTok mint auth (ta_amount f - amt)))) to
             (Some (mkTok mint (ta_owner t) (ta_amount t + (amt - withheld F prog mint amt)))))).
Proof.
  unfold transfer_fee. intros H. inv_ok.
  match goal with H1 : w_tok w from = Some ?a, H2 : w_tok w to = Some ?b,
    H3 : w_mint w _ = Some ?c |- _ => exists a, b, c end.
  repeat split; auto; try congruence.
  destruct (Z.eqb_spec from to); inv_ok; auto.
  right. repeat split; auto. congruence.
Qed.

Lemma transfer_ctl_f w prog from to mint auth s amt w' :
  transfer_fee F w prog from to mint auth s amt = Ok w' -> ctl_eq w w'.
Proof.
  intros H. apply transfer_inv_f in H. destruct H as (?&?&?&H). decompose [and or] H; subst;
  repeat split.
Qed.

Definition settle_facts_f E (w w' : World) A cs cd i j start_total src_in dst_out to_protocol : Prop :=
  exists w1 w2 w3 w4 ps' t,
    w_tok w (mk (sa_dst_pool_reserves A)) = Some t /\
    dst_out + to_protocol <= ta_amount t /\ dst_out + to_protocol <= U64_MAX /\
    transfer_fee F w (mk (sa_src_lst_token_program A)) (mk (sa_src_lst_acc A))
      (mk (sa_src_pool_reserves A)) (mk (sa_src_lst_mint A)) (mk (sa_signer A))
      (is_signer (sa_signer A)) src_in = Ok w1 /\
    transfer_fee F w1 (mk (sa_dst_lst_token_program A)) (mk (sa_dst_pool_reserves A))
      (mk (sa_protocol_fee_accumulator A)) (mk (sa_dst_lst_mint A)) (mk (sa_pool_state A))
      true to_protocol = Ok w2 /\
    transfer_fee F w2 (mk (sa_dst_lst_token_program A)) (mk (sa_dst_pool_reserves A))
      (mk (sa_dst_lst_acc A)) (mk (sa_dst_lst_mint A)) (mk (sa_pool_state A)) true dst_out = Ok w3 /\
    sync_src E w3 A cs i = Ok w4 /\ sync_dst E w4 A cd j = Ok w' /\
    w_pool w' (mk (sa_pool_state A)) = Some ps' /\ start_total <= total_sol_value ps'.

Lemma settle_inv_f E w A cs cd i j st si so tp w' :
  swap_settle_f F E w A cs cd i j st si so tp = Ok w' ->
  settle_facts_f E w w' A cs cd i j st si so tp.
Proof. unfold swap_settle_f, settle_facts_f. intros H. repeat (unf; inv_ok). fin. Qed.

Lemma swap_exact_in_inv_f E w accs a w' :
  ix_wfb (SwapExactIn a) = true ->
  process_swap_exact_in_f D F E w accs a = Ok w' ->
  exists A cs cd cp ps l lsrc ldst w1 w2 ps2 in_sol in_hi out_sol dst_out dst_hi to_protocol,
    swap_facts D w accs (si_src_lst_value_calc_accs a) (si_dst_lst_value_calc_accs a)
      (si_src_lst_index a) (si_dst_lst_index a) A cs cd cp ps l lsrc ldst /\
    si_amount a <> 0 /\
    sync_src E w A cs (si_src_lst_index a) = Ok w1 /\
    sync_dst E w1 A cd (si_dst_lst_index a) = Ok w2 /\
    w_pool w2 POOL_STATE_ID = Some ps2 /\
    invoke_lst_to_sol E w2 cs (mk (sa_src_lst_mint A)) (si_amount a) = Ok (in_sol, in_hi) /\
    in_sol <> 0 /\
    invoke_price_exact_in E w2 cp (mk (sa_src_lst_mint A)) (mk (sa_dst_lst_mint A)) (si_amount a)
      in_sol = Ok out_sol /\
    invoke_sol_to_lst E w2 cd (mk (sa_dst_lst_mint A)) out_sol = Ok (dst_out, dst_hi) /\
    si_min_amount_out a <= dst_out /\ dst_out <> 0 /\
    calc_swap_protocol_fees in_sol out_sol dst_out (trading_protocol_fee_bps ps2) = Ok to_protocol /\
    settle_facts_f E w2 w' A cs cd (si_src_lst_index a) (si_dst_lst_index a) (total_sol_value ps2)
      (si_amount a) dst_out to_protocol.
Proof.
  intros Hwf H. unfold process_swap_exact_in_f in H. inv_ok.
  match goal with H : verify_swap _ _ _ _ _ _ _ = Ok _ |- _ =>
    apply verify_swap_inv in H; [destruct H as (ps & l & lsrc & ldst & HF)| |] end;
  [| cbn in Hwf; unfold u8b in Hwf; inv_ok; assumption
   | cbn in Hwf; unfold u8b in Hwf; inv_ok; assumption].
  pose proof HF as HF'. unfold swap_facts in HF'.
  destruct HF' as (_ & _ & _ & _ & _ & HP & HL & _).
  unf. rewrite HP in *. inv_ok. dedup.
  match goal with H : swap_settle_f F _ _ _ _ _ _ _ _ _ _ _ = Ok _ |- _ => apply settle_inv_f in H end.
  fin.
Qed.

Lemma swap_exact_out_inv_f E w accs a w' :
  ix_wfb (SwapExactOut a) = true ->
  process_swap_exact_out_f D F E w accs a = Ok w' ->
  exists A cs cd cp ps l lsrc ldst w1 w2 ps2 out_lo out_sol in_sol src_lo src_in to_protocol,
    swap_facts D w accs (so_src_lst_value_calc_accs a) (so_dst_lst_value_calc_accs a)
      (so_src_lst_index a) (so_dst_lst_index a) A cs cd cp ps l lsrc ldst /\
    so_amount a <> 0 /\ so_max_amount_in a <> 0 /\
    sync_src E w A cs (so_src_lst_index a) = Ok w1 /\
    sync_dst E w1 A cd (so_dst_lst_index a) = Ok w2 /\
    w_pool w2 POOL_STATE_ID = Some ps2 /\
    invoke_lst_to_sol E w2 cd (mk (sa_dst_lst_mint A)) (so_amount a) = Ok (out_lo, out_sol) /\
    out_sol <> 0 /\
    invoke_price_exact_out E w2 cp (mk (sa_src_lst_mint A)) (mk (sa_dst_lst_mint A)) (so_amount a)
      out_sol = Ok in_sol /\
    invoke_sol_to_lst E w2 cs (mk (sa_src_lst_mint A)) in_sol = Ok (src_lo, src_in) /\
    src_in <= so_max_amount_in a /\ src_in <> 0 /\
    calc_swap_protocol_fees in_sol out_sol (so_amount a) (trading_protocol_fee_bps ps2)
      = Ok to_protocol /\
    settle_facts_f E w2 w' A cs cd (so_src_lst_index a) (so_dst_lst_index a) (total_sol_value ps2)
      src_in (so_amount a) to_protocol.
Proof.
  intros Hwf H. unfold process_swap_exact_out_f in H. inv_ok.
  match goal with H : negb (_ || _) = true |- _ =>
    rewrite negb_orb in H; apply andb_true_iff in H; destruct H as [Hz1 Hz2] end.
  inv_ok.
  match goal with H : verify_swap _ _ _ _ _ _ _ = Ok _ |- _ =>
    apply verify_swap_inv in H; [destruct H as (ps & l & lsrc & ldst & HF)| |] end;
  [| cbn in Hwf; unfold u8b in Hwf; inv_ok; assumption
   | cbn in Hwf; unfold u8b in Hwf; inv_ok; assumption].
  pose proof HF as HF'. unfold swap_facts in HF'.
  destruct HF' as (_ & _ & _ & _ & _ & HP & HL & _).
  unf. rewrite HP in *. inv_ok. dedup.
  match goal with H : swap_settle_f F _ _ _ _ _ _ _ _ _ _ _ = Ok _ |- _ => apply settle_inv_f in H end.
  fin.
Qed.

Lemma add_liquidity_inv_f E w accs a w' :
  process_add_liquidity_f D F E w accs a = Ok w' ->
  exists A c cp ps l ls w1 ps1 lst_sol lst_hi after_fees to_reserves to_protocol mi lp_to_mint
         w2 w3 w4 ps',
    liq_facts D w accs true (al_lst_value_calc_accs a) (al_lst_index a) A c cp ps l ls /\
    al_lst_amount a <> 0 /\
    sync_liq E w A c (al_lst_index a) = Ok w1 /\
    w_pool w1 POOL_STATE_ID = Some ps1 /\
    invoke_lst_to_sol E w1 c (mk (la_lst_mint A)) (al_lst_amount a) = Ok (lst_sol, lst_hi) /\
    invoke_price_lp_to_mint E w1 cp (mk (la_lst_mint A)) (al_lst_amount a) lst_sol = Ok after_fees /\
    after_fees <= lst_sol /\
    calc_add_liquidity_protocol_fees (al_lst_amount a) lst_sol after_fees (lp_protocol_fee_bps ps1)
      = Ok (to_reserves, to_protocol) /\
    w_mint w1 (mk (la_lp_token_mint A)) = Some mi /\
    calc_lp_tokens_to_mint (m_supply mi) (total_sol_value ps1) after_fees = Ok lp_to_mint /\
    to_reserves <> 0 /\ lp_to_mint <> 0 /\ al_min_lp_out a <= lp_to_mint /\
    transfer_fee F w1 (mk (la_lst_token_program A)) (mk (la_lst_acc A))
      (mk (la_pool_reserves A)) (mk (la_lst_mint A)) (mk (la_signer A))
      (is_signer (la_signer A)) to_reserves = Ok w2 /\
    transfer_fee F w2 (mk (la_lst_token_program A)) (mk (la_lst_acc A))
      (mk (la_protocol_fee_accumulator A)) (mk (la_lst_mint A)) (mk (la_signer A))
      (is_signer (la_signer A)) to_protocol = Ok w3 /\
    mint_to w3 SPL_TOKEN_ID (mk (la_lp_token_mint A)) (mk (la_lp_acc A)) POOL_STATE_ID true
      lp_to_mint = Ok w4 /\
    sync_liq E w4 A c (al_lst_index a) = Ok w' /\
    w_pool w' POOL_STATE_ID = Some ps' /\ total_sol_value ps1 <= total_sol_value ps'.
Proof.
  intros H. unfold process_add_liquidity_f in H. inv_ok.
  match goal with H : verify_liquidity _ _ _ _ _ _ = Ok _ |- _ =>
    apply verify_liquidity_inv in H; destruct H as (ps & ll & ls & HF) end.
  pose proof HF as HF'. unfold liq_facts in HF'.
  destruct HF' as (_ & _ & _ & _ & HP & HL & _ & HT & _).
  unf. rewrite HP in *. rewrite HT in *. inv_ok. dedup.
  match goal with H : negb (_ || _) = true |- _ =>
    rewrite negb_orb in H; apply andb_true_iff in H; destruct H as [Hz1 Hz2] end.
  inv_ok.
  fin.
Qed.

Lemma remove_liquidity_inv_f E w accs a w' :
  process_remove_liquidity_f D F E w accs a = Ok w' ->
  exists A c cp ps l ls w1 ps1 mi lp_sol after_fees to_user to_user_hi to_protocol w2 w3 w4,
    liq_facts D w accs false (rl_lst_value_calc_accs a) (rl_lst_index a) A c cp ps l ls /\
    rl_lp_token_amount a <> 0 /\
    sync_liq E w A c (rl_lst_index a) = Ok w1 /\
    w_pool w1 POOL_STATE_ID = Some ps1 /\
    w_mint w1 (mk (la_lp_token_mint A)) = Some mi /\
    calc_lp_tokens_sol_value (m_supply mi) (total_sol_value ps1) (rl_lp_token_amount a)
      = Ok lp_sol /\
    invoke_price_lp_to_redeem E w1 cp (mk (la_lst_mint A)) (rl_lp_token_amount a) lp_sol
      = Ok after_fees /\
    after_fees <= lp_sol /\
    invoke_sol_to_lst E w1 c (mk (la_lst_mint A)) after_fees = Ok (to_user, to_user_hi) /\
    calc_remove_liquidity_protocol_fees lp_sol after_fees to_user (lp_protocol_fee_bps ps1)
      = Ok to_protocol /\
    to_user <> 0 /\ rl_min_lst_out a <= to_user /\
    burn w1 SPL_TOKEN_ID (mk (la_lp_token_mint A)) (mk (la_lp_acc A)) (mk (la_signer A))
      (is_signer (la_signer A)) (rl_lp_token_amount a) = Ok w2 /\
    transfer_fee F w2 (mk (la_lst_token_program A)) (mk (la_pool_reserves A))
      (mk (la_lst_acc A)) (mk (la_lst_mint A)) POOL_STATE_ID true to_user = Ok w3 /\
    transfer_fee F w3 (mk (la_lst_token_program A)) (mk (la_pool_reserves A))
      (mk (la_protocol_fee_accumulator A)) (mk (la_lst_mint A)) POOL_STATE_ID true to_protocol
      = Ok w4 /\
    sync_liq E w4 A c (rl_lst_index a) = Ok w'.
Proof.
  intros H. unfold process_remove_liquidity_f in H. inv_ok.
  match goal with H : verify_liquidity _ _ _ _ _ _ = Ok _ |- _ =>
    apply verify_liquidity_inv in H; destruct H as (ps & ll & ls & HF) end.
  pose proof HF as HF'. unfold liq_facts in HF'.
  destruct HF' as (_ & _ & _ & _ & HP & HL & _ & HT & _).
  unf. rewrite HP in *. rewrite HT in *. inv_ok. dedup.
  fin.
Qed.

Lemma withdraw_inv_f w accs amount w' :
  process_withdraw_protocol_fees_f D F w accs amount = Ok w' ->
  exists beneficiary withdraw_to pfa pfa_auth token_program pool_state lst_mint rest ps t tf,
    accs = beneficiary :: withdraw_to :: pfa :: pfa_auth :: token_program :: pool_state ::
           lst_mint :: rest /\
    mk pool_state = POOL_STATE_ID /\ mk pfa_auth = PROTOCOL_FEE_ID /\
    mk token_program = w_owner w (mk withdraw_to) /\
    is_writable withdraw_to = true /\ is_writable pfa = true /\
    is_signer beneficiary = true /\ mk beneficiary = protocol_fee_beneficiary ps /\
    w_pool w POOL_STATE_ID = Some ps /\ active ps /\
    w_tok w (mk withdraw_to) = Some t /\ mk lst_mint = ta_mint t /\
    fst (d_find D PROTOCOL_FEE_ID (w_owner w (mk withdraw_to)) (mk lst_mint)) = mk pfa /\
    w_tok w (mk pfa) = Some tf /\ amount <= ta_amount tf /\
    transfer_fee F w (mk token_program) (mk pfa) (mk withdraw_to) (mk lst_mint) PROTOCOL_FEE_ID
      true amount = Ok w'.
Proof.
  intros H. unfold process_withdraw_protocol_fees_f in H. do 7 split_accs H.
  unfold resolve_withdraw_protocol_fees, find_protocol_fee_accumulator_address in H.
  unf. apply bind_ok in H as (exp & He & H).
  apply guard_ok in He as (_ & He). apply bind_ok in He as (tm & Ht & He).
  destruct (d_find D PROTOCOL_FEE_ID (w_owner w (mk acc0)) tm) as [pf pfb] eqn:E2.
  go. fin.
  match goal with H : mk acc5 = _ |- _ => rewrite H end. rewrite E2. reflexivity.
Qed.

Lemma start_rebalance_inv_f E C w accs a w' :
  process_start_rebalance_f D F E C w accs a = Ok w' ->
  exists reb_auth pool_state lst_state_list rebalance_record src_lst_mint dst_lst_mint
    src_pool_reserves dst_pool_reserves withdraw_to instructions system_program
    src_lst_token_program cs cd ps l lsrc ldst ts td w1 w2 ps2 w3 w4 ps4,
    accs = [reb_auth; pool_state; lst_state_list; rebalance_record; src_lst_mint; dst_lst_mint;
      src_pool_reserves; dst_pool_reserves; withdraw_to; instructions; system_program;
      src_lst_token_program] ++ (cpi_prog cs :: cpi_accs cs) ++ (cpi_prog cd :: cpi_accs cd) /\
    length (cpi_prog cs :: cpi_accs cs) = Z.to_nat (sr_src_lst_calc_accs a) /\
    mk pool_state = POOL_STATE_ID /\ mk lst_state_list = LST_STATE_LIST_ID /\
    mk rebalance_record = REBALANCE_RECORD_ID /\
    mk src_lst_token_program = w_owner w (mk src_lst_mint) /\
    forallb is_writable [pool_state; lst_state_list; rebalance_record; src_pool_reserves;
       dst_pool_reserves; withdraw_to] = true /\
    is_signer reb_auth = true /\ mk reb_auth = rebalance_authority ps /\
    w_pool w POOL_STATE_ID = Some ps /\ active ps /\
    w_list w LST_STATE_LIST_ID = Some l /\
    nth_lst l (sr_src_lst_index a) = Some lsrc /\ nth_lst l (sr_dst_lst_index a) = Some ldst /\
    ls_mint lsrc = mk src_lst_mint /\ ls_mint ldst = mk dst_lst_mint /\
    is_input_disabled ldst = 0 /\
    d_create D POOL_STATE_ID (w_owner w (mk src_lst_mint)) (mk src_lst_mint)
      (pool_reserves_bump lsrc) = Some (mk src_pool_reserves) /\
    d_create D POOL_STATE_ID (w_owner w (mk dst_lst_mint)) (mk dst_lst_mint)
      (pool_reserves_bump ldst) = Some (mk dst_pool_reserves) /\
    mk (cpi_prog cs) = sol_value_calculator lsrc /\ mk (cpi_prog cd) = sol_value_calculator ldst /\
    w_tok w (mk src_pool_reserves) = Some ts /\ sr_min_starting_src_lst a <= ta_amount ts /\
    w_tok w (mk dst_pool_reserves) = Some td /\ ta_amount td <= sr_max_starting_dst_lst a /\
    (exists ix, In ix (skipn (S (cx_cur C)) (cx_ixs C)) /\
       is_end_rebalance_ix ix (mk dst_lst_mint) = true) /\
    sync_sol_value_unchecked E w POOL_STATE_ID LST_STATE_LIST_ID (mk src_pool_reserves) cs
      (mk src_lst_mint) (sr_src_lst_index a) = Ok w1 /\
    sync_sol_value_unchecked E w1 POOL_STATE_ID LST_STATE_LIST_ID (mk dst_pool_reserves) cd
      (mk dst_lst_mint) (sr_dst_lst_index a) = Ok w2 /\
    w_pool w2 POOL_STATE_ID = Some ps2 /\
    transfer_fee F w2 (mk src_lst_token_program) (mk src_pool_reserves) (mk withdraw_to)
      (mk src_lst_mint) POOL_STATE_ID true (sr_amount a) = Ok w3 /\
    sync_sol_value_unchecked E w3 POOL_STATE_ID LST_STATE_LIST_ID (mk src_pool_reserves) cs
      (mk src_lst_mint) (sr_src_lst_index a) = Ok w4 /\
    w_rec w4 REBALANCE_RECORD_ID = None /\
    w_pool w4 POOL_STATE_ID = Some ps4 /\
    w' = put_pool (put_rec w4 REBALANCE_RECORD_ID
           (Some (mkRec (total_sol_value ps2) (sr_dst_lst_index a)))) POOL_STATE_ID
           (Some (set_rebalancing ps4 1)).
Proof.
  intros H. unfold process_start_rebalance_f in H. do 12 split_accs H.
  unfold resolve_start_rebalance in H. go.
  match goal with H : verify_src_dst_lst_sol_val_calc_cpis _ _ _ _ _ _ = Ok _ |- _ =>
    apply verify_src_dst_ok in H; destruct H as (? & ? & ? & -> & ? & ? & ? & ? & ? & ?) end.
  dedup.
  match goal with H : verify_has_succeeding_end_rebalance_ix _ _ = Ok _ |- _ =>
    unfold verify_has_succeeding_end_rebalance_ix in H; rewrite scan_spec in H end.
  match goal with H : context [match w_rec ?x REBALANCE_RECORD_ID with _ => _ end] |- _ =>
    destruct (w_rec x REBALANCE_RECORD_ID) eqn:Hp; [discriminate|]; clear H end.
  fin.
  cbn. repeat match goal with H : is_writable _ = true |- _ => rewrite H; clear H end. reflexivity.
Qed.

Hypothesis HF0 : fee_fun F.

Lemma withheld_range prog mint amt : 0 <= amt -> 0 <= withheld F prog mint amt <= amt.
Proof. intros H. unfold withheld. destruct (prog =? SPL_TOKEN_2022_ID); [apply HF0; exact H|lia]. Qed.
Lemma transfer_u64_f w prog from to mint auth s amt w' :
  0 <= amt -> transfer_fee F w prog from to mint auth s amt = Ok w' ->
  tokens_u64 w -> tokens_u64 w'.
Proof.
  intros Ha H Hu. apply transfer_inv_f in H.
  destruct H as (f & t & m & _ & Hf & Ht & _ & _ & _ & _ & _ & _ & _ & _ & Hle & [(_ & ->)|(_ & Hm & ->)]); auto.
  pose proof (proj1 Hu _ _ Hf) as [? ?]. pose proof (proj1 Hu _ _ Ht) as [? ?].
  pose proof (withheld_range prog mint amt Ha).
  apply put_tok_u64; [apply put_tok_u64; auto|]; cbn; split; lia.
Qed.

Lemma transfer_base_f w prog from to mint auth s amt w' :
  0 <= amt -> transfer_fee F w prog from to mint auth s amt = Ok w' -> base_inv w -> base_inv w'.
Proof. intros. eapply ctl_base; eauto using transfer_ctl_f, transfer_u64_f, base_u64. Qed.

Lemma settle_vals_f E w w' A cs cd i j st si so tp :
  mk (sa_pool_state A) = POOL_STATE_ID -> mk (sa_lst_state_list A) = LST_STATE_LIST_ID ->
  settle_facts_f E w w' A cs cd i j st si so tp ->
  vals_only w w' /\ (0 <= si -> 0 <= so -> 0 <= tp -> base_inv w -> base_inv w').
Proof.
  intros HP HL (w1 & w2 & w3 & w4 & ps' & t & _ & _ & _ & T1 & T2 & T3 & S1 & S2 & _).
  unfold sync_src, sync_dst in *. rewrite HP, HL in *. split.
  - eapply vals_trans; [eapply ctl_vals, transfer_ctl_f, T1|].
    eapply vals_trans; [eapply ctl_vals, transfer_ctl_f, T2|].
    eapply vals_trans; [eapply ctl_vals, transfer_ctl_f, T3|].
    eapply vals_trans; eapply sync_vals; eauto.
  - intros Hsi Hso Htp Hb. eapply sync_base; [exact S2|]. eapply sync_base; [exact S1|].
    eapply transfer_base_f; [exact Hso|exact T3|]. eapply transfer_base_f; [exact Htp|exact T2|].
    eapply transfer_base_f; [exact Hsi|exact T1|exact Hb].
Qed.

Lemma swap_in_vals_f E w accs a w' :
  ix_wfb (SwapExactIn a) = true -> process_swap_exact_in_f D F E w accs a = Ok w' ->
  vals_only w w' /\ (base_inv w -> base_inv w').
Proof.
  intros Hwf H. apply swap_exact_in_inv_f in H; auto. wf Hwf.
  destruct H as (A & cs & cd & cp & ps & l & lsrc & ldst & w1 & w2 & ps2 & in_sol & in_hi & out_sol &
    dst_out & dst_hi & tp & HF & _ & S1 & S2 & Hp2 & I1 & _ & I2 & I3 & _ & _ & Hc & HS).
  destruct HF as (_ & _ & _ & _ & _ & HP & HL & _).
  unfold sync_src, sync_dst in S1, S2. rewrite HP, HL in *.
  destruct (settle_vals_f _ _ _ _ _ _ _ _ _ _ _ _ HP HL HS) as (HV & HB).
  split.
  - eapply vals_trans; [eapply sync_vals, S1|]. eapply vals_trans; [eapply sync_vals, S2|]. auto.
  - intros Hb. assert (Hb2 : base_inv w2) by eauto using sync_base.
    pose proof (base_pool _ _ Hb2 Hp2) as (_ & Hf & _). dec_invokes. unfold U64 in *.
    apply calc_swap_fees_ok in Hc; try lia. apply HB; auto; lia.
Qed.

Lemma swap_out_vals_f E w accs a w' :
  ix_wfb (SwapExactOut a) = true -> process_swap_exact_out_f D F E w accs a = Ok w' ->
  vals_only w w' /\ (base_inv w -> base_inv w').
Proof.
  intros Hwf H. apply swap_exact_out_inv_f in H; auto. wf Hwf.
  destruct H as (A & cs & cd & cp & ps & l & lsrc & ldst & w1 & w2 & ps2 & out_lo & out_sol & in_sol &
    src_lo & src_in & tp & HF & _ & _ & S1 & S2 & Hp2 & I1 & _ & I2 & I3 & _ & _ & Hc & HS).
  destruct HF as (_ & _ & _ & _ & _ & HP & HL & _).
  unfold sync_src, sync_dst in S1, S2. rewrite HP, HL in *.
  destruct (settle_vals_f _ _ _ _ _ _ _ _ _ _ _ _ HP HL HS) as (HV & HB).
  split.
  - eapply vals_trans; [eapply sync_vals, S1|]. eapply vals_trans; [eapply sync_vals, S2|]. auto.
  - intros Hb. assert (Hb2 : base_inv w2) by eauto using sync_base.
    pose proof (base_pool _ _ Hb2 Hp2) as (_ & Hf & _). dec_invokes. unfold U64 in *.
    apply calc_swap_fees_ok in Hc; try lia. apply HB; auto; lia.
Qed.

Lemma add_liq_vals_f E w accs a w' :
  ix_wfb (AddLiquidity a) = true -> process_add_liquidity_f D F E w accs a = Ok w' ->
  vals_only w w' /\ (base_inv w -> base_inv w').
Proof.
  intros Hwf H. apply add_liquidity_inv_f in H; auto. wf Hwf.
  destruct H as (A & c & cp & ps & l & ls & w1 & ps1 & lst_sol & lst_hi & af & tr & tp & mi & lp & w2 &
    w3 & w4 & ps' & HF & _ & S1 & Hp1 & I1 & I2 & Haf & Hc & Hmi & Hlp & _ & _ & _ & T1 & T2 & M1 & S2 & _).
  destruct HF as (_ & _ & _ & _ & HP & HL & _).
  unfold sync_liq in *. rewrite HP, HL in *.
  split.
  - eapply vals_trans; [eapply sync_vals, S1|].
    eapply vals_trans; [eapply ctl_vals, transfer_ctl_f, T1|].
    eapply vals_trans; [eapply ctl_vals, transfer_ctl_f, T2|].
    eapply vals_trans; [eapply ctl_vals, mint_to_ctl, M1|].
    eapply sync_vals, S2.
  - intros Hb. assert (Hb1 : base_inv w1) by eauto using sync_base.
    pose proof (base_pool _ _ Hb1 Hp1) as (Ht & _ & Hf & _). dec_invokes.
    pose proof (proj2 (base_u64 _ Hb1) _ _ Hmi) as Hs. unfold U64 in *.
    apply calc_add_fees_ok in Hc; try lia.
    apply lp_to_mint_nonneg in Hlp; try lia.
    eapply sync_base; [exact S2|]. eapply mint_to_base; [exact Hlp|exact M1|].
    eapply transfer_base_f; [|exact T2|]; [lia|]. eapply transfer_base_f; [|exact T1|exact Hb1]; lia.
Qed.

Lemma remove_liq_vals_f E w accs a w' :
  ix_wfb (RemoveLiquidity a) = true -> process_remove_liquidity_f D F E w accs a = Ok w' ->
  vals_only w w' /\ (base_inv w -> base_inv w').
Proof.
  intros Hwf H. apply remove_liquidity_inv_f in H; auto. wf Hwf.
  destruct H as (A & c & cp & ps & l & ls & w1 & ps1 & mi & lp_sol & af & tu & tuh & tp & w2 & w3 & w4 &
    HF & _ & S1 & Hp1 & Hmi & Hlp & I1 & Haf & I2 & Hc & _ & _ & B1 & T1 & T2 & S2).
  destruct HF as (_ & _ & _ & _ & HP & HL & _).
  unfold sync_liq in *. rewrite HP, HL in *.
  split.
  - eapply vals_trans; [eapply sync_vals, S1|].
    eapply vals_trans; [eapply ctl_vals, burn_ctl, B1|].
    eapply vals_trans; [eapply ctl_vals, transfer_ctl_f, T1|].
    eapply vals_trans; [eapply ctl_vals, transfer_ctl_f, T2|].
    eapply sync_vals, S2.
  - intros Hb. assert (Hb1 : base_inv w1) by eauto using sync_base.
    pose proof (base_pool _ _ Hb1 Hp1) as (Ht & _ & Hf & _). dec_invokes.
    pose proof (proj2 (base_u64 _ Hb1) _ _ Hmi) as Hs. unfold U64 in *.
    apply lp_sol_value_le in Hlp; try lia.
    apply calc_remove_fees_ok in Hc; try lia.
    eapply sync_base; [exact S2|].
    eapply transfer_base_f; [|exact T2|]; [lia|]. eapply transfer_base_f; [|exact T1|]; [lia|].
    eapply burn_base; [|exact B1|exact Hb1]; lia.
Qed.

Lemma withdraw_ctl_f w accs a w' :
  process_withdraw_protocol_fees_f D F w accs a = Ok w' ->
  ctl_eq w w' /\ (0 <= a -> base_inv w -> base_inv w').
Proof.
  intros H. apply withdraw_inv_f in H. destruct H as (? & ? & ? & ? & ? & ? & ? & ? & ? & ? & ? & H).
  decompose [and] H. split; [eapply transfer_ctl_f; eauto| intros; eapply transfer_base_f; eauto].
Qed.

Lemma transfer_shape_f w prog from to mint auth s amt w' :
  transfer_fee F w prog from to mint auth s amt = Ok w' -> shape w w'.
Proof.
  intros H. apply transfer_inv_f in H.
  destruct H as (f & t & m & _ & Hf & Ht & _ & _ & _ & _ & Mf & Mt & Of & _ & _ & [(_ & ->)|(Hne & _ & ->)]).
  - apply shape_refl.
  - split; [reflexivity|]. split; cbn.
    + intros k. unfold upd. destruct (Z.eqb_spec k to) as [->|N]; [rewrite Ht; cbn; auto|].
      destruct (Z.eqb_spec k from) as [->|N2]; [rewrite Hf; cbn; auto|]. destruct (w_tok w k); auto.
    + intros k. destruct (w_mint w k); auto.
Qed.

Lemma settle_shape_f E w w' A cs cd i j st si so tp :
  settle_facts_f E w w' A cs cd i j st si so tp -> shape w w'.
Proof.
  intros (w1 & w2 & w3 & w4 & ps' & t & _ & _ & _ & T1 & T2 & T3 & S1 & S2 & _).
  apply transfer_shape_f in T1, T2, T3. apply sync_shape in S1, S2.
  eauto using shape_trans.
Qed.

Lemma transfer_balance_f w prog from to mint auth s amt w' :
  transfer_fee F w prog from to mint auth s amt = Ok w' ->
  (forall k, balance w' k = balance w k - on k from amt + on k to (arrives F w mint from to amt)) /\ w_mint w' = w_mint w /\
  w_owner w' = w_owner w /\ amt <= balance w from /\ s = true.
Proof.
  intros H. apply transfer_inv_f in H.
  destruct H as (f & t & m & _ & Hf & Ht & _ & _ & _ & Ow & Mf & Mt & Of & Hs & Hle & Hc).
  assert (Hle' : amt <= balance w from) by (unfold balance; now rewrite Hf). unfold arrives.
  destruct Hc as [(-> & ->)|(Hne & Hm & ->)]; csplit; auto.
  - intros k. rewrite Z.eqb_refl. unfold on. lia.
  - intros k. rewrite (proj2 (Z.eqb_neq _ _) Hne), Ow. unfold balance, on. cbn. unfold upd.
    destruct (Z.eqb_spec k to) as [->|N1]; [destruct (Z.eqb_spec to from) as [E|_]; [congruence|]; rewrite Ht; cbn; lia|].
    destruct (Z.eqb_spec k from) as [->|N2]; [rewrite Hf; cbn; lia|]. lia.
Qed.

Lemma arrives_same w w' m from to a : w_owner w' = w_owner w -> arrives F w' m from to a = arrives F w m from to a.
Proof. intros H. unfold arrives. now rewrite H. Qed.

Lemma settle_flow_f E w accs n m i j A cs cd cp ps l lsrc ldst w1 w2 st si so tp w' :
  swap_facts D w accs n m i j A cs cd cp ps l lsrc ldst ->
  sync_src E w A cs i = Ok w1 -> sync_dst E w1 A cd j = Ok w2 ->
  settle_facts_f E w2 w' A cs cd i j st si so tp ->
  swap_flow_f F E w accs n m i j w2 si so tp w' /\ so + tp <= balance w2 (sw_dst_reserves accs) /\
  st <= total w' /\ si <= balance w (sw_user_src accs).
Proof.
  intros HF S1 S2 (w3 & w4 & w5 & w6 & ps' & t & Ht & Hle & _ & T1 & T2 & T3 & S3 & S4 & Hp' & Htot).
  destruct (swap_groups _ _ _ _ _ _ _ _ _ _ _ _ _ _ _ HF) as (G1 & G2 & _).
  destruct (swap_keys _ _ _ _ _ _ _ _ _ _ _ _ _ _ _ HF) as (K1 & K2 & K3 & K4 & K5 & K6 & K7 & _).
  destruct HF as (_ & _ & _ & _ & _ & HP & HL & _).
  unfold sync_src, sync_dst in *. rewrite HP, HL in *.
  pose proof (same_ctl_trans _ _ _ (ctl_same_ctl _ _ (transfer_ctl_f _ _ _ _ _ _ _ _ _ T1))
    (same_ctl_trans _ _ _ (ctl_same_ctl _ _ (transfer_ctl_f _ _ _ _ _ _ _ _ _ T2))
      (ctl_same_ctl _ _ (transfer_ctl_f _ _ _ _ _ _ _ _ _ T3)))) as HC.
  apply transfer_balance_f in T1 as (B1 & M1 & O1 & L1 & _), T2 as (B2 & M2 & O2 & _), T3 as (B3 & M3 & _).
  assert (O0 : w_owner w2 = w_owner w).
  { destruct (sync_tok _ _ _ _ _ _ _ _ _ S1) as (_ & _ & X1). destruct (sync_tok _ _ _ _ _ _ _ _ _ S2) as (_ & _ & X2). congruence. }
  rewrite O1 in O2. rewrite O0 in O1, O2.
  apply sync_revalued in S1, S2, S3, S4.
  assert (Htok : w_tok w2 = w_tok w).
  { pose proof (proj1 (revalued_tokens _ _ _ _ _ _ _ _ S1)). pose proof (proj1 (revalued_tokens _ _ _ _ _ _ _ _ S2)).
    congruence. }
  csplit.
  - unfold swap_flow_f. rewrite G1, G2, K1, K2, K3, K4, K5, K6, K7. cbn [group_prog group_accs tl].
    exists w1, w5, w6. csplit; auto; try congruence; try apply HC.
    intros k. rewrite B3, B2, B1. rewrite (arrives_same w w4), (arrives_same w w3), (arrives_same w w2) by assumption.
    rewrite !on_add. lia.
  - rewrite K7. unfold balance. now rewrite Ht.
  - unfold total, the_pool. now rewrite Hp'.
  - rewrite K3. unfold balance in *. now rewrite <- Htok.
Qed.

Lemma swap_in_run_f E C w accs a w' :
  base_inv w -> process_f D F E C w accs (SwapExactIn a) = Ok w' ->
  let n := si_src_lst_value_calc_accs a in let m := si_dst_lst_value_calc_accs a in
  let gs := group accs 12 n in let gd := group accs (12 + Z.to_nat n) m in
  let gp := skipn (12 + Z.to_nat n + Z.to_nat m) accs in
  exists w2 in_sol in_hi out_sol dst_out dst_hi fee,
    swap_flow_f F E w accs n m (si_src_lst_index a) (si_dst_lst_index a) w2 (si_amount a) dst_out fee w' /\
    e_lst_to_sol E w2 (group_prog gs) (sw_src_mint accs) (group_accs gs) (si_amount a) = Ok (in_sol, in_hi) /\
    e_price_exact_in E w2 (group_prog gp) (sw_src_mint accs) (sw_dst_mint accs) (group_accs gp)
      (si_amount a) in_sol = Ok out_sol /\
    e_sol_to_lst E w2 (group_prog gd) (sw_dst_mint accs) (group_accs gd) out_sol = Ok (dst_out, dst_hi) /\
    calc_swap_protocol_fees in_sol out_sol dst_out (trading_fee_bps w2) = Ok fee /\
    U64 in_sol /\ 0 < in_sol /\ U64 out_sol /\ U64 dst_out /\ 0 < dst_out /\ 0 < si_amount a /\
    si_min_amount_out a <= dst_out /\ 0 <= fee <= U64_MAX /\ 0 <= trading_fee_bps w2 <= 10000 /\
    dst_out + fee <= balance w2 (sw_dst_reserves accs) /\ total w2 <= total w' /\
    si_amount a <= balance w (sw_user_src accs) /\ trading_fee_bps w2 = trading_fee_bps w.
Proof.
  intros Hb H. unfold process_f in H. apply guard_ok in H as (Hwf & H).
  apply swap_exact_in_inv_f in H; auto. wf Hwf.
  destruct H as (A & cs & cd & cp & ps & l & lsrc & ldst & w1 & w2 & ps2 & in_sol & in_hi & out_sol &
    dst_out & dst_hi & tp & HF & Hz & S1 & S2 & Hp2 & I1 & Hz2 & I2 & I3 & Hmin & Hz3 & Hc & HS).
  destruct (settle_flow_f _ _ _ _ _ _ _ _ _ _ _ _ _ _ _ _ _ _ _ _ _ _ HF S1 S2 HS) as (HFl & Hle & Htot & Hsrc).
  destruct (swap_groups _ _ _ _ _ _ _ _ _ _ _ _ _ _ _ HF) as (G1 & G2 & G3).
  destruct (swap_keys _ _ _ _ _ _ _ _ _ _ _ _ _ _ _ HF) as (K1 & K2 & K3 & K4 & K5 & K6 & K7 & _).
  destruct HF as (_ & _ & _ & _ & _ & HP & HL & _ & _ & _ & Hp & _).
  unfold sync_src, sync_dst in S1, S2. rewrite HP, HL in *.
  assert (Hb2 : base_inv w2) by eauto using sync_base.
  pose proof (base_pool _ _ Hb2 Hp2) as (_ & Hf & _). dec_invokes.
  assert (Hfe : trading_fee_bps w2 = trading_fee_bps w).
  { pose proof (vals_trans _ _ _ (sync_vals _ _ _ _ _ _ _ S1) (sync_vals _ _ _ _ _ _ _ S2)) as HV.
    destruct (vals_pool _ _ _ HV Hp) as (v & Hv). unfold trading_fee_bps. unfold the_pool in *.
    rewrite Hv, Hp. reflexivity. }
  assert (Htf : trading_fee_bps w2 = trading_protocol_fee_bps ps2).
  { unfold trading_fee_bps, the_pool. now rewrite Hp2. }
  assert (Ht2 : total w2 = total_sol_value ps2).
  { unfold total, the_pool. now rewrite Hp2. }
  assert (Hfee : 0 <= tp <= U64_MAX).
  { unfold U64 in *. pose proof Hc as Hc'. apply calc_swap_fees_ok in Hc'; lia. }
  cbv zeta. exists w2, in_sol, in_hi, out_sol, dst_out, dst_hi, tp.
  rewrite G1, G2, G3, K1, K2. cbn [group_prog group_accs tl]. unfold U64 in *.
  csplit; auto; try congruence; try lia.
Qed.

Lemma swap_out_run_f E C w accs a w' :
  base_inv w -> process_f D F E C w accs (SwapExactOut a) = Ok w' ->
  let n := so_src_lst_value_calc_accs a in let m := so_dst_lst_value_calc_accs a in
  let gs := group accs 12 n in let gd := group accs (12 + Z.to_nat n) m in
  let gp := skipn (12 + Z.to_nat n + Z.to_nat m) accs in
  exists w2 out_lo out_sol in_sol src_lo src_in fee,
    swap_flow_f F E w accs n m (so_src_lst_index a) (so_dst_lst_index a) w2 src_in (so_amount a) fee w' /\
    e_lst_to_sol E w2 (group_prog gd) (sw_dst_mint accs) (group_accs gd) (so_amount a) = Ok (out_lo, out_sol) /\
    e_price_exact_out E w2 (group_prog gp) (sw_src_mint accs) (sw_dst_mint accs) (group_accs gp)
      (so_amount a) out_sol = Ok in_sol /\
    e_sol_to_lst E w2 (group_prog gs) (sw_src_mint accs) (group_accs gs) in_sol = Ok (src_lo, src_in) /\
    calc_swap_protocol_fees in_sol out_sol (so_amount a) (trading_fee_bps w2) = Ok fee /\
    U64 in_sol /\ U64 out_sol /\ 0 < out_sol /\ U64 src_in /\ 0 < src_in /\ 0 < so_amount a /\
    src_in <= so_max_amount_in a /\ 0 <= fee <= U64_MAX /\ 0 <= trading_fee_bps w2 <= 10000 /\
    so_amount a + fee <= balance w2 (sw_dst_reserves accs) /\ total w2 <= total w' /\
    src_in <= balance w (sw_user_src accs) /\ trading_fee_bps w2 = trading_fee_bps w.
Proof.
  intros Hb H. unfold process_f in H. apply guard_ok in H as (Hwf & H).
  apply swap_exact_out_inv_f in H; auto. wf Hwf.
  destruct H as (A & cs & cd & cp & ps & l & lsrc & ldst & w1 & w2 & ps2 & out_lo & out_sol & in_sol &
    src_lo & src_in & tp & HF & Hz & Hz' & S1 & S2 & Hp2 & I1 & Hz2 & I2 & I3 & Hmax & Hz3 & Hc & HS).
  destruct (settle_flow_f _ _ _ _ _ _ _ _ _ _ _ _ _ _ _ _ _ _ _ _ _ _ HF S1 S2 HS) as (HFl & Hle & Htot & Hsrc).
  destruct (swap_groups _ _ _ _ _ _ _ _ _ _ _ _ _ _ _ HF) as (G1 & G2 & G3).
  destruct (swap_keys _ _ _ _ _ _ _ _ _ _ _ _ _ _ _ HF) as (K1 & K2 & K3 & K4 & K5 & K6 & K7 & _).
  destruct HF as (_ & _ & _ & _ & _ & HP & HL & _ & _ & _ & Hp & _).
  unfold sync_src, sync_dst in S1, S2. rewrite HP, HL in *.
  assert (Hb2 : base_inv w2) by eauto using sync_base.
  pose proof (base_pool _ _ Hb2 Hp2) as (_ & Hf & _). dec_invokes.
  assert (Hfe : trading_fee_bps w2 = trading_fee_bps w).
  { pose proof (vals_trans _ _ _ (sync_vals _ _ _ _ _ _ _ S1) (sync_vals _ _ _ _ _ _ _ S2)) as HV.
    destruct (vals_pool _ _ _ HV Hp) as (v & Hv). unfold trading_fee_bps. unfold the_pool in *.
    rewrite Hv, Hp. reflexivity. }
  assert (Htf : trading_fee_bps w2 = trading_protocol_fee_bps ps2).
  { unfold trading_fee_bps, the_pool. now rewrite Hp2. }
  assert (Ht2 : total w2 = total_sol_value ps2).
  { unfold total, the_pool. now rewrite Hp2. }
  assert (Hfee : 0 <= tp <= U64_MAX).
  { unfold U64 in *. pose proof Hc as Hc'. apply calc_swap_fees_ok in Hc'; lia. }
  cbv zeta. exists w2, out_lo, out_sol, in_sol, src_lo, src_in, tp.
  rewrite G1, G2, G3, K1, K2. cbn [group_prog group_accs tl]. unfold U64 in *.
  csplit; auto; try congruence; try lia.
Qed.

Lemma add_run_f E C w accs a w' :
  base_inv w -> process_f D F E C w accs (AddLiquidity a) = Ok w' ->
  let n := al_lst_value_calc_accs a in
  let g := group accs 11 n in let gp := skipn (11 + Z.to_nat n) accs in
  exists w1 lst_sol lst_hi after to_reserves fee lp,
    add_flow_f F E w accs n (al_lst_index a) w1 to_reserves fee lp w' /\
    e_lst_to_sol E w1 (group_prog g) (lq_mint accs) (group_accs g) (al_lst_amount a) = Ok (lst_sol, lst_hi) /\
    e_price_lp_to_mint E w1 (group_prog gp) (lq_mint accs) (group_accs gp) (al_lst_amount a) lst_sol = Ok after /\
    calc_add_liquidity_protocol_fees (al_lst_amount a) lst_sol after (lp_fee_bps w1) = Ok (to_reserves, fee) /\
    calc_lp_tokens_to_mint (supply w1 (lq_lp_mint accs)) (total w1) after = Ok lp /\
    U64 lst_sol /\ U64 after /\ after <= lst_sol /\ to_reserves + fee = al_lst_amount a /\
    0 < to_reserves /\ 0 <= fee /\ 0 < lp /\ al_min_lp_out a <= lp /\ 0 < al_lst_amount a /\
    0 <= lp_fee_bps w1 <= 10000 /\ lp_fee_bps w1 = lp_fee_bps w /\ total w1 <= total w' /\
    U64 (total w1) /\ U64 (supply w1 (lq_lp_mint accs)) /\ supply w1 = supply w /\
    supply w1 (lq_lp_mint accs) + lp <= U64_MAX /\
    (exists ps, the_pool w = Some ps /\ lq_lp_mint accs = lp_token_mint ps).
Proof.
  intros Hb H. unfold process_f in H. apply guard_ok in H as (Hwf & H).
  apply add_liquidity_inv_f in H; auto. wf Hwf.
  destruct H as (A & c & cp & ps & l & ls & w1 & ps1 & lst_sol & lst_hi & af & tr & tp & mi & lp & w2 &
    w3 & w4 & ps' & HF & Hz & S1 & Hp1 & I1 & I2 & Haf & Hc & Hmi & Hlp & Hz1 & Hz2 & Hmin & T1 & T2 & M1 & S2 &
    Hp' & Htot).
  destruct (liq_groups _ _ _ _ _ _ _ _ _ _ _ _ HF) as (G1 & G2).
  destruct (liq_keys _ _ _ _ _ _ _ _ _ _ _ _ HF) as (K1 & K2 & K3 & K4 & K5 & K6 & _).
  destruct HF as (_ & _ & _ & _ & HP & HL & _ & _ & Hlm & Hp & _).
  unfold sync_liq in *. rewrite HP, HL in *.
  assert (Hb1 : base_inv w1) by eauto using sync_base.
  pose proof (base_pool _ _ Hb1 Hp1) as (Ht & _ & Hf & _). dec_invokes.
  pose proof (proj2 (base_u64 _ Hb1) _ _ Hmi) as Hs.
  assert (Hfe : lp_fee_bps w1 = lp_fee_bps w).
  { destruct (vals_pool _ _ _ (sync_vals _ _ _ _ _ _ _ S1) Hp) as (v & Hv). unfold lp_fee_bps. unfold the_pool in *.
    rewrite Hv, Hp. reflexivity. }
  assert (Htf : lp_fee_bps w1 = lp_protocol_fee_bps ps1) by (unfold lp_fee_bps, the_pool; now rewrite Hp1).
  assert (Ht1 : total w1 = total_sol_value ps1) by (unfold total, the_pool; now rewrite Hp1).
  assert (Ht' : total w' = total_sol_value ps') by (unfold total, the_pool; now rewrite Hp').
  assert (Hsup : supply w1 (mk (la_lp_token_mint A)) = m_supply mi) by (unfold supply; now rewrite Hmi).
  assert (Hss : supply w1 = supply w).
  { pose proof (sync_tok _ _ _ _ _ _ _ _ _ S1) as (_ & Hm & _). unfold supply. now rewrite Hm. }
  pose proof (same_ctl_trans _ _ _ (ctl_same_ctl _ _ (transfer_ctl_f _ _ _ _ _ _ _ _ _ T1))
    (same_ctl_trans _ _ _ (ctl_same_ctl _ _ (transfer_ctl_f _ _ _ _ _ _ _ _ _ T2))
      (ctl_same_ctl _ _ (mint_to_ctl _ _ _ _ _ _ _ _ M1)))) as HC.
  pose proof M1 as M1'. apply mint_to_inv in M1'.
  destruct M1' as (tt & m1 & _ & _ & Hm1 & _ & _ & _ & _ & _ & _ & Hsmax & _).
  apply transfer_balance_f in T1 as (B1 & MM1 & O1 & L1 & _), T2 as (B2 & MM2 & _ & L2 & _).
  assert (O0 : w_owner w1 = w_owner w) by (destruct (sync_tok _ _ _ _ _ _ _ _ _ S1) as (_ & _ & X1); exact X1). rewrite O0 in O1.
  rewrite MM2, MM1, Hmi in Hm1. injection Hm1 as <-.
  apply mint_to_balance in M1 as (B3 & SS & _).
  unfold U64 in *.
  pose proof Hc as Hc'. apply calc_add_fees_ok in Hc' as (Hsum & Hr0 & Hf0 & Hbps & _); try lia.
  pose proof Hlp as Hlp'. apply lp_to_mint_nonneg in Hlp'; try lia.
  assert (Htok : w_tok w1 = w_tok w) by (pose proof (sync_tok _ _ _ _ _ _ _ _ _ S1) as (? & _); auto).
  apply sync_revalued in S1, S2.
  cbv zeta. exists w1, lst_sol, lst_hi, af, tr, tp, lp.
  unfold add_flow_f. rewrite G1, G2, K1, K2, K3, K4, K5, K6. cbn [group_prog group_accs tl].
  csplit; auto; try congruence; try lia.
  - exists w4. csplit; auto; try apply HC.
    + intros M. rewrite SS. unfold supply. now rewrite MM2, MM1.
    + intros k. rewrite B3, B2, B1. rewrite (arrives_same w w2), (arrives_same w w1) by assumption. rewrite !on_add. lia.
  - exists ps. split; auto.
Qed.

Lemma remove_run_f E C w accs a w' :
  base_inv w -> process_f D F E C w accs (RemoveLiquidity a) = Ok w' ->
  let n := rl_lst_value_calc_accs a in
  let g := group accs 11 n in let gp := skipn (11 + Z.to_nat n) accs in
  exists w1 lp_sol after to_user to_user_hi fee,
    remove_flow_f F E w accs n (rl_lst_index a) w1 (rl_lp_token_amount a) to_user fee w' /\
    calc_lp_tokens_sol_value (supply w1 (lq_lp_mint accs)) (total w1) (rl_lp_token_amount a) = Ok lp_sol /\
    e_price_lp_to_redeem E w1 (group_prog gp) (lq_mint accs) (group_accs gp) (rl_lp_token_amount a) lp_sol
      = Ok after /\
    e_sol_to_lst E w1 (group_prog g) (lq_mint accs) (group_accs g) after = Ok (to_user, to_user_hi) /\
    calc_remove_liquidity_protocol_fees lp_sol after to_user (lp_fee_bps w1) = Ok fee /\
    U64 lp_sol /\ U64 after /\ after <= lp_sol /\ 0 < to_user <= U64_MAX /\ rl_min_lst_out a <= to_user /\
    0 <= fee <= U64_MAX /\ 0 < rl_lp_token_amount a /\
    0 <= lp_fee_bps w1 <= 10000 /\ lp_fee_bps w1 = lp_fee_bps w /\
    U64 (total w1) /\ U64 (supply w1 (lq_lp_mint accs)) /\ supply w1 = supply w /\
    rl_lp_token_amount a <= supply w (lq_lp_mint accs) /\
    rl_lp_token_amount a <= balance w (lq_user_lp accs) /\
    (exists ps, the_pool w = Some ps /\ lq_lp_mint accs = lp_token_mint ps).
Proof.
  intros Hb H. unfold process_f in H. apply guard_ok in H as (Hwf & H).
  apply remove_liquidity_inv_f in H; auto. wf Hwf.
  destruct H as (A & c & cp & ps & l & ls & w1 & ps1 & mi & lp_sol & af & tu & tuh & tp & w2 & w3 & w4 &
    HF & Hz & S1 & Hp1 & Hmi & Hlp & I1 & Haf & I2 & Hc & Hz1 & Hmin & B1 & T1 & T2 & S2).
  destruct (liq_groups _ _ _ _ _ _ _ _ _ _ _ _ HF) as (G1 & G2).
  destruct (liq_keys _ _ _ _ _ _ _ _ _ _ _ _ HF) as (K1 & K2 & K3 & K4 & K5 & K6 & _).
  destruct HF as (_ & _ & _ & _ & HP & HL & _ & _ & Hlm & Hp & _).
  unfold sync_liq in *. rewrite HP, HL in *.
  assert (Hb1 : base_inv w1) by eauto using sync_base.
  pose proof (base_pool _ _ Hb1 Hp1) as (Ht & _ & Hf & _). dec_invokes.
  pose proof (proj2 (base_u64 _ Hb1) _ _ Hmi) as Hs.
  assert (Hfe : lp_fee_bps w1 = lp_fee_bps w).
  { destruct (vals_pool _ _ _ (sync_vals _ _ _ _ _ _ _ S1) Hp) as (v & Hv). unfold lp_fee_bps. unfold the_pool in *.
    rewrite Hv, Hp. reflexivity. }
  assert (Htf : lp_fee_bps w1 = lp_protocol_fee_bps ps1) by (unfold lp_fee_bps, the_pool; now rewrite Hp1).
  assert (Ht1 : total w1 = total_sol_value ps1) by (unfold total, the_pool; now rewrite Hp1).
  assert (Hsup : supply w1 (mk (la_lp_token_mint A)) = m_supply mi) by (unfold supply; now rewrite Hmi).
  assert (Hss : supply w1 = supply w).
  { pose proof (sync_tok _ _ _ _ _ _ _ _ _ S1) as (_ & Hm & _). unfold supply. now rewrite Hm. }
  pose proof (same_ctl_trans _ _ _ (ctl_same_ctl _ _ (burn_ctl _ _ _ _ _ _ _ _ B1))
    (same_ctl_trans _ _ _ (ctl_same_ctl _ _ (transfer_ctl_f _ _ _ _ _ _ _ _ _ T1))
      (ctl_same_ctl _ _ (transfer_ctl_f _ _ _ _ _ _ _ _ _ T2)))) as HC.
  apply transfer_balance_f in T1 as (BB1 & MM1 & O2 & L1 & _), T2 as (BB2 & MM2 & _ & L2 & _).
  apply burn_balance in B1 as (BB3 & SS & O1 & L3 & L4).
  assert (O0 : w_owner w1 = w_owner w) by (destruct (sync_tok _ _ _ _ _ _ _ _ _ S1) as (_ & _ & X1); exact X1). rewrite O1 in O2. rewrite O0 in O1, O2.
  unfold U64 in *.
  pose proof Hlp as Hlp'. apply lp_sol_value_le in Hlp' as (Hl0 & Hl1 & _); try lia.
  pose proof Hc as Hc'. apply calc_remove_fees_ok in Hc' as (Hf0 & Hf1 & _); try lia.
  assert (Htok : w_tok w1 = w_tok w) by (pose proof (sync_tok _ _ _ _ _ _ _ _ _ S1) as (? & _); auto).
  apply sync_revalued in S1, S2.
  cbv zeta. exists w1, lp_sol, af, tu, tuh, tp.
  unfold remove_flow_f. rewrite G1, G2, K1, K2, K3, K4, K5, K6. cbn [group_prog group_accs tl].
  csplit; auto; try congruence; try lia.
  - exists w4. csplit; auto; try apply HC.
    + intros M. transitivity (supply w2 M); [unfold supply; now rewrite MM2, MM1 | apply SS].
    + intros k. rewrite BB2, BB1, BB3. rewrite (arrives_same w w3), (arrives_same w w2) by assumption. rewrite !on_add. lia.
  - unfold balance in *. now rewrite <- Htok.
  - exists ps. split; auto.
Qed.

(** The controller's list and its LP mint stay what they are, and so do the token accounts: the invariants of ata_inv. *)
Lemma keeps_ata w w' : shape w w' ->
  (forall l', the_list w' = Some l' -> exists l, the_list w = Some l /\ map strip l' = map strip l) ->
  (forall ps', the_pool w' = Some ps' -> exists ps, the_pool w = Some ps /\ lp_token_mint ps' = lp_token_mint ps) ->
  ata_inv D w -> ata_inv D w'.
Proof.
  intros Hs Hl Hp (Ha & Hla & Hlp). split; [eapply shape_ata; eauto|]. split.
  - intros l' Hl'. destruct (Hl l' Hl') as (l & Hl0 & Hst). eapply strip_Forall; [exact Hst|].
    eapply Forall_impl; [|exact (Hla l Hl0)]. intros. eapply shape_lst; eauto.
  - intros ps' Hp'. destruct (Hp ps' Hp') as (ps & Hp0 & Em). destruct (Hlp ps Hp0) as (Ho & i & Hi & Hia).
    pose proof Hs as (So & _ & Sm). rewrite Em, So. split; [exact Ho|]. specialize (Sm (lp_token_mint ps)). rewrite Hi in Sm.
    destruct (w_mint w' _) as [i'|]; [|tauto]. eauto.
Qed.
Lemma vals_keeps w w' : vals_only w w' -> inv w ->
  (forall l', the_list w' = Some l' -> exists l, the_list w = Some l /\ map strip l' = map strip l) /\
  (forall ps', the_pool w' = Some ps' -> exists ps, the_pool w = Some ps /\ lp_token_mint ps' = lp_token_mint ps).
Proof.
  intros HV ((l & au & Hl & _ & _ & _ & _ & _ & HP) & _). split.
  - intros l' Hl'. destruct (vals_list _ _ _ HV Hl) as (l2 & Hl2 & Hst). assert (l2 = l') by congruence. subst l2. eauto.
  - intros ps' Hp'. destruct (the_pool w) as [ps|] eqn:Hp.
    + destruct (vals_pool _ _ _ HV Hp) as (v & Hv). assert (ps' = set_total ps v) by congruence. subst ps'. exists ps. auto.
    + exfalso. destruct HV as (_ & _ & [HV|(? & ? & HV & _)] & _); congruence.
Qed.

Lemma swap_shape_f ix E w accs w' : match ix with
    | SwapExactIn a => ix_wfb ix = true /\ process_swap_exact_in_f D F E w accs a = Ok w'
    | SwapExactOut a => ix_wfb ix = true /\ process_swap_exact_out_f D F E w accs a = Ok w'
    | _ => False end -> shape w w'.
Proof.
  destruct ix; try tauto; intros (Hwf & H); [apply swap_exact_in_inv_f in H|apply swap_exact_out_inv_f in H]; auto; decompose [ex and] H; clear H;
    repeat match goal with
    | X : sync_src _ _ _ _ _ = Ok _ |- _ => apply sync_shape in X
    | X : sync_dst _ _ _ _ _ = Ok _ |- _ => apply sync_shape in X
    | X : settle_facts_f _ _ _ _ _ _ _ _ _ _ _ _ |- _ => apply settle_shape_f in X end;
    eauto using shape_trans.
Qed.

Lemma start_keeps_f E C w accs a w' : ix_wfb (StartRebalance a) = true ->
  process_start_rebalance_f D F E C w accs a = Ok w' -> inv w -> ata_inv D w -> inv w' /\ ata_inv D w'.
Proof.
  intros Hwf H (Hb & Hf) Hat. apply start_rebalance_inv_f in H. wf Hwf.
  destruct H as (x1&x2&x3&x4&x5&x6&x7&x8&x9&x10&x11&x12&cs&cd&ps&l&lsrc&ldst&ts&td&w1&w2&ps2&w3&w4&ps4&
    _ & _ & _ & _ & _ & _ & _ & _ & _ & Hp & Hac & Hl & _ & Hnd & _ & _ & _ & _ & _ & _ & _ & _ & _ & _ & _ & _ &
    S1 & S2 & Hp2 & T & S3 & Hr4 & Hp4 & ->).
  assert (Hb2 : base_inv w2).
  { eapply sync_base; [exact S2|]. eapply sync_base; [exact S1|exact Hb]. }
  assert (Hb4 : base_inv w4).
  { eapply sync_base; [exact S3|]. eapply transfer_base_f; [|exact T|exact Hb2]. lia. }
  pose proof (base_pool _ _ Hb2 Hp2) as Hok2. pose proof (base_pool _ _ Hb4 Hp4) as Hok4.
  assert (HV : vals_only w w4).
  { eapply vals_trans; [eapply sync_vals, S1|]. eapply vals_trans; [eapply sync_vals, S2|].
    eapply vals_trans; [eapply ctl_vals, transfer_ctl_f, T|]. eapply sync_vals, S3. }
  destruct (vals_pool _ _ _ HV Hp) as (v & Hpv).
  assert (ps4 = set_total ps v) by (unfold the_pool in Hpv; congruence). subst ps4.
  destruct (vals_list _ _ _ HV Hl) as (l' & Hl' & Hst).
  split; [split|].
  - eapply put_pool_base; [exact Hp4| | |apply put_rec_base, Hb4]; auto. unfold pool_ok in *. cbn. tauto.
  - unfold flag_inv, the_pool, the_record, the_list in *. cbn. rewrite !upd_same. right. cbn.
    csplit; auto; [apply Hac|]. eexists _, l'. csplit; eauto; cbn; try apply Hok2; try lia.
    destruct (strip_nth _ _ _ _ Hst Hnd) as (? & Hx & _). unfold nth_lst. congruence.
  - apply sync_shape in S1, S2, S3. apply transfer_shape_f in T.
    eapply keeps_ata; [| | |exact Hat].
    + do 3 (eapply shape_trans; [eassumption|]). exact S3.
    + unfold the_list in *. cbn. intros l0 Hl0. assert (l0 = l') by congruence. subst l0. eauto.
    + unfold the_pool in *. cbn. rewrite upd_same. intros ps0 [= <-]. exists ps. auto.
Qed.

Lemma process_keeps_f (HD : derive_ok D) E C w accs ix w' :
  process_f D F E C w accs ix = Ok w' -> inv w -> ata_inv D w -> inv w' /\ ata_inv D w'.
Proof.
  intros H Hi Ha. unfold process_f in H. apply guard_ok in H as (Hwf & H).
  assert (Hgen : forall ix', process D E C w accs ix' = Ok w' -> inv w' /\ ata_inv D w').
  { intros ix' H'. destruct Hi as (Hb & Hf). split; [split; [eapply process_base|eapply process_flag]; eauto|].
    eapply process_ata_inv; eauto. split; auto. }
  assert (Hv : vals_only w w' /\ (base_inv w -> base_inv w') -> shape w w' -> inv w' /\ ata_inv D w').
  { intros (HV & HB) Hs. pose proof Hi as (Hb & Hf). split; [split; [auto|eapply vals_flag; eauto]|].
    destruct (vals_keeps _ _ HV Hi) as (K1 & K2). eapply keeps_ata; eauto. }
  destruct ix; eauto.
  - apply Hv; [eapply swap_in_vals_f; eauto|]. apply (swap_shape_f (SwapExactIn a) E w accs w'). auto.
  - apply Hv; [eapply swap_out_vals_f; eauto|]. apply (swap_shape_f (SwapExactOut a) E w accs w'). auto.
  - apply Hv; [eapply add_liq_vals_f; eauto|]. apply add_liquidity_inv_f in H; auto.
    destruct H as (A & c & cp & ps & l & ls & w1 & ps1 & lst_sol & lst_hi & af & tr & tp & mi & lp & w2 &
    w3 & w4 & ps' & HF & _ & S1 & Hp1 & I1 & I2 & Haf & Hc & Hmi & Hlp & _ & _ & _ & T1 & T2 & M1 & S2 & _).
    apply sync_shape in S1, S2. apply transfer_shape_f in T1, T2. apply mint_to_shape in M1.
    do 4 (eapply shape_trans; [eassumption|]). assumption.
  - apply Hv; [eapply remove_liq_vals_f; eauto|]. apply remove_liquidity_inv_f in H; auto.
    destruct H as (A & c & cp & ps & l & ls & w1 & ps1 & mi & lp_sol & af & tu & tuh & tp & w2 & w3 & w4 &
    HF & _ & S1 & Hp1 & Hmi & Hlp & I1 & Haf & I2 & Hc & _ & _ & B1 & T1 & T2 & S2).
    apply sync_shape in S1, S2. apply transfer_shape_f in T1, T2. apply burn_shape in B1.
    do 4 (eapply shape_trans; [eassumption|]). assumption.
  - destruct (withdraw_ctl_f _ _ _ _ H) as (Hc & HB). wf Hwf. apply Hv; [split; [apply ctl_vals, Hc|intros; apply HB; [lia|assumption]]|].
    apply withdraw_inv_f in H. decompose [ex and] H. eapply transfer_shape_f; eauto.
  - eapply start_keeps_f; eauto.
Qed.

Lemma fee_steps_keep (HD : derive_ok D) w w' : fee_steps D F w w' -> inv w -> ata_inv D w -> inv w' /\ ata_inv D w'.
Proof.
  induction 1 as [|w1 w2 _ IH Hs]; auto. intros Hi Ha. destruct (IH Hi Ha) as (Hi1 & Ha1). destruct Hs as [Hx|E C accs ix _ Hp].
  - split; [eapply external_inv; eauto|eapply external_ata_inv; eauto].
  - eapply process_keeps_f; eauto.
Qed.
Theorem fee_reachable_inv (HD : derive_ok D) w : fee_reachable D F w -> inv w /\ ata_inv D w.
Proof.
  intros (w0 & Hg & Hs). eapply fee_steps_keep; eauto.
  - eapply genesis_inv; eauto.
  - destruct Hg as (Hp & Hl & _ & _ & _ & Ha). split; auto. split.
    + intros l Hll. assert (l = []) by congruence. subst. constructor.
    + congruence.
Qed.

(** Whose accounts the trades name (MoneyProofs.v's, for the instructions with fees). *)
Lemma transfer_parties_f w prog from to mint auth s amt w' w0 :
  transfer_fee F w prog from to mint auth s amt = Ok w' -> shape w0 w ->
  (exists t, w_tok w0 from = Some t /\ ta_mint t = mint /\ ta_owner t = auth) /\
  (exists t, w_tok w0 to = Some t /\ ta_mint t = mint) /\ s = true /\ shape w0 w'.
Proof.
  intros H Hs. pose proof (transfer_shape_f _ _ _ _ _ _ _ _ _ H) as Hsh. apply transfer_inv_f in H.
  destruct H as (f & t & m & _ & Hf & Ht & _ & _ & _ & _ & Mf & Mt & Of & Hsg & _).
  destruct (shape_back _ _ _ _ Hs Hf) as (f0 & F1 & F2 & F3).
  destruct (shape_back _ _ _ _ Hs Ht) as (t0 & T1 & T2 & T3).
  csplit; eauto using shape_trans; [exists f0 | exists t0]; csplit; auto; congruence.
Qed.

Lemma settle_parties_f E w accs n m i j A cs cd cp ps l lsrc ldst w1 w2 st si so tp w' :
  swap_facts D w accs n m i j A cs cd cp ps l lsrc ldst ->
  sync_src E w A cs i = Ok w1 -> sync_dst E w1 A cd j = Ok w2 ->
  settle_facts_f E w2 w' A cs cd i j st si so tp ->
  swap_parties D w accs lsrc ldst.
Proof.
  intros HF S1 S2 (w3 & w4 & w5 & w6 & ps' & t & Ht & Hle & _ & T1 & T2 & T3 & _).
  destruct (swap_keys _ _ _ _ _ _ _ _ _ _ _ _ _ _ _ HF) as (K1 & K2 & K3 & K4 & K5 & K6 & K7 & K8).
  unfold sync_src, sync_dst in *.
  assert (Sh : shape w w2) by (eapply shape_trans; eapply sync_shape; eauto).
  destruct (transfer_parties_f _ _ _ _ _ _ _ _ _ _ T1 Sh) as ((u & U1 & U2 & U3) & HR & Hs & Sh1).
  destruct (transfer_parties_f _ _ _ _ _ _ _ _ _ _ T2 Sh1) as ((r & R1 & R2 & R3) & HP & _ & Sh2).
  destruct (transfer_parties_f _ _ _ _ _ _ _ _ _ _ T3 Sh2) as (_ & HU & _).
  destruct HF as (Hac & Hn & Hm & Hsig & Hwr & HP0 & HL & HT1 & HT2 & Hne & Hp & Hact & Hl & N1 & N2 & M1 & M2 & Hin &
    D1 & D2 & D3 & _).
  unfold swap_parties. rewrite K1, K2, K3, K4, K5, K6, K7, K8.
  csplit; auto.
  - exists u. csplit; auto. exists (sa_signer A). rewrite Hac. cbn. auto.
  - exists r. csplit; auto; congruence.
Qed.

Lemma swap_in_parties_f E C w accs a w' :
  process_f D F E C w accs (SwapExactIn a) = Ok w' ->
  exists l lsrc ldst, the_list w = Some l /\ nth_error l (Z.to_nat (si_src_lst_index a)) = Some lsrc /\
    nth_error l (Z.to_nat (si_dst_lst_index a)) = Some ldst /\ swap_parties D w accs lsrc ldst.
Proof.
  intros H. unfold process_f in H. apply guard_ok in H as (Hwf & H).
  apply swap_exact_in_inv_f in H; auto.
  destruct H as (A & cs & cd & cp & ps & l & lsrc & ldst & w1 & w2 & ps2 & in_sol & in_hi & out_sol &
      dst_out & dst_hi & tp & HF & _ & S1 & S2 & _ & _ & _ & _ & _ & _ & _ & _ & HS).
  exists l, lsrc, ldst. pose proof HF as (_ & _ & _ & _ & _ & _ & _ & _ & _ & _ & _ & _ & Hl & N1 & N2 & _).
  csplit; eauto using settle_parties_f.
Qed.
Lemma swap_out_parties_f E C w accs a w' :
  process_f D F E C w accs (SwapExactOut a) = Ok w' ->
  exists l lsrc ldst, the_list w = Some l /\ nth_error l (Z.to_nat (so_src_lst_index a)) = Some lsrc /\
    nth_error l (Z.to_nat (so_dst_lst_index a)) = Some ldst /\ swap_parties D w accs lsrc ldst.
Proof.
  intros H. unfold process_f in H. apply guard_ok in H as (Hwf & H).
  apply swap_exact_out_inv_f in H; auto.
  destruct H as (A & cs & cd & cp & ps & l & lsrc & ldst & w1 & w2 & ps2 & in_sol & in_hi & out_sol &
      dst_out & dst_hi & tp & HF & _ & _ & S1 & S2 & _ & _ & _ & _ & _ & _ & _ & _ & HS).
  exists l, lsrc, ldst. pose proof HF as (_ & _ & _ & _ & _ & _ & _ & _ & _ & _ & _ & _ & Hl & N1 & N2 & _).
  csplit; eauto using settle_parties_f.
Qed.
Lemma add_parties_f E C w accs a w' :
  process_f D F E C w accs (AddLiquidity a) = Ok w' ->
  exists l ls t, the_list w = Some l /\ nth_error l (Z.to_nat (al_lst_index a)) = Some ls /\
    is_input_disabled ls = 0 /\
    liq_parties D w accs ls /\ w_tok w (lq_user_lst accs) = Some t /\ ta_owner t = key_at accs 0 /\
    signed_by accs (key_at accs 0).
Proof.
  intros H. unfold process_f in H. apply guard_ok in H as (Hwf & H).
  apply add_liquidity_inv_f in H; auto.
  destruct H as (A & c & cp & ps & l & ls & w1 & ps1 & lst_sol & lst_hi & af & tr & tp & mi & lp & w2 &
    w3 & w4 & ps' & HF & Hz & S1 & Hp1 & I1 & I2 & Haf & Hc & Hmi & Hlp & Hz1 & Hz2 & Hmin & T1 & T2 & M1 & S2 &
    Hp' & Htot).
  destruct (liq_keys _ _ _ _ _ _ _ _ _ _ _ _ HF) as (K1 & K2 & K3 & K4 & K5 & K6 & K7).
  assert (Sh : shape w w1) by (eapply sync_shape; eauto).
  destruct (transfer_parties_f _ _ _ _ _ _ _ _ _ _ T1 Sh) as ((u & U1 & U2 & U3) & HR & Hs & Sh1).
  destruct (transfer_parties_f _ _ _ _ _ _ _ _ _ _ T2 Sh1) as (_ & HP & _ & Sh2).
  apply mint_to_inv in M1. destruct M1 as (tt & m1 & _ & Ht & _ & _ & _ & Mt & _).
  destruct (shape_back _ _ _ _ Sh2 Ht) as (t0 & Ht0 & Ht1 & _).
  destruct HF as (Hac & Hn & Hsig & Hwr & HP0 & HL & HT1 & HT2 & Hlm & Hp & Hact & Hl & N1 & Hm & Hin &
    D1 & D2 & _).
  exists l, ls, u. unfold liq_parties. rewrite K1, K2, K3, K4, K5, K6, K7. csplit; eauto.
  - exists t0. split; auto. congruence.
  - exists (la_signer A). rewrite Hac. cbn. auto.
Qed.
Lemma remove_parties_f E C w accs a w' :
  process_f D F E C w accs (RemoveLiquidity a) = Ok w' ->
  exists l ls t, the_list w = Some l /\ nth_error l (Z.to_nat (rl_lst_index a)) = Some ls /\
    liq_parties D w accs ls /\ w_tok w (lq_user_lp accs) = Some t /\ ta_owner t = key_at accs 0 /\
    signed_by accs (key_at accs 0).
Proof.
  intros H. unfold process_f in H. apply guard_ok in H as (Hwf & H).
  apply remove_liquidity_inv_f in H; auto.
  destruct H as (A & c & cp & ps & l & ls & w1 & ps1 & mi & lp_sol & af & tu & tuh & tp & w2 & w3 & w4 &
    HF & Hz & S1 & Hp1 & Hmi & Hlp & I1 & Haf & I2 & Hc & Hz1 & Hmin & B1 & T1 & T2 & S2).
  destruct (liq_keys _ _ _ _ _ _ _ _ _ _ _ _ HF) as (K1 & K2 & K3 & K4 & K5 & K6 & K7).
  assert (Sh : shape w w1) by (eapply sync_shape; eauto).
  pose proof (burn_shape _ _ _ _ _ _ _ _ B1) as Shb.
  pose proof (shape_trans _ _ _ Sh Shb) as Sh1.
  destruct (transfer_parties_f _ _ _ _ _ _ _ _ _ _ T1 Sh1) as (HR & HU & Hs & Sh2).
  destruct (transfer_parties_f _ _ _ _ _ _ _ _ _ _ T2 Sh2) as (_ & HP & _ & _).
  apply burn_inv in B1. destruct B1 as (tt & m1 & _ & Ht & _ & _ & _ & Mt & Ot & _).
  destruct (shape_back _ _ _ _ Sh Ht) as (t0 & Ht0 & Ht1 & Ht2).
  destruct HF as (Hac & Hn & Hsig & Hwr & HP0 & HL & HT1 & HT2 & Hlm & Hp & Hact & Hl & N1 & Hm & Hin &
    D1 & D2 & _).
  destruct HR as (r & R1 & R2 & R3).
  exists l, ls, t0. unfold liq_parties. rewrite K1, K2, K3, K4, K5, K6, K7. csplit; eauto; try congruence.
  - exists t0. split; auto. congruence.
  - exists (la_signer A). rewrite Hac. cbn. auto.
Qed.

End WithFee.
