(** Success-inversion of the 23 processors: the checked facts, with canonical keys, and the
    resulting world. Account keys are named after the generated account structs. *)
From Coq Require Import ZArith List Bool Lia.
From Verif Require Import Base Ratio Calc State Controller Inversion.
Import ListNotations.
Open Scope Z_scope.

Ltac unf := unfold pool_field in *; unfold verify_keys_privs, check_pool_key, check_list_key, try_pool_state,
  try_lst_state_list, try_disable_pool_authority_list, try_rebalance_record,
  create_pool_reserves_address, create_protocol_fee_accumulator_address, token_account_balance,
  token_account_mint, mint_supply, verify_is_program, verify_swap_not_same_lst in *.
Ltac keys :=
  repeat match goal with
  | H : keys_match _ _ = true |- _ => cbn [keys_match] in H
  | H : privileges_ok _ _ = true |- _ => unfold privileges_ok in H; cbn [forallb] in H
  | H : verify_not_rebalancing_and_not_disabled _ = Ok _ |- _ => apply verify_active in H
  | H : verify_lst_input_not_disabled _ = Ok _ |- _ => apply verify_input_enabled in H
  | H : try_match_lst_mint_on_list _ _ _ = Ok _ |- _ =>
      apply try_match_ok in H; let H2 := fresh "Hmint" in destruct H as [H H2]
  | H : verify_admin_or_disable_pool_authority _ _ _ _ = Ok _ |- _ =>
      apply verify_admin_or_auth in H
  end.
(* merge duplicate lookups *)
Ltac dedup :=
  repeat match goal with
  | H1 : ?x = Some ?a, H2 : ?x = Some ?b |- _ =>
      first [ constr_eq a b; clear H2
            | assert (a = b) by congruence; clear H2; subst ]
  end.
(* normalise keys: canonical keys replace account keys, derived keys are named by the account *)
Ltac canon_key k :=
  match k with
  | POOL_STATE_ID => idtac | LST_STATE_LIST_ID => idtac | DISABLE_POOL_AUTHORITY_LIST_ID => idtac
  | REBALANCE_RECORD_ID => idtac | PROTOCOL_FEE_ID => idtac | SPL_TOKEN_ID => idtac
  | INITIAL_AUTHORITY_ID => idtac
  end.
Ltac norm :=
  repeat match goal with
  | H1 : ls_mint ?x = ?m, H2 : ?m = ls_mint ?x |- _ => clear H2
  | H : mk ?a = ?v |- _ => is_var v; subst v
  | H : mk ?a = ?k |- _ => canon_key k;
      progress (repeat match goal with
                | H' : context [mk a] |- _ => tryif constr_eq H H' then fail else rewrite H in H'
                | |- context [mk a] => rewrite H
                end)
  | H1 : ls_mint ?x = ?m, H2 : context [d_create _ _ _ (ls_mint ?x) _] |- _ => rewrite H1 in H2
  | H : ?k = ?k |- _ => clear H
  end; dedup.
Ltac go := repeat (unf; inv_ok; keys); norm.
Ltac fin :=
  repeat match goal with
  | |- exists _, _ => eexists
  end;
  repeat match goal with
  | |- _ /\ _ => split
  | |- ?x = ?x => reflexivity
  | _ => eassumption
  | _ => reflexivity
  | _ => solve [eauto | congruence]
  end.

Section WithDerive.
Variable D : Derive.

Lemma sync_proc_inv E w accs i w' :
  process_sync_sol_value D E w accs i = Ok w' ->
  exists lst_mint pool_state lst_state_list pool_reserves ps l ls c,
    accs = lst_mint :: pool_state :: lst_state_list :: pool_reserves :: cpi_prog c :: cpi_accs c /\
    mk pool_state = POOL_STATE_ID /\ mk lst_state_list = LST_STATE_LIST_ID /\
    is_writable pool_state = true /\ is_writable lst_state_list = true /\
    w_pool w POOL_STATE_ID = Some ps /\ active ps /\
    w_list w LST_STATE_LIST_ID = Some l /\ nth_lst l i = Some ls /\ ls_mint ls = mk lst_mint /\
    d_create D POOL_STATE_ID (w_owner w (mk lst_mint)) (mk lst_mint) (pool_reserves_bump ls) =
      Some (mk pool_reserves) /\
    mk (cpi_prog c) = sol_value_calculator ls /\
    sync_sol_value_unchecked E w POOL_STATE_ID LST_STATE_LIST_ID (mk pool_reserves) c
      (mk lst_mint) i = Ok w'.
Proof.
  intros H. unfold process_sync_sol_value in H. do 4 split_accs H.
  unfold resolve_sync_sol_value in H. go.
  match goal with H : verify_lst_sol_val_calc_cpi _ _ _ _ = Ok _ |- _ =>
    apply verify_lst_cpi_ok in H; destruct H as (? & ? & -> & ? & ? & ?) end. dedup.
  fin.
Qed.

(** Facts established by the swap preamble. *)
Definition swap_facts (w : World) (accs : list Meta) (n m i j : Z) (A : SwapAccounts)
  (cs cd cp : Cpi) (ps : PoolState) (l : list LstState) (lsrc ldst : LstState) : Prop :=
  accs = [sa_signer A; sa_src_lst_mint A; sa_dst_lst_mint A; sa_src_lst_acc A; sa_dst_lst_acc A;
          sa_protocol_fee_accumulator A; sa_src_lst_token_program A; sa_dst_lst_token_program A;
          sa_pool_state A; sa_lst_state_list A; sa_src_pool_reserves A; sa_dst_pool_reserves A] ++
         (cpi_prog cs :: cpi_accs cs) ++ (cpi_prog cd :: cpi_accs cd) ++
         (cpi_prog cp :: cpi_accs cp) /\
  length (cpi_prog cs :: cpi_accs cs) = Z.to_nat n /\
  length (cpi_prog cd :: cpi_accs cd) = Z.to_nat m /\
  is_signer (sa_signer A) = true /\
  forallb is_writable [sa_src_lst_acc A; sa_dst_lst_acc A; sa_protocol_fee_accumulator A;
    sa_pool_state A; sa_lst_state_list A; sa_src_pool_reserves A; sa_dst_pool_reserves A] = true /\
  mk (sa_pool_state A) = POOL_STATE_ID /\ mk (sa_lst_state_list A) = LST_STATE_LIST_ID /\
  mk (sa_src_lst_token_program A) = w_owner w (mk (sa_src_lst_mint A)) /\
  mk (sa_dst_lst_token_program A) = w_owner w (mk (sa_dst_lst_mint A)) /\
  mk (sa_src_lst_mint A) <> mk (sa_dst_lst_mint A) /\
  w_pool w POOL_STATE_ID = Some ps /\ active ps /\
  w_list w LST_STATE_LIST_ID = Some l /\
  nth_lst l i = Some lsrc /\ nth_lst l j = Some ldst /\
  ls_mint lsrc = mk (sa_src_lst_mint A) /\ ls_mint ldst = mk (sa_dst_lst_mint A) /\
  is_input_disabled lsrc = 0 /\
  d_create D POOL_STATE_ID (w_owner w (mk (sa_src_lst_mint A))) (mk (sa_src_lst_mint A))
    (pool_reserves_bump lsrc) = Some (mk (sa_src_pool_reserves A)) /\
  d_create D POOL_STATE_ID (w_owner w (mk (sa_dst_lst_mint A))) (mk (sa_dst_lst_mint A))
    (pool_reserves_bump ldst) = Some (mk (sa_dst_pool_reserves A)) /\
  d_create D PROTOCOL_FEE_ID (w_owner w (mk (sa_dst_lst_mint A))) (mk (sa_dst_lst_mint A))
    (protocol_fee_accumulator_bump ldst) = Some (mk (sa_protocol_fee_accumulator A)) /\
  mk (cpi_prog cs) = sol_value_calculator lsrc /\ mk (cpi_prog cd) = sol_value_calculator ldst /\
  mk (cpi_prog cp) = pricing_program ps.

Lemma verify_swap_inv w accs n m i j A cs cd cp :
  0 <= n -> 0 <= m ->
  verify_swap D w accs n m i j = Ok (A, (cs, cd, cp)) ->
  exists ps l lsrc ldst, swap_facts w accs n m i j A cs cd cp ps l lsrc ldst.
Proof.
  intros Hn Hm H. unfold verify_swap in H. do 12 split_accs H.
  unfold resolve_swap in H. go. cbn [sa_signer sa_src_lst_mint sa_dst_lst_mint sa_src_lst_acc
    sa_dst_lst_acc sa_protocol_fee_accumulator sa_src_lst_token_program sa_dst_lst_token_program
    sa_pool_state sa_lst_state_list sa_src_pool_reserves sa_dst_pool_reserves] in *.
  match goal with H : verify_swap_cpis _ _ _ _ _ _ _ _ = Ok _ |- _ =>
    apply verify_swap_cpis_ok in H; [destruct H as (? & ? & ? & ? & -> & ? & ? & ? & ? & ? & ? & ? & ? & ?)|assumption|assumption] end.
  dedup.
  unfold swap_facts. fin.
  cbn. repeat match goal with H : is_writable _ = true |- _ => rewrite H; clear H end. reflexivity.
Qed.

(** The common tail of both swaps. *)
Definition settle_facts E (w w' : World) A cs cd i j start_total src_in dst_out to_protocol : Prop :=
  exists w1 w2 w3 w4 ps' t,
    w_tok w (mk (sa_dst_pool_reserves A)) = Some t /\
    dst_out + to_protocol <= ta_amount t /\ dst_out + to_protocol <= U64_MAX /\
    transfer_checked w (mk (sa_src_lst_token_program A)) (mk (sa_src_lst_acc A))
      (mk (sa_src_pool_reserves A)) (mk (sa_src_lst_mint A)) (mk (sa_signer A))
      (is_signer (sa_signer A)) src_in = Ok w1 /\
    transfer_checked w1 (mk (sa_dst_lst_token_program A)) (mk (sa_dst_pool_reserves A))
      (mk (sa_protocol_fee_accumulator A)) (mk (sa_dst_lst_mint A)) (mk (sa_pool_state A))
      true to_protocol = Ok w2 /\
    transfer_checked w2 (mk (sa_dst_lst_token_program A)) (mk (sa_dst_pool_reserves A))
      (mk (sa_dst_lst_acc A)) (mk (sa_dst_lst_mint A)) (mk (sa_pool_state A)) true dst_out = Ok w3 /\
    sync_src E w3 A cs i = Ok w4 /\ sync_dst E w4 A cd j = Ok w' /\
    w_pool w' (mk (sa_pool_state A)) = Some ps' /\ start_total <= total_sol_value ps'.

Lemma settle_inv E w A cs cd i j st si so tp w' :
  swap_settle E w A cs cd i j st si so tp = Ok w' ->
  settle_facts E w w' A cs cd i j st si so tp.
Proof. unfold swap_settle, settle_facts. intros H. repeat (unf; inv_ok). fin. Qed.

Lemma swap_exact_in_inv E w accs a w' :
  ix_wfb (SwapExactIn a) = true ->
  process_swap_exact_in D E w accs a = Ok w' ->
  exists A cs cd cp ps l lsrc ldst w1 w2 ps2 in_sol in_hi out_sol dst_out dst_hi to_protocol,
    swap_facts w accs (si_src_lst_value_calc_accs a) (si_dst_lst_value_calc_accs a)
      (si_src_lst_index a) (si_dst_lst_index a) A cs cd cp ps l lsrc ldst /\
    si_amount a <> 0 /\
    sync_src E w A cs (si_src_lst_index a) = Ok w1 /\
    sync_dst E w1 A cd (si_dst_lst_index a) = Ok w2 /\
    w_pool w2 POOL_STATE_ID = Some ps2 /\
    invoke_lst_to_sol E w2 cs (mk (sa_src_lst_mint A)) (si_amount a) = Ok (in_sol, in_hi) /\
    in_sol <> 0 /\
    invoke_price_exact_in E w2 cp (mk (sa_src_lst_mint A)) (mk (sa_dst_lst_mint A)) (si_amount a)
      in_sol = Ok out_sol /\
    invoke_sol_to_lst E w2 cd (mk (sa_dst_lst_mint A)) out_sol = Ok (dst_out, dst_hi) /\
    si_min_amount_out a <= dst_out /\ dst_out <> 0 /\
    calc_swap_protocol_fees in_sol out_sol dst_out (trading_protocol_fee_bps ps2) = Ok to_protocol /\
    settle_facts E w2 w' A cs cd (si_src_lst_index a) (si_dst_lst_index a) (total_sol_value ps2)
      (si_amount a) dst_out to_protocol.
Proof.
  intros Hwf H. unfold process_swap_exact_in in H. inv_ok.
  match goal with H : verify_swap _ _ _ _ _ _ _ = Ok _ |- _ =>
    apply verify_swap_inv in H; [destruct H as (ps & l & lsrc & ldst & HF)| |] end;
  [| cbn in Hwf; unfold u8b in Hwf; inv_ok; assumption
   | cbn in Hwf; unfold u8b in Hwf; inv_ok; assumption].
  pose proof HF as HF'. unfold swap_facts in HF'.
  destruct HF' as (_ & _ & _ & _ & _ & HP & HL & _).
  unf. rewrite HP in *. inv_ok. dedup.
  match goal with H : swap_settle _ _ _ _ _ _ _ _ _ _ _ = Ok _ |- _ => apply settle_inv in H end.
  fin.
Qed.

Lemma swap_exact_out_inv E w accs a w' :
  ix_wfb (SwapExactOut a) = true ->
  process_swap_exact_out D E w accs a = Ok w' ->
  exists A cs cd cp ps l lsrc ldst w1 w2 ps2 out_lo out_sol in_sol src_lo src_in to_protocol,
    swap_facts w accs (so_src_lst_value_calc_accs a) (so_dst_lst_value_calc_accs a)
      (so_src_lst_index a) (so_dst_lst_index a) A cs cd cp ps l lsrc ldst /\
    so_amount a <> 0 /\ so_max_amount_in a <> 0 /\
    sync_src E w A cs (so_src_lst_index a) = Ok w1 /\
    sync_dst E w1 A cd (so_dst_lst_index a) = Ok w2 /\
    w_pool w2 POOL_STATE_ID = Some ps2 /\
    invoke_lst_to_sol E w2 cd (mk (sa_dst_lst_mint A)) (so_amount a) = Ok (out_lo, out_sol) /\
    out_sol <> 0 /\
    invoke_price_exact_out E w2 cp (mk (sa_src_lst_mint A)) (mk (sa_dst_lst_mint A)) (so_amount a)
      out_sol = Ok in_sol /\
    invoke_sol_to_lst E w2 cs (mk (sa_src_lst_mint A)) in_sol = Ok (src_lo, src_in) /\
    src_in <= so_max_amount_in a /\ src_in <> 0 /\
    calc_swap_protocol_fees in_sol out_sol (so_amount a) (trading_protocol_fee_bps ps2)
      = Ok to_protocol /\
    settle_facts E w2 w' A cs cd (so_src_lst_index a) (so_dst_lst_index a) (total_sol_value ps2)
      src_in (so_amount a) to_protocol.
Proof.
  intros Hwf H. unfold process_swap_exact_out in H. inv_ok.
  match goal with H : negb (_ || _) = true |- _ =>
    rewrite negb_orb in H; apply andb_true_iff in H; destruct H as [Hz1 Hz2] end.
  inv_ok.
  match goal with H : verify_swap _ _ _ _ _ _ _ = Ok _ |- _ =>
    apply verify_swap_inv in H; [destruct H as (ps & l & lsrc & ldst & HF)| |] end;
  [| cbn in Hwf; unfold u8b in Hwf; inv_ok; assumption
   | cbn in Hwf; unfold u8b in Hwf; inv_ok; assumption].
  pose proof HF as HF'. unfold swap_facts in HF'.
  destruct HF' as (_ & _ & _ & _ & _ & HP & HL & _).
  unf. rewrite HP in *. inv_ok. dedup.
  match goal with H : swap_settle _ _ _ _ _ _ _ _ _ _ _ = Ok _ |- _ => apply settle_inv in H end.
  fin.
Qed.

(** Facts established by the liquidity preamble. *)
Definition liq_facts (w : World) (accs : list Meta) (check_input : bool) (n i : Z)
  (A : LiqAccounts) (c cp : Cpi) (ps : PoolState) (l : list LstState) (ls : LstState) : Prop :=
  accs = [la_signer A; la_lst_mint A; la_lst_acc A; la_lp_acc A; la_lp_token_mint A;
          la_protocol_fee_accumulator A; la_lst_token_program A; la_lp_token_program A;
          la_pool_state A; la_lst_state_list A; la_pool_reserves A] ++
         (cpi_prog c :: cpi_accs c) ++ (cpi_prog cp :: cpi_accs cp) /\
  length (cpi_prog c :: cpi_accs c) = Z.to_nat n /\
  is_signer (la_signer A) = true /\
  forallb is_writable [la_lst_acc A; la_lp_acc A; la_lp_token_mint A;
    la_protocol_fee_accumulator A; la_pool_state A; la_lst_state_list A; la_pool_reserves A] = true /\
  mk (la_pool_state A) = POOL_STATE_ID /\ mk (la_lst_state_list A) = LST_STATE_LIST_ID /\
  mk (la_lst_token_program A) = w_owner w (mk (la_lst_mint A)) /\
  mk (la_lp_token_program A) = SPL_TOKEN_ID /\
  mk (la_lp_token_mint A) = lp_token_mint ps /\
  w_pool w POOL_STATE_ID = Some ps /\ active ps /\
  w_list w LST_STATE_LIST_ID = Some l /\ nth_lst l i = Some ls /\
  ls_mint ls = mk (la_lst_mint A) /\
  (check_input = true -> is_input_disabled ls = 0) /\
  d_create D POOL_STATE_ID (w_owner w (mk (la_lst_mint A))) (mk (la_lst_mint A))
    (pool_reserves_bump ls) = Some (mk (la_pool_reserves A)) /\
  d_create D PROTOCOL_FEE_ID (w_owner w (mk (la_lst_mint A))) (mk (la_lst_mint A))
    (protocol_fee_accumulator_bump ls) = Some (mk (la_protocol_fee_accumulator A)) /\
  mk (cpi_prog c) = sol_value_calculator ls /\ mk (cpi_prog cp) = pricing_program ps.

Lemma verify_liquidity_inv w accs b n i A c cp :
  verify_liquidity D w accs b n i = Ok (A, (c, cp)) ->
  exists ps l ls, liq_facts w accs b n i A c cp ps l ls.
Proof.
  intros H. unfold verify_liquidity in H. do 11 split_accs H.
  unfold resolve_liquidity in H.
  unf; inv_ok; keys; inv_ok; keys.
  match goal with H : (if b then _ else _) = Ok _ |- _ =>
    assert (Hin : b = true -> exists l ls, w_list w (mk acc8) = Some l /\ nth_lst l i = Some ls /\
       is_input_disabled ls = 0) by
      (destruct b; [intros _; inv_ok; keys; eauto 6 | discriminate]); clear H end.
  norm.
  match goal with H : verify_lp_cpis _ _ _ _ _ _ = Ok _ |- _ =>
    apply verify_lp_ok in H; destruct H as (? & ? & ? & -> & ? & ? & ? & ? & ? & ?) end.
  dedup.
  unfold liq_facts; cbn [la_signer la_lst_mint la_lst_acc la_lp_acc la_lp_token_mint
    la_protocol_fee_accumulator la_lst_token_program la_lp_token_program la_pool_state
    la_lst_state_list la_pool_reserves].
  fin.
  - cbn. repeat match goal with H : is_writable _ = true |- _ => rewrite H; clear H end. reflexivity.
  - intros Hb. destruct (Hin Hb) as (? & ? & ? & ? & ?). dedup. assumption.
Qed.

Lemma add_liquidity_inv E w accs a w' :
  process_add_liquidity D E w accs a = Ok w' ->
  exists A c cp ps l ls w1 ps1 lst_sol lst_hi after_fees to_reserves to_protocol mi lp_to_mint
         w2 w3 w4 ps',
    liq_facts w accs true (al_lst_value_calc_accs a) (al_lst_index a) A c cp ps l ls /\
    al_lst_amount a <> 0 /\
    sync_liq E w A c (al_lst_index a) = Ok w1 /\
    w_pool w1 POOL_STATE_ID = Some ps1 /\
    invoke_lst_to_sol E w1 c (mk (la_lst_mint A)) (al_lst_amount a) = Ok (lst_sol, lst_hi) /\
    invoke_price_lp_to_mint E w1 cp (mk (la_lst_mint A)) (al_lst_amount a) lst_sol = Ok after_fees /\
    after_fees <= lst_sol /\
    calc_add_liquidity_protocol_fees (al_lst_amount a) lst_sol after_fees (lp_protocol_fee_bps ps1)
      = Ok (to_reserves, to_protocol) /\
    w_mint w1 (mk (la_lp_token_mint A)) = Some mi /\
    calc_lp_tokens_to_mint (m_supply mi) (total_sol_value ps1) after_fees = Ok lp_to_mint /\
    to_reserves <> 0 /\ lp_to_mint <> 0 /\ al_min_lp_out a <= lp_to_mint /\
    transfer_checked w1 (mk (la_lst_token_program A)) (mk (la_lst_acc A))
      (mk (la_pool_reserves A)) (mk (la_lst_mint A)) (mk (la_signer A))
      (is_signer (la_signer A)) to_reserves = Ok w2 /\
    transfer_checked w2 (mk (la_lst_token_program A)) (mk (la_lst_acc A))
      (mk (la_protocol_fee_accumulator A)) (mk (la_lst_mint A)) (mk (la_signer A))
      (is_signer (la_signer A)) to_protocol = Ok w3 /\
    mint_to w3 SPL_TOKEN_ID (mk (la_lp_token_mint A)) (mk (la_lp_acc A)) POOL_STATE_ID true
      lp_to_mint = Ok w4 /\
    sync_liq E w4 A c (al_lst_index a) = Ok w' /\
    w_pool w' POOL_STATE_ID = Some ps' /\ total_sol_value ps1 <= total_sol_value ps'.
Proof.
  intros H. unfold process_add_liquidity in H. inv_ok.
  match goal with H : verify_liquidity _ _ _ _ _ _ = Ok _ |- _ =>
    apply verify_liquidity_inv in H; destruct H as (ps & ll & ls & HF) end.
  pose proof HF as HF'. unfold liq_facts in HF'.
  destruct HF' as (_ & _ & _ & _ & HP & HL & _ & HT & _).
  unf. rewrite HP in *. rewrite HT in *. inv_ok. dedup.
  match goal with H : negb (_ || _) = true |- _ =>
    rewrite negb_orb in H; apply andb_true_iff in H; destruct H as [Hz1 Hz2] end.
  inv_ok.
  fin.
Qed.

Lemma remove_liquidity_inv E w accs a w' :
  process_remove_liquidity D E w accs a = Ok w' ->
  exists A c cp ps l ls w1 ps1 mi lp_sol after_fees to_user to_user_hi to_protocol w2 w3 w4,
    liq_facts w accs false (rl_lst_value_calc_accs a) (rl_lst_index a) A c cp ps l ls /\
    rl_lp_token_amount a <> 0 /\
    sync_liq E w A c (rl_lst_index a) = Ok w1 /\
    w_pool w1 POOL_STATE_ID = Some ps1 /\
    w_mint w1 (mk (la_lp_token_mint A)) = Some mi /\
    calc_lp_tokens_sol_value (m_supply mi) (total_sol_value ps1) (rl_lp_token_amount a)
      = Ok lp_sol /\
    invoke_price_lp_to_redeem E w1 cp (mk (la_lst_mint A)) (rl_lp_token_amount a) lp_sol
      = Ok after_fees /\
    after_fees <= lp_sol /\
    invoke_sol_to_lst E w1 c (mk (la_lst_mint A)) after_fees = Ok (to_user, to_user_hi) /\
    calc_remove_liquidity_protocol_fees lp_sol after_fees to_user (lp_protocol_fee_bps ps1)
      = Ok to_protocol /\
    to_user <> 0 /\ rl_min_lst_out a <= to_user /\
    burn w1 SPL_TOKEN_ID (mk (la_lp_token_mint A)) (mk (la_lp_acc A)) (mk (la_signer A))
      (is_signer (la_signer A)) (rl_lp_token_amount a) = Ok w2 /\
    transfer_checked w2 (mk (la_lst_token_program A)) (mk (la_pool_reserves A))
      (mk (la_lst_acc A)) (mk (la_lst_mint A)) POOL_STATE_ID true to_user = Ok w3 /\
    transfer_checked w3 (mk (la_lst_token_program A)) (mk (la_pool_reserves A))
      (mk (la_protocol_fee_accumulator A)) (mk (la_lst_mint A)) POOL_STATE_ID true to_protocol
      = Ok w4 /\
    sync_liq E w4 A c (rl_lst_index a) = Ok w'.
Proof.
  intros H. unfold process_remove_liquidity in H. inv_ok.
  match goal with H : verify_liquidity _ _ _ _ _ _ = Ok _ |- _ =>
    apply verify_liquidity_inv in H; destruct H as (ps & ll & ls & HF) end.
  pose proof HF as HF'. unfold liq_facts in HF'.
  destruct HF' as (_ & _ & _ & _ & HP & HL & _ & HT & _).
  unf. rewrite HP in *. rewrite HT in *. inv_ok. dedup.
  fin.
Qed.

Lemma set_lst_input_inv w accs i flag w' :
  process_set_lst_input w accs i flag = Ok w' ->
  exists adm lst_mint pool_state lst_state_list rest ps l ls,
    accs = adm :: lst_mint :: pool_state :: lst_state_list :: rest /\
    mk pool_state = POOL_STATE_ID /\ mk lst_state_list = LST_STATE_LIST_ID /\
    is_writable pool_state = true /\ is_writable lst_state_list = true /\
    is_signer adm = true /\ mk adm = admin ps /\
    w_pool w POOL_STATE_ID = Some ps /\ active ps /\
    w_list w LST_STATE_LIST_ID = Some l /\ nth_lst l i = Some ls /\ mk lst_mint = ls_mint ls /\
    w' = put_list w LST_STATE_LIST_ID
           (Some (replace_nth l (Z.to_nat i) (set_input_disabled ls flag))).
Proof.
  intros H. unfold process_set_lst_input in H. do 4 split_accs H.
  unfold resolve_disable_enable_lst_input in H. go.
  fin.
Qed.

Lemma add_lst_inv w accs w' :
  process_add_lst D w accs = Ok w' ->
  exists adm payer lst_mint pool_reserves pfa pfa_auth calculator pool_state lst_state_list
         ata_prog sys_prog lst_token_program rest ps l mi w1 w2 pr_bump pfa_bump,
    accs = adm :: payer :: lst_mint :: pool_reserves :: pfa :: pfa_auth :: calculator ::
           pool_state :: lst_state_list :: ata_prog :: sys_prog :: lst_token_program :: rest /\
    mk pool_state = POOL_STATE_ID /\ mk lst_state_list = LST_STATE_LIST_ID /\
    mk pfa_auth = PROTOCOL_FEE_ID /\ mk lst_token_program = w_owner w (mk lst_mint) /\
    is_writable pool_reserves = true /\ is_writable pfa = true /\ is_writable lst_state_list = true /\
    is_signer adm = true /\ is_signer payer = true /\ mk adm = admin ps /\
    d_find D POOL_STATE_ID (w_owner w (mk lst_mint)) (mk lst_mint) = (mk pool_reserves, pr_bump) /\
    d_find D PROTOCOL_FEE_ID (w_owner w (mk lst_mint)) (mk lst_mint) = (mk pfa, pfa_bump) /\
    is_token_program (w_owner w (mk lst_mint)) = true /\ w_mint w (mk lst_mint) = Some mi /\
    w_exec w (mk calculator) = true /\
    w_pool w POOL_STATE_ID = Some ps /\ active ps /\
    w_list w LST_STATE_LIST_ID = Some l /\ ~ In (mk lst_mint) (map ls_mint l) /\
    create_ata_if_not_exist w (mk pool_reserves) POOL_STATE_ID (mk lst_mint)
      (w_owner w (mk lst_mint)) = Ok w1 /\
    create_ata_if_not_exist w1 (mk pfa) PROTOCOL_FEE_ID (mk lst_mint) (w_owner w (mk lst_mint))
      = Ok w2 /\
    w' = put_list w2 LST_STATE_LIST_ID
           (Some (l ++ [mkLst 0 pr_bump pfa_bump 0 (mk lst_mint) (mk calculator)])).
Proof.
  intros H. unfold process_add_lst in H. do 12 split_accs H.
  unfold resolve_add_lst, find_pool_reserves_address, find_protocol_fee_accumulator_address in H.
  destruct (d_find D POOL_STATE_ID (w_owner w (mk acc1)) (mk acc1)) as [pr prb] eqn:E1.
  destruct (d_find D PROTOCOL_FEE_ID (w_owner w (mk acc1)) (mk acc1)) as [pf pfb] eqn:E2.
  unfold verify_tokenkeg_or_22_mint in *.
  go.
  repeat match goal with H : create_ata_if_not_exist _ _ _ _ _ = Ok _ |- _ =>
    pose proof (create_ata_if_ctl _ _ _ _ _ _ H) as (? & ? & _); revert H end; intros.
  match goal with H : w_list ?x LST_STATE_LIST_ID = Some ?l2 |- context [?l2 ++ _] =>
     assert (w_list w LST_STATE_LIST_ID = Some l2) by congruence end.
  dedup.
  match goal with H : mk acc10 = _ |- _ => rewrite H in * |-; rename H into Hp end.
  match goal with H : w_list w LST_STATE_LIST_ID = Some ?x |- _ => rename x into l end.
  assert (Hni : ~ In (mk acc1) (map ls_mint l)).
  { intros Hin. match goal with H : negb _ = true |- _ => apply negb_true_iff in H; rename H into He end.
    apply in_map_iff in Hin as (x & Hx1 & Hx2).
    assert (existsb (fun ls => ls_mint ls =? mk acc1) l = true) as Hc; [|congruence].
    apply existsb_exists. exists x. split; auto. now apply Z.eqb_eq. }
  fin.
Qed.

Lemma remove_lst_inv w accs i w' :
  process_remove_lst D w accs i = Ok w' ->
  exists adm refund lst_mint pool_reserves pfa pfa_auth pool_state lst_state_list
         lst_token_program rest ps l ls tr tf w1 w2,
    accs = adm :: refund :: lst_mint :: pool_reserves :: pfa :: pfa_auth :: pool_state ::
           lst_state_list :: lst_token_program :: rest /\
    mk pool_state = POOL_STATE_ID /\ mk lst_state_list = LST_STATE_LIST_ID /\
    mk pfa_auth = PROTOCOL_FEE_ID /\ mk lst_token_program = w_owner w (mk lst_mint) /\
    is_writable pool_reserves = true /\ is_writable pfa = true /\ is_writable lst_state_list = true /\
    is_signer adm = true /\ mk adm = admin ps /\
    w_pool w POOL_STATE_ID = Some ps /\ active ps /\
    w_list w LST_STATE_LIST_ID = Some l /\ nth_lst l i = Some ls /\ ls_mint ls = mk lst_mint /\
    d_create D POOL_STATE_ID (w_owner w (mk lst_mint)) (mk lst_mint) (pool_reserves_bump ls)
      = Some (mk pool_reserves) /\
    d_create D PROTOCOL_FEE_ID (w_owner w (mk lst_mint)) (mk lst_mint)
      (protocol_fee_accumulator_bump ls) = Some (mk pfa) /\
    w_tok w (mk pool_reserves) = Some tr /\ w_tok w (mk pfa) = Some tf /\
    sol_value ls = 0 /\ ta_amount tr = 0 /\ ta_amount tf = 0 /\
    close_token_account w (mk lst_token_program) (mk pfa) PROTOCOL_FEE_ID true = Ok w1 /\
    close_token_account w1 (mk lst_token_program) (mk pool_reserves) POOL_STATE_ID true = Ok w2 /\
    w' = put_list w2 LST_STATE_LIST_ID (Some (remove_nth l (Z.to_nat i))).
Proof.
  intros H. unfold process_remove_lst in H. do 9 split_accs H.
  unfold resolve_remove_lst in H. go.
  repeat match goal with H : close_token_account _ _ _ _ _ = Ok _ |- _ =>
    pose proof (close_ctl _ _ _ _ _ _ H) as (? & ? & _); revert H end; intros.
  match goal with H : w_list ?x LST_STATE_LIST_ID = Some ?l2 |- context [remove_nth ?l2 _] =>
     assert (w_list w LST_STATE_LIST_ID = Some l2) by congruence end.
  dedup. fin.
Qed.

Lemma set_calculator_inv E w accs i w' :
  process_set_sol_value_calculator D E w accs i = Ok w' ->
  exists adm lst_mint pool_state pool_reserves lst_state_list ps l ls c,
    accs = adm :: lst_mint :: pool_state :: pool_reserves :: lst_state_list :: cpi_prog c :: cpi_accs c /\
    mk pool_state = POOL_STATE_ID /\ mk lst_state_list = LST_STATE_LIST_ID /\
    is_writable pool_state = true /\ is_writable lst_state_list = true /\
    is_signer adm = true /\ mk adm = admin ps /\
    w_pool w POOL_STATE_ID = Some ps /\ active ps /\
    w_list w LST_STATE_LIST_ID = Some l /\ nth_lst l i = Some ls /\ ls_mint ls = mk lst_mint /\
    d_create D POOL_STATE_ID (w_owner w (mk lst_mint)) (mk lst_mint) (pool_reserves_bump ls)
      = Some (mk pool_reserves) /\
    w_exec w (mk (cpi_prog c)) = true /\
    sync_sol_value_unchecked E
      (put_list w LST_STATE_LIST_ID
         (Some (replace_nth l (Z.to_nat i) (set_calculator ls (mk (cpi_prog c))))))
      POOL_STATE_ID LST_STATE_LIST_ID (mk pool_reserves) c (mk lst_mint) i = Ok w'.
Proof.
  intros H. unfold process_set_sol_value_calculator in H. do 5 split_accs H.
  unfold resolve_set_sol_value_calculator, cpi_from_suffix in H.
  destruct rest as [|p rest]; go. cbn [cpi_prog cpi_accs] in *. 
  do 8 eexists. exists (mkCpi p rest). cbn [cpi_prog cpi_accs]. fin.
Qed.

Lemma set_admin_inv w accs w' :
  process_set_admin w accs = Ok w' ->
  exists current_admin new_admin pool_state rest ps,
    accs = current_admin :: new_admin :: pool_state :: rest /\
    mk pool_state = POOL_STATE_ID /\ is_writable pool_state = true /\
    is_signer current_admin = true /\ mk current_admin = admin ps /\
    w_pool w POOL_STATE_ID = Some ps /\
    w' = put_pool w POOL_STATE_ID (Some (set_admin_key ps (mk new_admin))).
Proof. intros H. unfold process_set_admin in H. do 3 split_accs H. go. fin. Qed.

Lemma set_protocol_fee_inv w accs t l w' :
  process_set_protocol_fee w accs t l = Ok w' ->
  exists adm pool_state rest ps,
    accs = adm :: pool_state :: rest /\
    mk pool_state = POOL_STATE_ID /\ is_writable pool_state = true /\
    is_signer adm = true /\ mk adm = admin ps /\
    w_pool w POOL_STATE_ID = Some ps /\ active ps /\ fee_ok l = true /\ fee_ok t = true /\
    w' = put_pool w POOL_STATE_ID (Some
      (let ps1 := match t with Some x => set_trading_fee ps x | None => ps end in
       match l with Some x => set_lp_fee ps1 x | None => ps1 end)).
Proof. intros H. unfold process_set_protocol_fee in H. do 2 split_accs H. go. fin. Qed.

Lemma set_beneficiary_inv w accs w' :
  process_set_protocol_fee_beneficiary w accs = Ok w' ->
  exists current new_beneficiary pool_state rest ps,
    accs = current :: new_beneficiary :: pool_state :: rest /\
    mk pool_state = POOL_STATE_ID /\ is_writable pool_state = true /\
    is_signer current = true /\ mk current = protocol_fee_beneficiary ps /\
    w_pool w POOL_STATE_ID = Some ps /\ active ps /\
    w' = put_pool w POOL_STATE_ID (Some (set_beneficiary_key ps (mk new_beneficiary))).
Proof. intros H. unfold process_set_protocol_fee_beneficiary in H. do 3 split_accs H. go. fin. Qed.

Lemma set_pricing_inv w accs w' :
  process_set_pricing_program w accs = Ok w' ->
  exists adm new_pricing pool_state rest ps,
    accs = adm :: new_pricing :: pool_state :: rest /\
    mk pool_state = POOL_STATE_ID /\ is_writable pool_state = true /\
    is_signer adm = true /\ mk adm = admin ps /\ w_exec w (mk new_pricing) = true /\
    w_pool w POOL_STATE_ID = Some ps /\ active ps /\
    w' = put_pool w POOL_STATE_ID (Some (set_pricing_key ps (mk new_pricing))).
Proof. intros H. unfold process_set_pricing_program in H. do 3 split_accs H. go. fin. Qed.

Lemma withdraw_inv w accs amount w' :
  process_withdraw_protocol_fees D w accs amount = Ok w' ->
  exists beneficiary withdraw_to pfa pfa_auth token_program pool_state lst_mint rest ps t tf,
    accs = beneficiary :: withdraw_to :: pfa :: pfa_auth :: token_program :: pool_state ::
           lst_mint :: rest /\
    mk pool_state = POOL_STATE_ID /\ mk pfa_auth = PROTOCOL_FEE_ID /\
    mk token_program = w_owner w (mk withdraw_to) /\
    is_writable withdraw_to = true /\ is_writable pfa = true /\
    is_signer beneficiary = true /\ mk beneficiary = protocol_fee_beneficiary ps /\
    w_pool w POOL_STATE_ID = Some ps /\ active ps /\
    w_tok w (mk withdraw_to) = Some t /\ mk lst_mint = ta_mint t /\
    fst (d_find D PROTOCOL_FEE_ID (w_owner w (mk withdraw_to)) (mk lst_mint)) = mk pfa /\
    w_tok w (mk pfa) = Some tf /\ amount <= ta_amount tf /\
    transfer_checked w (mk token_program) (mk pfa) (mk withdraw_to) (mk lst_mint) PROTOCOL_FEE_ID
      true amount = Ok w'.
Proof.
  intros H. unfold process_withdraw_protocol_fees in H. do 7 split_accs H.
  unfold resolve_withdraw_protocol_fees, find_protocol_fee_accumulator_address in H.
  unf. apply bind_ok in H as (exp & He & H).
  apply guard_ok in He as (_ & He). apply bind_ok in He as (tm & Ht & He).
  destruct (d_find D PROTOCOL_FEE_ID (w_owner w (mk acc0)) tm) as [pf pfb] eqn:E2.
  go. fin.
  match goal with H : mk acc5 = _ |- _ => rewrite H end. rewrite E2. reflexivity.
Qed.

Lemma add_auth_inv w accs w' :
  process_add_disable_pool_authority w accs = Ok w' ->
  exists payer adm pool_state new_authority list_acc sys rest ps l,
    accs = payer :: adm :: pool_state :: new_authority :: list_acc :: sys :: rest /\
    mk pool_state = POOL_STATE_ID /\ mk list_acc = DISABLE_POOL_AUTHORITY_LIST_ID /\
    is_writable list_acc = true /\ is_signer adm = true /\ mk adm = admin ps /\
    w_pool w POOL_STATE_ID = Some ps /\
    w_auth w DISABLE_POOL_AUTHORITY_LIST_ID = Some l /\ ~ In (mk new_authority) l /\
    w' = put_auth w DISABLE_POOL_AUTHORITY_LIST_ID (Some (l ++ [mk new_authority])).
Proof.
  intros H. unfold process_add_disable_pool_authority in H. do 6 split_accs H. go.
  match goal with H : w_auth w _ = Some ?x |- _ => rename x into l end.
  assert (Hni : ~ In (mk acc2) l).
  { intros Hin. match goal with H : negb _ = true |- _ => apply negb_true_iff in H; rename H into He end.
    assert (existsb (fun k => k =? mk acc2) l = true) as Hc; [|congruence].
    apply existsb_exists. exists (mk acc2). split; auto. now apply Z.eqb_eq. }
  fin.
Qed.

Lemma remove_auth_inv w accs i w' :
  process_remove_disable_pool_authority w accs i = Ok w' ->
  exists refund signer authority pool_state list_acc rest ps l,
    accs = refund :: signer :: authority :: pool_state :: list_acc :: rest /\
    mk pool_state = POOL_STATE_ID /\ mk list_acc = DISABLE_POOL_AUTHORITY_LIST_ID /\
    is_writable list_acc = true /\ is_signer signer = true /\
    (mk signer = admin ps \/ mk signer = mk authority) /\
    w_pool w POOL_STATE_ID = Some ps /\
    w_auth w DISABLE_POOL_AUTHORITY_LIST_ID = Some l /\
    nth_error l (Z.to_nat i) = Some (mk authority) /\
    w' = put_auth w DISABLE_POOL_AUTHORITY_LIST_ID (Some (remove_nth l (Z.to_nat i))).
Proof.
  intros H. unfold process_remove_disable_pool_authority in H. do 5 split_accs H.
  unfold resolve_remove_disable_pool_authority in H. go.
  match goal with H : (_ || _) = true |- _ => apply orb_true_iff in H; rewrite !Z.eqb_eq in H end.
  fin.
Qed.

Lemma disable_pool_inv w accs w' :
  process_disable_pool w accs = Ok w' ->
  exists signer pool_state list_acc rest ps,
    accs = signer :: pool_state :: list_acc :: rest /\
    mk pool_state = POOL_STATE_ID /\ mk list_acc = DISABLE_POOL_AUTHORITY_LIST_ID /\
    is_writable pool_state = true /\ is_signer signer = true /\
    w_pool w POOL_STATE_ID = Some ps /\ active ps /\
    (mk signer = admin ps \/
     exists l, w_auth w DISABLE_POOL_AUTHORITY_LIST_ID = Some l /\ In (mk signer) l) /\
    w' = put_pool w POOL_STATE_ID (Some (set_disabled ps 1)).
Proof. intros H. unfold process_disable_pool in H. do 3 split_accs H. go. fin. Qed.

Lemma enable_pool_inv w accs w' :
  process_enable_pool w accs = Ok w' ->
  exists adm pool_state rest ps,
    accs = adm :: pool_state :: rest /\
    mk pool_state = POOL_STATE_ID /\
    is_writable pool_state = true /\ is_signer adm = true /\ mk adm = admin ps /\
    w_pool w POOL_STATE_ID = Some ps /\ is_disabled ps <> 0 /\
    w' = put_pool w POOL_STATE_ID (Some (set_disabled ps 0)).
Proof.
  intros H. unfold process_enable_pool in H. do 2 split_accs H. unfold u8bool_is_false in *. go. fin.
Qed.

Lemma set_rebalance_authority_inv w accs w' :
  process_set_rebalance_authority w accs = Ok w' ->
  exists signer new_auth pool_state rest ps,
    accs = signer :: new_auth :: pool_state :: rest /\
    mk pool_state = POOL_STATE_ID /\
    is_writable pool_state = true /\ is_signer signer = true /\
    (mk signer = admin ps \/ mk signer = rebalance_authority ps) /\
    w_pool w POOL_STATE_ID = Some ps /\ active ps /\
    w' = put_pool w POOL_STATE_ID (Some (set_rebalance_auth_key ps (mk new_auth))).
Proof.
  intros H. unfold process_set_rebalance_authority in H. do 3 split_accs H. go.
  match goal with H : (_ || _) = true |- _ => apply orb_true_iff in H; rewrite !Z.eqb_eq in H end.
  fin.
Qed.

Lemma initialize_inv w accs w' :
  process_initialize w accs = Ok w' ->
  exists payer authority pool_state lp_mint lp_token_program sys rest m,
    accs = payer :: authority :: pool_state :: lp_mint :: lp_token_program :: sys :: rest /\
    mk pool_state = POOL_STATE_ID /\ mk authority = INITIAL_AUTHORITY_ID /\
    mk lp_token_program = SPL_TOKEN_ID /\
    is_writable pool_state = true /\ is_writable lp_mint = true /\
    is_signer payer = true /\ is_signer authority = true /\
    w_pool w POOL_STATE_ID = None /\
    w_owner w (mk lp_mint) = SPL_TOKEN_ID /\ w_mint w (mk lp_mint) = Some m /\
    m_supply m = 0 /\ m_decimals m = 9 /\ m_auth m = Some INITIAL_AUTHORITY_ID /\
    m_freeze m = Some INITIAL_AUTHORITY_ID /\
    w' = put_mint (put_mint (put_pool w POOL_STATE_ID
           (Some (mkPool 0 1000 1000 1 0 0 INITIAL_AUTHORITY_ID INITIAL_AUTHORITY_ID
                    INITIAL_AUTHORITY_ID DEFAULT_PRICING_PROGRAM (mk lp_mint))))
           (mk lp_mint) (Some (mkMint 0 9 (Some POOL_STATE_ID) (Some INITIAL_AUTHORITY_ID))))
           (mk lp_mint) (Some (mkMint 0 9 (Some POOL_STATE_ID) (Some POOL_STATE_ID))).
Proof.
  intros H. unfold process_initialize in H. do 6 split_accs H. go.
  match goal with H : set_mint_authority _ _ _ _ _ _ = Ok _ |- _ =>
    apply set_mint_auth_inv in H; destruct H as (m1 & Hm1 & Ha1 & _ & _ & ->) end.
  match goal with H : set_freeze_authority _ _ _ _ _ _ = Ok _ |- _ =>
    apply set_freeze_auth_inv in H; destruct H as (m2 & Hm2 & Ha2 & _ & _ & ->) end.
  cbn [w_mint put_mint put_pool] in *. rewrite upd_same in Hm2. injection Hm2 as <-.
  cbn [m_freeze m_supply m_decimals m_auth] in *. dedup.
  match goal with H : context [match w_pool w POOL_STATE_ID with _ => _ end] |- _ =>
    destruct (w_pool w POOL_STATE_ID) eqn:Hp; [discriminate|]; clear H end.
  fin.
Qed.

Lemma scan_spec ixs m :
  scan_end_rebalance ixs m = Ok tt <->
  exists ix, In ix ixs /\ is_end_rebalance_ix ix m = true.
Proof.
  induction ixs as [|x t IH]; cbn.
  - split; [discriminate | intros (? & [] & _)].
  - destruct (is_end_rebalance_ix x m) eqn:Hx.
    + split; eauto.
    + rewrite IH. split; intros (ix & Hi & Hb); exists ix; split; auto.
      destruct Hi; auto. congruence.
Qed.

Lemma start_rebalance_inv E C w accs a w' :
  process_start_rebalance D E C w accs a = Ok w' ->
  exists reb_auth pool_state lst_state_list rebalance_record src_lst_mint dst_lst_mint
    src_pool_reserves dst_pool_reserves withdraw_to instructions system_program
    src_lst_token_program cs cd ps l lsrc ldst ts td w1 w2 ps2 w3 w4 ps4,
    accs = [reb_auth; pool_state; lst_state_list; rebalance_record; src_lst_mint; dst_lst_mint;
      src_pool_reserves; dst_pool_reserves; withdraw_to; instructions; system_program;
      src_lst_token_program] ++ (cpi_prog cs :: cpi_accs cs) ++ (cpi_prog cd :: cpi_accs cd) /\
    length (cpi_prog cs :: cpi_accs cs) = Z.to_nat (sr_src_lst_calc_accs a) /\
    mk pool_state = POOL_STATE_ID /\ mk lst_state_list = LST_STATE_LIST_ID /\
    mk rebalance_record = REBALANCE_RECORD_ID /\
    mk src_lst_token_program = w_owner w (mk src_lst_mint) /\
    forallb is_writable [pool_state; lst_state_list; rebalance_record; src_pool_reserves;
       dst_pool_reserves; withdraw_to] = true /\
    is_signer reb_auth = true /\ mk reb_auth = rebalance_authority ps /\
    w_pool w POOL_STATE_ID = Some ps /\ active ps /\
    w_list w LST_STATE_LIST_ID = Some l /\
    nth_lst l (sr_src_lst_index a) = Some lsrc /\ nth_lst l (sr_dst_lst_index a) = Some ldst /\
    ls_mint lsrc = mk src_lst_mint /\ ls_mint ldst = mk dst_lst_mint /\
    is_input_disabled ldst = 0 /\
    d_create D POOL_STATE_ID (w_owner w (mk src_lst_mint)) (mk src_lst_mint)
      (pool_reserves_bump lsrc) = Some (mk src_pool_reserves) /\
    d_create D POOL_STATE_ID (w_owner w (mk dst_lst_mint)) (mk dst_lst_mint)
      (pool_reserves_bump ldst) = Some (mk dst_pool_reserves) /\
    mk (cpi_prog cs) = sol_value_calculator lsrc /\ mk (cpi_prog cd) = sol_value_calculator ldst /\
    w_tok w (mk src_pool_reserves) = Some ts /\ sr_min_starting_src_lst a <= ta_amount ts /\
    w_tok w (mk dst_pool_reserves) = Some td /\ ta_amount td <= sr_max_starting_dst_lst a /\
    (exists ix, In ix (skipn (S (cx_cur C)) (cx_ixs C)) /\
       is_end_rebalance_ix ix (mk dst_lst_mint) = true) /\
    sync_sol_value_unchecked E w POOL_STATE_ID LST_STATE_LIST_ID (mk src_pool_reserves) cs
      (mk src_lst_mint) (sr_src_lst_index a) = Ok w1 /\
    sync_sol_value_unchecked E w1 POOL_STATE_ID LST_STATE_LIST_ID (mk dst_pool_reserves) cd
      (mk dst_lst_mint) (sr_dst_lst_index a) = Ok w2 /\
    w_pool w2 POOL_STATE_ID = Some ps2 /\
    transfer_checked w2 (mk src_lst_token_program) (mk src_pool_reserves) (mk withdraw_to)
      (mk src_lst_mint) POOL_STATE_ID true (sr_amount a) = Ok w3 /\
    sync_sol_value_unchecked E w3 POOL_STATE_ID LST_STATE_LIST_ID (mk src_pool_reserves) cs
      (mk src_lst_mint) (sr_src_lst_index a) = Ok w4 /\
    w_rec w4 REBALANCE_RECORD_ID = None /\
    w_pool w4 POOL_STATE_ID = Some ps4 /\
    w' = put_pool (put_rec w4 REBALANCE_RECORD_ID
           (Some (mkRec (total_sol_value ps2) (sr_dst_lst_index a)))) POOL_STATE_ID
           (Some (set_rebalancing ps4 1)).
Proof.
  intros H. unfold process_start_rebalance in H. do 12 split_accs H.
  unfold resolve_start_rebalance in H. go.
  match goal with H : verify_src_dst_lst_sol_val_calc_cpis _ _ _ _ _ _ = Ok _ |- _ =>
    apply verify_src_dst_ok in H; destruct H as (? & ? & ? & -> & ? & ? & ? & ? & ? & ?) end.
  dedup.
  match goal with H : verify_has_succeeding_end_rebalance_ix _ _ = Ok _ |- _ =>
    unfold verify_has_succeeding_end_rebalance_ix in H; rewrite scan_spec in H end.
  match goal with H : context [match w_rec ?x REBALANCE_RECORD_ID with _ => _ end] |- _ =>
    destruct (w_rec x REBALANCE_RECORD_ID) eqn:Hp; [discriminate|]; clear H end.
  fin.
  cbn. repeat match goal with H : is_writable _ = true |- _ => rewrite H; clear H end. reflexivity.
Qed.

Lemma end_rebalance_inv E w accs w' :
  process_end_rebalance D E w accs = Ok w' ->
  exists reb_auth pool_state lst_state_list rebalance_record dst_lst_mint dst_pool_reserves c
    ps l r ldst w2 ps2,
    accs = [reb_auth; pool_state; lst_state_list; rebalance_record; dst_lst_mint;
            dst_pool_reserves] ++ (cpi_prog c :: cpi_accs c) /\
    mk pool_state = POOL_STATE_ID /\ mk lst_state_list = LST_STATE_LIST_ID /\
    mk rebalance_record = REBALANCE_RECORD_ID /\
    is_writable pool_state = true /\ is_writable lst_state_list = true /\
    is_writable rebalance_record = true /\
    is_signer reb_auth = true /\ mk reb_auth = rebalance_authority ps /\
    w_pool w POOL_STATE_ID = Some ps /\ is_rebalancing ps <> 0 /\
    w_list w LST_STATE_LIST_ID = Some l /\
    w_rec w REBALANCE_RECORD_ID = Some r /\
    nth_lst l (dst_lst_index r) = Some ldst /\ ls_mint ldst = mk dst_lst_mint /\
    d_create D POOL_STATE_ID (w_owner w (mk dst_lst_mint)) (mk dst_lst_mint)
      (pool_reserves_bump ldst) = Some (mk dst_pool_reserves) /\
    mk (cpi_prog c) = sol_value_calculator ldst /\
    sync_sol_value_unchecked E (put_pool w POOL_STATE_ID (Some (set_rebalancing ps 0)))
      POOL_STATE_ID LST_STATE_LIST_ID (mk dst_pool_reserves) c (mk dst_lst_mint) (dst_lst_index r)
      = Ok w2 /\
    w_pool w2 POOL_STATE_ID = Some ps2 /\ old_total_sol_value r <= total_sol_value ps2 /\
    w' = put_rec w2 REBALANCE_RECORD_ID None.
Proof.
  intros H. unfold process_end_rebalance in H. do 6 split_accs H.
  unfold resolve_end_rebalance in H. go. cbn [w_rec put_pool] in *. dedup.
  match goal with H : verify_lst_sol_val_calc_cpi _ _ _ _ = Ok _ |- _ =>
    apply verify_lst_cpi_ok in H; destruct H as (? & ? & -> & ? & ? & ?) end.
  unfold u8bool_is_true, u8bool_is_false in *. inv_ok. dedup.
  fin.
Qed.

End WithDerive.
