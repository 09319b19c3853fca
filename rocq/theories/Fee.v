(** Token-2022 LSTs whose mint charges a transfer fee (C58).
    AddLst takes any Token-2022 mint (add_lst.rs:66, verify_tokenkeg_or_22_mint) and never looks at its extensions, so a
    mint with the TransferFeeConfig extension can be listed. TransferChecked then debits the amount and credits the amount
    less a fee that stays, withheld, beside the receiving account's balance (spl-token-2022 processor.rs,
    process_transfer). This file models the six instructions that move LSTs under such fees: [F mint amount] is
    the fee (spl-token-2022's is min(max_fee, ceil(amount * bps / 10000)); here any function between 0 and the amount, see
    [fee_fun]). Everything else is Controller.v's; the withheld balances are not modelled (they matter only to closing an
    account, which Token-2022 refuses until they are harvested). *)
From Coq Require Import ZArith List Bool.
From Verif Require Import Base Calc State Controller Spec.
Import ListNotations.
Open Scope Z_scope.

(** The fee on a transfer; SPL Token has none. *)
Definition withheld (F : key -> Z -> Z) (prog mint : key) (amount : Z) : Z :=
  if prog =? SPL_TOKEN_2022_ID then F mint amount else 0.
Definition fee_fun (F : key -> Z -> Z) : Prop := forall m a, 0 <= a -> 0 <= F m a <= a.

(** State.v's transfer_checked with the fee withheld from what arrives; a transfer to itself charges nothing *)
Definition transfer_fee (F : key -> Z -> Z) (w : World) (prog from to mint auth : key) (auth_signs : bool)
  (amount : Z) : res World :=
  guard (is_token_program prog) TokenErr (
  f <- of_option TokenErr (w_tok w from) ;;
  t <- of_option TokenErr (w_tok w to) ;;
  m <- of_option TokenErr (w_mint w mint) ;;
  guard ((w_owner w from =? prog) && (w_owner w to =? prog) && (w_owner w mint =? prog)) TokenErr (
  guard ((ta_mint f =? mint) && (ta_mint t =? mint)) TokenErr (
  guard ((ta_owner f =? auth) && auth_signs) TokenErr (
  guard (amount <=? ta_amount f) TokenErr (
  if from =? to then Ok w
  else
    guard (ta_amount t + (amount - withheld F prog mint amount) <=? U64_MAX) TokenErr (
    let w1 := put_tok w from (Some (mkTok (ta_mint f) (ta_owner f) (ta_amount f - amount))) in
    Ok (put_tok w1 to (Some (mkTok (ta_mint t) (ta_owner t) (ta_amount t + (amount - withheld F prog mint amount)))))
    )))))).

Section WithDerive.
Variable D : Derive.
Variable F : key -> Z -> Z.

(** swap_exact_in.rs:86-134 = swap_exact_out.rs:85-133 *)
Definition swap_settle_f (E : Env) (w : World) (A : SwapAccounts) (src_cpi dst_cpi : Cpi)
  (src_index dst_index start_total src_in dst_out to_protocol : Z) : res World :=
  total_dst_lst_out <- checked_add (Ctl MathError) dst_out to_protocol ;;
  dst_balance <- token_account_balance w (mk (sa_dst_pool_reserves A)) ;;
  guard (total_dst_lst_out <=? dst_balance) (Ctl NotEnoughLiquidity) (
  w1 <- transfer_fee F w (mk (sa_src_lst_token_program A)) (mk (sa_src_lst_acc A))
          (mk (sa_src_pool_reserves A)) (mk (sa_src_lst_mint A)) (mk (sa_signer A))
          (is_signer (sa_signer A)) src_in ;;
  w2 <- transfer_fee F w1 (mk (sa_dst_lst_token_program A)) (mk (sa_dst_pool_reserves A))
          (mk (sa_protocol_fee_accumulator A)) (mk (sa_dst_lst_mint A)) (mk (sa_pool_state A))
          true to_protocol ;;
  w3 <- transfer_fee F w2 (mk (sa_dst_lst_token_program A)) (mk (sa_dst_pool_reserves A))
          (mk (sa_dst_lst_acc A)) (mk (sa_dst_lst_mint A)) (mk (sa_pool_state A))
          true dst_out ;;
  w4 <- sync_src E w3 A src_cpi src_index ;;
  w5 <- sync_dst E w4 A dst_cpi dst_index ;;
  end_total <- pool_field w5 (mk (sa_pool_state A)) total_sol_value ;;
  guard (start_total <=? end_total) (Ctl PoolWouldLoseSolValue) (Ok w5)).

(** processor/swap_exact_in.rs:34-135, 157-159 *)
Definition process_swap_exact_in_f (E : Env) (w : World) (accs : list Meta) (a : SwapExactInArgs)
  : res World :=
  guard (negb (si_amount a =? 0)) (Ctl ZeroValue) (
  '(A, (src_cpi, dst_cpi, pricing_cpi)) <-
     verify_swap D w accs (si_src_lst_value_calc_accs a) (si_dst_lst_value_calc_accs a)
       (si_src_lst_index a) (si_dst_lst_index a) ;;
  w1 <- sync_src E w A src_cpi (si_src_lst_index a) ;;
  w2 <- sync_dst E w1 A dst_cpi (si_dst_lst_index a) ;;
  start_total <- pool_field w2 (mk (sa_pool_state A)) total_sol_value ;;
  '(in_sol_value, _) <- invoke_lst_to_sol E w2 src_cpi (mk (sa_src_lst_mint A)) (si_amount a) ;;
  guard (negb (in_sol_value =? 0)) (Ctl ZeroValue) (
  out_sol_value <- invoke_price_exact_in E w2 pricing_cpi (mk (sa_src_lst_mint A))
                     (mk (sa_dst_lst_mint A)) (si_amount a) in_sol_value ;;
  '(dst_lst_out, _) <- invoke_sol_to_lst E w2 dst_cpi (mk (sa_dst_lst_mint A)) out_sol_value ;;
  guard (si_min_amount_out a <=? dst_lst_out) (Ctl SlippageToleranceExceeded) (
  guard (negb (dst_lst_out =? 0)) (Ctl ZeroValue) (
  bps <- pool_field w2 (mk (sa_pool_state A)) trading_protocol_fee_bps ;;
  to_protocol <- calc_swap_protocol_fees in_sol_value out_sol_value dst_lst_out bps ;;
  swap_settle_f E w2 A src_cpi dst_cpi (si_src_lst_index a) (si_dst_lst_index a) start_total
    (si_amount a) dst_lst_out to_protocol)))).

(** processor/swap_exact_out.rs:33-134, 156-158 *)
Definition process_swap_exact_out_f (E : Env) (w : World) (accs : list Meta) (a : SwapExactOutArgs)
  : res World :=
  guard (negb ((so_amount a =? 0) || (so_max_amount_in a =? 0))) (Ctl ZeroValue) (
  '(A, (src_cpi, dst_cpi, pricing_cpi)) <-
     verify_swap D w accs (so_src_lst_value_calc_accs a) (so_dst_lst_value_calc_accs a)
       (so_src_lst_index a) (so_dst_lst_index a) ;;
  w1 <- sync_src E w A src_cpi (so_src_lst_index a) ;;
  w2 <- sync_dst E w1 A dst_cpi (so_dst_lst_index a) ;;
  start_total <- pool_field w2 (mk (sa_pool_state A)) total_sol_value ;;
  '(_, out_sol_value) <- invoke_lst_to_sol E w2 dst_cpi (mk (sa_dst_lst_mint A)) (so_amount a) ;;
  guard (negb (out_sol_value =? 0)) (Ctl ZeroValue) (
  in_sol_value <- invoke_price_exact_out E w2 pricing_cpi (mk (sa_src_lst_mint A))
                    (mk (sa_dst_lst_mint A)) (so_amount a) out_sol_value ;;
  '(_, src_lst_in) <- invoke_sol_to_lst E w2 src_cpi (mk (sa_src_lst_mint A)) in_sol_value ;;
  guard (src_lst_in <=? so_max_amount_in a) (Ctl SlippageToleranceExceeded) (
  guard (negb (src_lst_in =? 0)) (Ctl ZeroValue) (
  bps <- pool_field w2 (mk (sa_pool_state A)) trading_protocol_fee_bps ;;
  to_protocol <- calc_swap_protocol_fees in_sol_value out_sol_value (so_amount a) bps ;;
  swap_settle_f E w2 A src_cpi dst_cpi (so_src_lst_index a) (so_dst_lst_index a) start_total
    src_lst_in (so_amount a) to_protocol)))).

(** processor/add_liquidity.rs:33-131, 150-152 *)
Definition process_add_liquidity_f (E : Env) (w : World) (accs : list Meta) (a : AddLiquidityArgs)
  : res World :=
  guard (negb (al_lst_amount a =? 0)) (Ctl ZeroValue) (
  '(A, (lst_cpi, pricing_cpi)) <-
     verify_liquidity D w accs true (al_lst_value_calc_accs a) (al_lst_index a) ;;
  w1 <- sync_liq E w A lst_cpi (al_lst_index a) ;;
  start_total <- pool_field w1 (mk (la_pool_state A)) total_sol_value ;;
  '(lst_sol, _) <- invoke_lst_to_sol E w1 lst_cpi (mk (la_lst_mint A)) (al_lst_amount a) ;;
  after_fees <- invoke_price_lp_to_mint E w1 pricing_cpi (mk (la_lst_mint A)) (al_lst_amount a)
                  lst_sol ;;
  guard (after_fees <=? lst_sol) (Ctl PoolWouldLoseSolValue) (
  bps <- pool_field w1 (mk (la_pool_state A)) lp_protocol_fee_bps ;;
  '(to_reserves, to_protocol) <-
     calc_add_liquidity_protocol_fees (al_lst_amount a) lst_sol after_fees bps ;;
  pool_total <- pool_field w1 (mk (la_pool_state A)) total_sol_value ;;
  lp_supply <- mint_supply w1 (mk (la_lp_token_mint A)) ;;
  lp_to_mint <- calc_lp_tokens_to_mint lp_supply pool_total after_fees ;;
  guard (negb ((to_reserves =? 0) || (lp_to_mint =? 0))) (Ctl ZeroValue) (
  guard (al_min_lp_out a <=? lp_to_mint) (Ctl SlippageToleranceExceeded) (
  w2 <- transfer_fee F w1 (mk (la_lst_token_program A)) (mk (la_lst_acc A))
          (mk (la_pool_reserves A)) (mk (la_lst_mint A)) (mk (la_signer A))
          (is_signer (la_signer A)) to_reserves ;;
  w3 <- transfer_fee F w2 (mk (la_lst_token_program A)) (mk (la_lst_acc A))
          (mk (la_protocol_fee_accumulator A)) (mk (la_lst_mint A)) (mk (la_signer A))
          (is_signer (la_signer A)) to_protocol ;;
  w4 <- mint_to w3 (mk (la_lp_token_program A)) (mk (la_lp_token_mint A)) (mk (la_lp_acc A))
          (mk (la_pool_state A)) true lp_to_mint ;;
  w5 <- sync_liq E w4 A lst_cpi (al_lst_index a) ;;
  end_total <- pool_field w5 (mk (la_pool_state A)) total_sol_value ;;
  guard (start_total <=? end_total) (Ctl PoolWouldLoseSolValue) (Ok w5))))).

(** processor/remove_liquidity.rs:30-123, 142-144 *)
Definition process_remove_liquidity_f (E : Env) (w : World) (accs : list Meta)
  (a : RemoveLiquidityArgs) : res World :=
  guard (negb (rl_lp_token_amount a =? 0)) (Ctl ZeroValue) (
  '(A, (lst_cpi, pricing_cpi)) <-
     verify_liquidity D w accs false (rl_lst_value_calc_accs a) (rl_lst_index a) ;;
  w1 <- sync_liq E w A lst_cpi (rl_lst_index a) ;;
  pool_total <- pool_field w1 (mk (la_pool_state A)) total_sol_value ;;
  lp_supply <- mint_supply w1 (mk (la_lp_token_mint A)) ;;
  lp_sol <- calc_lp_tokens_sol_value lp_supply pool_total (rl_lp_token_amount a) ;;
  after_fees <- invoke_price_lp_to_redeem E w1 pricing_cpi (mk (la_lst_mint A))
                  (rl_lp_token_amount a) lp_sol ;;
  guard (after_fees <=? lp_sol) (Ctl PoolWouldLoseSolValue) (
  '(to_user, _) <- invoke_sol_to_lst E w1 lst_cpi (mk (la_lst_mint A)) after_fees ;;
  bps <- pool_field w1 (mk (la_pool_state A)) lp_protocol_fee_bps ;;
  to_protocol <- calc_remove_liquidity_protocol_fees lp_sol after_fees to_user bps ;;
  guard (negb (to_user =? 0)) (Ctl ZeroValue) (
  guard (rl_min_lst_out a <=? to_user) (Ctl SlippageToleranceExceeded) (
  w2 <- burn w1 (mk (la_lp_token_program A)) (mk (la_lp_token_mint A)) (mk (la_lp_acc A))
          (mk (la_signer A)) (is_signer (la_signer A)) (rl_lp_token_amount a) ;;
  w3 <- transfer_fee F w2 (mk (la_lst_token_program A)) (mk (la_pool_reserves A))
          (mk (la_lst_acc A)) (mk (la_lst_mint A)) (mk (la_pool_state A)) true to_user ;;
  w4 <- transfer_fee F w3 (mk (la_lst_token_program A)) (mk (la_pool_reserves A))
          (mk (la_protocol_fee_accumulator A)) (mk (la_lst_mint A)) (mk (la_pool_state A)) true
          to_protocol ;;
  sync_liq E w4 A lst_cpi (rl_lst_index a))))).

(** processor/withdraw_protocol_fees.rs:21-68 *)
Definition process_withdraw_protocol_fees_f (w : World) (accs : list Meta) (amount : Z) : res World :=
  match accs with
  | beneficiary :: withdraw_to :: pfa :: pfa_auth :: token_program :: pool_state :: lst_mint :: _ =>
    expected <- resolve_withdraw_protocol_fees D w (mk pool_state) (mk withdraw_to) ;;
    verify_keys_privs [beneficiary; withdraw_to; pfa; pfa_auth; token_program; pool_state; lst_mint]
      expected [withdraw_to; pfa; pfa_auth; pool_state] [beneficiary] (
    ps <- try_pool_state w (mk pool_state) ;;
    _ <- verify_not_rebalancing_and_not_disabled ps ;;
    bal <- token_account_balance w (mk pfa) ;;
    guard (amount <=? bal) (Ctl NotEnoughFees) (
    transfer_fee F w (mk token_program) (mk pfa) (mk withdraw_to) (mk lst_mint) (mk pfa_auth)
      true amount))
  | _ => Err NotEnoughAccountKeys
  end.

(** processor/start_rebalance.rs:43-194 *)
Definition process_start_rebalance_f (E : Env) (C : Ctx) (w : World) (accs : list Meta)
  (a : StartRebalanceArgs) : res World :=
  match accs with
  | reb_auth :: pool_state :: lst_state_list :: rebalance_record :: src_lst_mint :: dst_lst_mint ::
    src_pool_reserves :: dst_pool_reserves :: withdraw_to :: instructions :: system_program ::
    src_lst_token_program :: suffix =>
    expected <- resolve_start_rebalance D w (sr_src_lst_index a) (sr_dst_lst_index a)
                  (mk withdraw_to) (mk lst_state_list) (mk pool_state) (mk src_lst_mint)
                  (mk dst_lst_mint) ;;
    verify_keys_privs
      [reb_auth; pool_state; lst_state_list; rebalance_record; src_lst_mint; dst_lst_mint;
       src_pool_reserves; dst_pool_reserves; withdraw_to; instructions; system_program;
       src_lst_token_program] expected
      [pool_state; lst_state_list; rebalance_record; src_pool_reserves; dst_pool_reserves;
       withdraw_to] [reb_auth] (
    src_bal <- token_account_balance w (mk src_pool_reserves) ;;
    guard (sr_min_starting_src_lst a <=? src_bal) (Ctl SlippageToleranceExceeded) (
    dst_bal <- token_account_balance w (mk dst_pool_reserves) ;;
    guard (dst_bal <=? sr_max_starting_dst_lst a) (Ctl SlippageToleranceExceeded) (
    ps <- try_pool_state w (mk pool_state) ;;
    _ <- verify_not_rebalancing_and_not_disabled ps ;;
    l <- try_lst_state_list w (mk lst_state_list) ;;
    dst <- of_option Panic (nth_lst l (sr_dst_lst_index a)) ;;
    _ <- verify_lst_input_not_disabled dst ;;
    '(src_cpi, dst_cpi) <-
       verify_src_dst_lst_sol_val_calc_cpis w (mk lst_state_list) suffix (sr_src_lst_calc_accs a)
         (sr_src_lst_index a) (sr_dst_lst_index a) ;;
    _ <- verify_has_succeeding_end_rebalance_ix C (mk dst_lst_mint) ;;
    (* process_start_rebalance body *)
    w1 <- sync_sol_value_unchecked E w (mk pool_state) (mk lst_state_list) (mk src_pool_reserves)
            src_cpi (mk src_lst_mint) (sr_src_lst_index a) ;;
    w2 <- sync_sol_value_unchecked E w1 (mk pool_state) (mk lst_state_list) (mk dst_pool_reserves)
            dst_cpi (mk dst_lst_mint) (sr_dst_lst_index a) ;;
    old_total <- pool_field w2 (mk pool_state) total_sol_value ;;
    w3 <- transfer_fee F w2 (mk src_lst_token_program) (mk src_pool_reserves) (mk withdraw_to)
            (mk src_lst_mint) (mk pool_state) true (sr_amount a) ;;
    w4 <- sync_sol_value_unchecked E w3 (mk pool_state) (mk lst_state_list) (mk src_pool_reserves)
            src_cpi (mk src_lst_mint) (sr_src_lst_index a) ;;
    guard (match w_rec w4 (mk rebalance_record) with None => true | Some _ => false end) SystemErr (
    let w5 := put_rec w4 (mk rebalance_record) (Some (mkRec old_total (sr_dst_lst_index a))) in
    ps5 <- try_pool_state w5 (mk pool_state) ;;
    Ok (put_pool w5 (mk pool_state) (Some (set_rebalancing ps5 1)))))))
  | _ => Err NotEnoughAccountKeys
  end.

(** The program with such mints. *)
Definition process_f (E : Env) (C : Ctx) (w : World) (accs : list Meta) (ix : Ix) : res World :=
  guard (ix_wfb ix) InvalidData (
  match ix with
  | SwapExactIn a => process_swap_exact_in_f E w accs a
  | SwapExactOut a => process_swap_exact_out_f E w accs a
  | AddLiquidity a => process_add_liquidity_f E w accs a
  | RemoveLiquidity a => process_remove_liquidity_f E w accs a
  | WithdrawProtocolFees a => process_withdraw_protocol_fees_f w accs a
  | StartRebalance a => process_start_rebalance_f E C w accs a
  | _ => process D E C w accs ix
  end).
End WithDerive.
