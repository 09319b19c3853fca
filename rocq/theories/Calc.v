(** Model of libs/s-controller-lib/src/calc.rs — the pool arithmetic. *)
From Coq Require Import ZArith List Bool.
From Verif Require Import Base Ratio.
Open Scope Z_scope.

(** libs/s-controller-lib/src/calc.rs:16-42 *)
Definition calc_lp_tokens_to_mint (lp_token_supply pool_total_sol_value final_sol_value_to_add : Z)
  : res Z :=
  if lp_token_supply =? 0 then
    checked_add RatioMathErr pool_total_sol_value final_sol_value_to_add
  else if pool_total_sol_value =? 0 then Ok final_sol_value_to_add
  else floor_apply lp_token_supply pool_total_sol_value final_sol_value_to_add.

(** libs/s-controller-lib/src/calc.rs:45-60 *)
Definition calc_lp_tokens_sol_value (lp_token_supply pool_total_sol_value lp_tokens_amount : Z)
  : res Z :=
  if (pool_total_sol_value =? 0) || (lp_token_supply =? 0) then Ok 0
  else floor_apply pool_total_sol_value lp_token_supply lp_tokens_amount.

(** libs/s-controller-lib/src/calc.rs:85-108; result (to_reserves_lst_amount,
    to_protocol_fees_lst_amount) *)
Definition calc_add_liquidity_protocol_fees
  (lst_amount lst_amount_sol_value lst_amount_sol_value_after_fees lp_protocol_fee_bps : Z)
  : res (Z * Z) :=
  let lp_fees_sol_value := sat_sub lst_amount_sol_value lst_amount_sol_value_after_fees in
  protocol_fees_sol_value <- ceil_bps_fee lp_protocol_fee_bps lp_fees_sol_value ;;
  to_protocol_fees_lst_amount <-
    floor_apply lst_amount lst_amount_sol_value protocol_fees_sol_value ;;
  to_reserves_lst_amount <- checked_sub RatioMathErr lst_amount to_protocol_fees_lst_amount ;;
  Ok (to_reserves_lst_amount, to_protocol_fees_lst_amount).

(** libs/s-controller-lib/src/calc.rs:125-142 *)
Definition calc_remove_liquidity_protocol_fees
  (lp_tokens_sol_value lp_tokens_sol_value_after_fees to_user_lst_amount lp_protocol_fee_bps : Z)
  : res Z :=
  let lp_fees_sol_value := sat_sub lp_tokens_sol_value lp_tokens_sol_value_after_fees in
  protocol_fees_sol_value <- ceil_bps_fee lp_protocol_fee_bps lp_fees_sol_value ;;
  floor_apply to_user_lst_amount lp_tokens_sol_value_after_fees protocol_fees_sol_value.

(** libs/s-controller-lib/src/calc.rs:160-177 *)
Definition calc_swap_protocol_fees
  (in_sol_value out_sol_value dst_lst_out trading_protocol_fee_bps : Z) : res Z :=
  let fees_sol_value := sat_sub in_sol_value out_sol_value in
  protocol_fees_sol_value <- ceil_bps_fee trading_protocol_fee_bps fees_sol_value ;;
  floor_apply dst_lst_out out_sol_value protocol_fees_sol_value.
