(** Specification vocabulary for C60: what the client computes of a trade, and when it refuses a quote for what the
    chain would do. *)
From Coq Require Import ZArith List Bool.
From Verif Require Import Base Ratio Calc State Controller Spec Periph PeriphSpec Known Jup.
Import ListNotations.
Open Scope Z_scope.

(** The SOL values of a trade before and after its fee, by the client's own data and pricing, and the LST the client
    expresses the fee in: of a swap, what comes in and what goes out; of added liquidity, the deposit and what is
    credited; of a redemption, the LP tokens' share of the pool (its record of the paid-out LST updated first) and what
    is paid. *)
Definition trade_values (R : RatioLib) (SP : SPool) (mode : SwapMode) (src dst : key) (amount before after : Z) (fee_lst : LstData) : Prop :=
  let ep := jp_epoch SP in
  exists ps pp, jp_pool SP = Some ps /\ jp_pricing SP = Some pp /\
  if src =? lp_token_mint ps then
    exists ols ps1 ls1 b sup, find_ready_lst SP dst = Ok (ols, fee_lst) /\ jp_lp_supply SP = Some sup /\
      apply_sync_sol_value ep ps ols fee_lst = Ok (ps1, ls1, b) /\
      calc_lp_tokens_sol_value sup (total_sol_value ps1) amount = Ok before /\ kf_quote_redeem pp before = Ok after
  else if dst =? lp_token_mint ps then
    exists ils hi, find_ready_lst SP src = Ok (ils, fee_lst) /\
      kn_lst_to_sol ep (ld_calc fee_lst) amount = Ok (before, hi) /\ kf_quote_mint pp before = Ok after
  else
    exists ols, find_ready_lst SP dst = Ok (ols, fee_lst) /\
    match mode with
    | ExactIn => exists ils ild hi, find_ready_lst SP src = Ok (ils, ild) /\
        kn_lst_to_sol ep (ld_calc ild) amount = Ok (before, hi) /\ kf_quote_exact_in pp src dst before = Ok after
    | ExactOut => exists lo, kn_lst_to_sol ep (ld_calc fee_lst) amount = Ok (lo, after) /\
        kf_quote_exact_out R pp src dst after = Ok before
    end.

(** The only reasons for the client to refuse a quote for what the chain would do: the pricing program gives a rebate
    (more out of a swap than in); the fee, which the quote only reports, has no LST equivalent; a deposit worth
    nothing is the first while there are no LP tokens (it is credited with all the pool holds); or LP tokens worth
    nothing are redeemed for an LST whose stake pool is empty or charges everything (its rate is not covered by C23). *)
Definition overcautious (R : RatioLib) (SP : SPool) (mode : SwapMode) (src dst : key) (amount : Z) (e : err) : Prop :=
  exists before after fee_lst, trade_values R SP mode src dst amount before after fee_lst /\
    ((e = Ctl PoolWouldLoseSolValue /\ before < after /\
      forall ps, jp_pool SP = Some ps -> src <> lp_token_mint ps /\ dst <> lp_token_mint ps) \/
     (after <= before /\ kn_sol_to_lst R (jp_epoch SP) (ld_calc fee_lst) (before - after) = Err e) \/
     (e = RatioMathErr /\ before = 0 /\ jp_lp_supply SP = Some 0 /\
      forall ps, jp_pool SP = Some ps -> src <> lp_token_mint ps /\ dst = lp_token_mint ps) \/
     (e = RatioMathErr /\ before = 0 /\ (exists c, kn_calc (jp_epoch SP) (ld_calc fee_lst) = Ok c /\ ~ calc_live c) /\
      forall ps, jp_pool SP = Some ps -> src = lp_token_mint ps)).
