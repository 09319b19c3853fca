(** Specification of the seven instructions that value, trade and rebalance (C49): SyncSolValue, the two swaps,
    AddLiquidity, RemoveLiquidity, StartRebalance and EndRebalance. For each: which accounts must be passed, what
    the calculators and the pricing program are asked and in which order, every amount as a formula, and the
    resulting world. It uses no processor, resolver, check or arithmetic function of the model. *)
From Coq Require Import ZArith List Bool.
From Verif Require Import Base State Controller Spec AdminSpec.
Import ListNotations.
Open Scope Z_scope.

(* ------------------------------------------------------------------ *)
(** * Steps *)

(** The accounts [g] name the program [p], followed by the accounts [more] it is to be called with. *)
Definition calls (g : list Meta) (p : key) (more : list Meta) : Prop := exists m, g = m :: more /\ mk m = p.

(** Entry [i] is measured: its calculator, called with [more], is asked for the value of what the reserves
    hold now; its lower answer replaces the recorded value, and the total moves by the difference. *)
Inductive measured (D : Derive) (E : Env) (w : World) (i : Z) (more : list Meta) : World -> Prop :=
| measured_as ps before ls after v hi :
    the_pool w = Some ps -> the_list w = Some (before ++ ls :: after) -> Z.of_nat (length before) = i ->
    e_lst_to_sol E w (sol_value_calculator ls) (ls_mint ls) more
      (balance w (reserves_key D w (ls_mint ls))) = Ok (v, hi) ->
    U64 v -> U64 hi -> total_sol_value ps - sol_value ls + v <= U64_MAX ->
    measured D E w i more
      (put_list
         (put_pool w POOL_STATE_ID
            (Some (mkPool (total_sol_value ps - sol_value ls + v) (trading_protocol_fee_bps ps)
               (lp_protocol_fee_bps ps) (version ps) (is_disabled ps) (is_rebalancing ps) (admin ps)
               (rebalance_authority ps) (protocol_fee_beneficiary ps) (pricing_program ps) (lp_token_mint ps))))
         LST_STATE_LIST_ID
         (Some (before ++ mkLst (is_input_disabled ls) (pool_reserves_bump ls) (protocol_fee_accumulator_bump ls)
            v (ls_mint ls) (sol_value_calculator ls) :: after))).

(** [account_of w k m t]: [k] is a token account of the mint [m], of the program that owns [m]. *)
Definition account_of (w : World) (k m : key) (t : TokAcct) : Prop :=
  w_tok w k = Some t /\ ta_mint t = m /\ w_owner w k = w_owner w m.

(** [amount] tokens of the mint [m] move from [from], which [owner] owns, to [to]. *)
Inductive paid (w : World) (m from to owner : key) (amount : Z) : World -> Prop :=
| paid_across f t :
    from <> to -> account_of w from m f -> account_of w to m t -> ta_owner f = owner ->
    amount <= ta_amount f -> ta_amount t + amount <= U64_MAX ->
    paid w m from to owner amount
      (put_tok (put_tok w from (Some (mkTok m owner (ta_amount f - amount)))) to
         (Some (mkTok m (ta_owner t) (ta_amount t + amount))))
| paid_to_itself f :
    from = to -> account_of w from m f -> ta_owner f = owner -> amount <= ta_amount f ->
    paid w m from to owner amount w.

(** [amount] pool tokens (of the mint [lp]) are created into [to], or destroyed from [from]. *)
Inductive minted (w : World) (lp to : key) (amount : Z) : World -> Prop :=
| minted_to t mi :
    account_of w to lp t -> w_mint w lp = Some mi ->
    ta_amount t + amount <= U64_MAX -> m_supply mi + amount <= U64_MAX ->
    minted w lp to amount
      (put_mint (put_tok w to (Some (mkTok lp (ta_owner t) (ta_amount t + amount)))) lp
         (Some (mkMint (m_supply mi + amount) (m_decimals mi) (m_auth mi) (m_freeze mi)))).
Inductive burned (w : World) (lp from owner : key) (amount : Z) : World -> Prop :=
| burned_from f mi :
    account_of w from lp f -> ta_owner f = owner -> w_mint w lp = Some mi ->
    amount <= ta_amount f -> amount <= m_supply mi ->
    burned w lp from owner amount
      (put_mint (put_tok w from (Some (mkTok lp owner (ta_amount f - amount)))) lp
         (Some (mkMint (m_supply mi - amount) (m_decimals mi) (m_auth mi) (m_freeze mi)))).

(* ------------------------------------------------------------------ *)
(** * Amounts *)

(** The protocol's part of a fee of [gain], rounded up: ceil(gain * bps / 10000). *)
Definition protocol_part (bps gain : Z) : Z := (gain * bps + 9999) / 10000.
(** [part] of [value], as the same part of [tokens], rounded down; nothing if [value] is 0. *)
Definition in_tokens (part tokens value : Z) : Z := if value =? 0 then 0 else part * tokens / value.
(** Protocol fee of a swap: its part of what the pool gains in value, in destination tokens. *)
Definition swap_fee (bps in_sol out_sol out : Z) : Z :=
  in_tokens (protocol_part bps (Z.max 0 (in_sol - out_sol))) out out_sol.
(** Pool tokens for a deposit worth [value] after fees: all of the pool's value if there are none yet, one for
    one if the pool is worth nothing, otherwise in proportion, rounded down. *)
Definition shares_for (supply total value : Z) : Z :=
  if supply =? 0 then total + value else if total =? 0 then value else value * supply / total.
(** Value of [shares] pool tokens, rounded down. *)
Definition worth_of (supply total shares : Z) : Z := if supply =? 0 then 0 else shares * total / supply.

(* ------------------------------------------------------------------ *)
(** * The rules *)

(** The accounts every swap passes: the user [who] pays from [from] and receives in [to]. *)
Definition swap_asks (D : Derive) (w : World) (src dst who from to : key) : list Ask :=
  [signs who; reads src; reads dst; writes from; writes to; writes (accumulator_key D w dst);
   reads (w_owner w src); reads (w_owner w dst); writes POOL_STATE_ID; writes LST_STATE_LIST_ID;
   writes (reserves_key D w src); writes (reserves_key D w dst)].

(** What follows them: the two calculators with their accounts — [n] and [m] of them, programs included — and the
    pricing program with its accounts. *)
Definition swap_groups (more : list Meta) (n m : Z) (ps : PoolState) (s d : LstState) (ms md mp : list Meta) : Prop :=
  exists gs gd gp, more = gs ++ gd ++ gp /\ Z.of_nat (length gs) = n /\ Z.of_nat (length gd) = m /\
    calls gs (sol_value_calculator s) ms /\ calls gd (sol_value_calculator d) md /\ calls gp (pricing_program ps) mp.

(** Once the amounts are known: the user pays in, the protocol's fee and the user's tokens leave the destination
    reserves, both sides are measured again, and the pool must not be worth less. *)
Definition swap_settled (D : Derive) (E : Env) (w : World) (i j : Z) (src dst who from to : key)
  (ms md : list Meta) (pay out fee : Z) (w' : World) : Prop :=
  exists w1 w2 w3 w4,
    out + fee <= balance w (reserves_key D w dst) /\
    paid w src from (reserves_key D w src) who pay w1 /\
    paid w1 dst (reserves_key D w dst) (accumulator_key D w dst) POOL_STATE_ID fee w2 /\
    paid w2 dst (reserves_key D w dst) to POOL_STATE_ID out w3 /\
    measured D E w3 i ms w4 /\ measured D E w4 j md w' /\ total w <= total w'.

Definition liq_asks (D : Derive) (w : World) (ps : PoolState) (m who lst_acc lp_acc : key) : list Ask :=
  [signs who; reads m; writes lst_acc; writes lp_acc; writes (lp_token_mint ps); writes (accumulator_key D w m);
   reads (w_owner w m); reads SPL_TOKEN_ID; writes POOL_STATE_ID; writes LST_STATE_LIST_ID;
   writes (reserves_key D w m)].
Definition liq_groups (more : list Meta) (n : Z) (ps : PoolState) (ls : LstState) (ms mp : list Meta) : Prop :=
  exists gs gp, more = gs ++ gp /\ Z.of_nat (length gs) = n /\
    calls gs (sol_value_calculator ls) ms /\ calls gp (pricing_program ps) mp.

Definition is_trade_ix (ix : Ix) : bool := negb (is_admin_ix ix).

(** [trade_rule D E C w ix asked more w']: in [w], within the transaction [C], the call [ix] passing the accounts
    [asked] and after them [more] is permitted, and leads to [w']. *)
Inductive trade_rule (D : Derive) (E : Env) (C : Ctx) (w : World) : Ix -> list Ask -> list Meta -> World -> Prop :=

(** Anybody has an entry of a running pool measured. *)
| may_sync ps i before ls after g more w' :
    the_pool w = Some ps -> running ps -> the_list w = Some (before ++ ls :: after) ->
    Z.of_nat (length before) = i -> calls g (sol_value_calculator ls) more ->
    measured D E w i more w' ->
    trade_rule D E C w (SyncSolValue i)
      [reads (ls_mint ls); writes POOL_STATE_ID; writes LST_STATE_LIST_ID; reads (reserves_key D w (ls_mint ls))]
      g w'

(** A swap of exactly [amount]: both sides are measured; the source calculator values [amount] at (its lower
    answer) [in_sol], the pricing program prices that at [out_sol], the destination calculator turns it into (its
    lower answer) [out] tokens. *)
| may_swap_exact_in ps l s d n m i j min amount who from to more ms md mp w1 w2 in_sol in_hi out_sol out out_hi w' :
    the_pool w = Some ps -> running ps -> the_list w = Some l ->
    nth_error l (Z.to_nat i) = Some s -> nth_error l (Z.to_nat j) = Some d -> ls_mint s <> ls_mint d ->
    is_input_disabled s = 0 -> swap_groups more n m ps s d ms md mp -> amount <> 0 ->
    measured D E w i ms w1 -> measured D E w1 j md w2 ->
    e_lst_to_sol E w2 (sol_value_calculator s) (ls_mint s) ms amount = Ok (in_sol, in_hi) ->
    U64 in_sol -> U64 in_hi -> in_sol <> 0 ->
    e_price_exact_in E w2 (pricing_program ps) (ls_mint s) (ls_mint d) mp amount in_sol = Ok out_sol -> U64 out_sol ->
    e_sol_to_lst E w2 (sol_value_calculator d) (ls_mint d) md out_sol = Ok (out, out_hi) -> U64 out -> U64 out_hi ->
    min <= out -> out <> 0 ->
    swap_settled D E w2 i j (ls_mint s) (ls_mint d) who from to ms md amount out
      (swap_fee (trading_protocol_fee_bps ps) in_sol out_sol out) w' ->
    trade_rule D E C w (SwapExactIn (mkSwapIn n m i j min amount))
      (swap_asks D w (ls_mint s) (ls_mint d) who from to) more w'

(** A swap for exactly [amount]: the other way round, with the upper answers. *)
| may_swap_exact_out ps l s d n m i j max amount who from to more ms md mp w1 w2 out_lo out_sol in_sol pay_lo pay w' :
    the_pool w = Some ps -> running ps -> the_list w = Some l ->
    nth_error l (Z.to_nat i) = Some s -> nth_error l (Z.to_nat j) = Some d -> ls_mint s <> ls_mint d ->
    is_input_disabled s = 0 -> swap_groups more n m ps s d ms md mp -> amount <> 0 -> max <> 0 ->
    measured D E w i ms w1 -> measured D E w1 j md w2 ->
    e_lst_to_sol E w2 (sol_value_calculator d) (ls_mint d) md amount = Ok (out_lo, out_sol) ->
    U64 out_lo -> U64 out_sol -> out_sol <> 0 ->
    e_price_exact_out E w2 (pricing_program ps) (ls_mint s) (ls_mint d) mp amount out_sol = Ok in_sol -> U64 in_sol ->
    e_sol_to_lst E w2 (sol_value_calculator s) (ls_mint s) ms in_sol = Ok (pay_lo, pay) -> U64 pay_lo -> U64 pay ->
    pay <= max -> pay <> 0 ->
    swap_settled D E w2 i j (ls_mint s) (ls_mint d) who from to ms md pay amount
      (swap_fee (trading_protocol_fee_bps ps) in_sol out_sol amount) w' ->
    trade_rule D E C w (SwapExactOut (mkSwapOut n m i j max amount))
      (swap_asks D w (ls_mint s) (ls_mint d) who from to) more w'

(** A deposit of [amount]: the entry is measured; its calculator values [amount] at [value], the pricing program
    leaves [net] of it; of the difference the protocol takes its part in tokens, everything else goes to the
    reserves, and pool tokens are created for [net]. The pool must not be worth less afterwards. *)
| may_add_liquidity ps l ls n i amount min who from to more ms mp w1 value value_hi net shares fee w2 w3 w4 w' :
    the_pool w = Some ps -> running ps -> the_list w = Some l -> nth_error l (Z.to_nat i) = Some ls ->
    is_input_disabled ls = 0 -> liq_groups more n ps ls ms mp -> amount <> 0 ->
    measured D E w i ms w1 ->
    e_lst_to_sol E w1 (sol_value_calculator ls) (ls_mint ls) ms amount = Ok (value, value_hi) ->
    U64 value -> U64 value_hi ->
    e_price_lp_to_mint E w1 (pricing_program ps) (ls_mint ls) mp amount value = Ok net -> 0 <= net <= value ->
    fee = in_tokens (protocol_part (lp_protocol_fee_bps ps) (value - net)) amount value -> fee <> amount ->
    shares = shares_for (supply w1 (lp_token_mint ps)) (total w1) net -> shares <> 0 -> min <= shares ->
    paid w1 (ls_mint ls) from (reserves_key D w (ls_mint ls)) who (amount - fee) w2 ->
    paid w2 (ls_mint ls) from (accumulator_key D w (ls_mint ls)) who fee w3 ->
    minted w3 (lp_token_mint ps) to shares w4 ->
    measured D E w4 i ms w' -> total w1 <= total w' ->
    trade_rule D E C w (AddLiquidity (mkAddLiq n i amount min))
      (liq_asks D w ps (ls_mint ls) who from to) more w'

(** A redemption of [shares] pool tokens: the entry is measured; the shares are worth [value], the pricing
    program leaves [net] of it, the calculator turns that into [out] tokens; the protocol takes its part of the
    difference in tokens too. *)
| may_remove_liquidity ps l ls n i shares min who to from more ms mp w1 value net out out_hi fee w2 w3 w4 w' :
    the_pool w = Some ps -> running ps -> the_list w = Some l -> nth_error l (Z.to_nat i) = Some ls ->
    liq_groups more n ps ls ms mp -> shares <> 0 ->
    measured D E w i ms w1 ->
    value = worth_of (supply w1 (lp_token_mint ps)) (total w1) shares ->
    e_price_lp_to_redeem E w1 (pricing_program ps) (ls_mint ls) mp shares value = Ok net -> 0 <= net <= value ->
    e_sol_to_lst E w1 (sol_value_calculator ls) (ls_mint ls) ms net = Ok (out, out_hi) -> U64 out -> U64 out_hi ->
    out <> 0 -> min <= out ->
    fee = in_tokens (protocol_part (lp_protocol_fee_bps ps) (value - net)) out net ->
    burned w1 (lp_token_mint ps) from who shares w2 ->
    paid w2 (ls_mint ls) (reserves_key D w (ls_mint ls)) to POOL_STATE_ID out w3 ->
    paid w3 (ls_mint ls) (reserves_key D w (ls_mint ls)) (accumulator_key D w (ls_mint ls)) POOL_STATE_ID fee w4 ->
    measured D E w4 i ms w' ->
    trade_rule D E C w (RemoveLiquidity (mkRemLiq n i shares min))
      (liq_asks D w ps (ls_mint ls) who to from) more w'

(** The rebalance authority takes [amount] out of the source reserves, in a transaction that ends the rebalance
    later, if the balances are what it expected; the total before is kept on record. *)
| may_start_rebalance ps ps4 l s d n i j amount min_src max_dst to gs gd ms md w1 w2 w3 w4 :
    the_pool w = Some ps -> running ps -> the_list w = Some l ->
    nth_error l (Z.to_nat i) = Some s -> nth_error l (Z.to_nat j) = Some d -> is_input_disabled d = 0 ->
    Z.of_nat (length gs) = n -> calls gs (sol_value_calculator s) ms -> calls gd (sol_value_calculator d) md ->
    min_src <= balance w (reserves_key D w (ls_mint s)) -> balance w (reserves_key D w (ls_mint d)) <= max_dst ->
    end_scheduled C (ls_mint d) ->
    measured D E w i ms w1 -> measured D E w1 j md w2 ->
    paid w2 (ls_mint s) (reserves_key D w (ls_mint s)) to POOL_STATE_ID amount w3 ->
    measured D E w3 i ms w4 -> the_pool w4 = Some ps4 ->
    trade_rule D E C w (StartRebalance (mkStartReb n i j amount min_src max_dst))
      [signs (rebalance_authority ps); writes POOL_STATE_ID; writes LST_STATE_LIST_ID; writes REBALANCE_RECORD_ID;
       reads (ls_mint s); reads (ls_mint d); writes (reserves_key D w (ls_mint s));
       writes (reserves_key D w (ls_mint d)); writes to; reads INSTRUCTIONS_SYSVAR_ID; reads SYSTEM_PROGRAM_ID;
       reads (w_owner w (ls_mint s))]
      (gs ++ gd)
      (put_pool (put_rec w4 REBALANCE_RECORD_ID (Some (mkRec (total w2) j))) POOL_STATE_ID
         (Some (mkPool (total_sol_value ps4) (trading_protocol_fee_bps ps4) (lp_protocol_fee_bps ps4) (version ps4)
            (is_disabled ps4) 1 (admin ps4) (rebalance_authority ps4) (protocol_fee_beneficiary ps4)
            (pricing_program ps4) (lp_token_mint ps4))))

(** The rebalance authority ends it: the destination is measured, and the total must be at least what it was. *)
| may_end_rebalance ps r l d g md w2 :
    the_pool w = Some ps -> is_rebalancing ps <> 0 -> the_record w = Some r -> the_list w = Some l ->
    nth_error l (Z.to_nat (dst_lst_index r)) = Some d -> calls g (sol_value_calculator d) md ->
    measured D E
      (put_pool w POOL_STATE_ID
         (Some (mkPool (total_sol_value ps) (trading_protocol_fee_bps ps) (lp_protocol_fee_bps ps) (version ps)
            (is_disabled ps) 0 (admin ps) (rebalance_authority ps) (protocol_fee_beneficiary ps)
            (pricing_program ps) (lp_token_mint ps))))
      (dst_lst_index r) md w2 ->
    old_total_sol_value r <= total w2 ->
    trade_rule D E C w EndRebalance
      [signs (rebalance_authority ps); writes POOL_STATE_ID; writes LST_STATE_LIST_ID; writes REBALANCE_RECORD_ID;
       reads (ls_mint d); reads (reserves_key D w (ls_mint d))]
      g (put_rec w2 REBALANCE_RECORD_ID None).
