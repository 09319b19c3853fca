{
 "claims": [
  {
   "property": "C01",
   "status": "proved",
   "theorems": [
    "C01_total_is_sum"
   ],
   "note": "Invariant over every reachable world (any history of controller instructions under any oracle, accounts and arguments, interleaved with outside token movements)."
  },
  {
   "property": "C02",
   "status": "proved",
   "theorems": [
    "C02_no_duplicate_lst"
   ],
   "note": "Invariant; stated both as NoDup of the mints and as equality of indexes."
  },
  {
   "property": "C03",
   "status": "proved",
   "theorems": [
    "C03_authorities_distinct",
    "C03_add_appends",
    "C03_remove_takes_one"
   ],
   "note": "Invariant plus the exact effect of adding and removing an authority."
  },
  {
   "property": "C04",
   "status": "proved",
   "theorems": [
    "C04_swap_exact_in",
    "C04_swap_exact_out"
   ],
   "note": "For any calculator and pricing answers; the value before is re-measured on both legs first, as the program does."
  },
  {
   "property": "C05",
   "status": "proved",
   "theorems": [
    "C05_add_liquidity"
   ],
   "note": "For any calculator and pricing answers."
  },
  {
   "property": "C06",
   "status": "proved",
   "theorems": [
    "C06_shipped_rate",
    "C06_shipped",
    "C06_add_liquidity",
    "C06_no_dilution"
   ],
   "note": "Exact formula of the mint, plus no dilution when the calculator values at floor(x*n/d); bounded shortfall (e-1)*supply otherwise. The pool value recorded is the calculator minimum. C06_shipped gives the result for the shipped calculators and pricing programs; those that charge nothing are of rate form (C06_shipped_rate)."
  },
  {
   "property": "C07",
   "status": "proved",
   "theorems": [
    "C07_shipped",
    "C07_fee_covers",
    "C07_shipped_price",
    "C07_share",
    "C07_price",
    "C07_exact_price_refuted"
   ],
   "note": "Share bound for any oracle; price bound for calculators of rate form; the exact monotone-price statement is refuted by a concrete reachable witness (C07_exact_price_refuted). C07_shipped and C07_shipped_price give the result with the shipped programs."
  },
  {
   "property": "C08",
   "status": "proved",
   "theorems": [
    "C08_add_liquidity",
    "C08_remove_liquidity",
    "C08_swap_exact_in",
    "C08_swap_exact_out",
    "C08_rate_above_100_refused"
   ],
   "note": "Split, ceiling and bounds stated with bps_share of Spec.v, process-level."
  },
  {
   "property": "C09",
   "status": "proved",
   "theorems": [
    "C09_swap_exact_in",
    "C09_swap_exact_out",
    "C09_add_liquidity",
    "C09_remove_liquidity"
   ],
   "note": "Process-level, from the balances before and after."
  },
  {
   "property": "C10",
   "status": "proved",
   "theorems": [
    "C10_conserved",
    "C10_others_untouched",
    "C10_backed",
    "C10_supply",
    "C10_minted_to_user"
   ],
   "note": "Over arbitrary account lists, including aliased accounts. C10_backed: a mint whose holders together hold at most its supply stays one."
  },
  {
   "property": "C11",
   "status": "proved",
   "theorems": [
    "C11_transaction",
    "C11_between_transactions"
   ],
   "note": "Transactions with arbitrary nested calls, instruction granularity inside; the runtime commit rule is the trusted part."
  },
  {
   "property": "C12",
   "status": "proved",
   "theorems": [
    "C12_rebalance_keeps_value",
    "C12_transaction"
   ],
   "note": "Instruction-level pair with arbitrary steps in between, and transaction-level version."
  },
  {
   "property": "C13",
   "status": "proved",
   "theorems": [
    "C13_only_these",
    "C13_frozen",
    "C13_end_keeps_listing"
   ],
   "note": "Every instruction, every history between start and end."
  },
  {
   "property": "C14",
   "status": "proved",
   "theorems": [
    "C14_flag_iff_record"
   ],
   "note": "Invariant."
  },
  {
   "property": "C15",
   "status": "proved",
   "theorems": [
    "C15_disabled_inert"
   ],
   "note": "Every instruction; effects stated field by field."
  },
  {
   "property": "C16",
   "status": "proved",
   "theorems": [
    "C16_pool_settings",
    "C16_listing",
    "C16_authorities",
    "C16_rebalance"
   ],
   "note": "Every instruction, each setting."
  },
  {
   "property": "C17",
   "status": "proved",
   "theorems": [
    "C17_fee_rates_bounded",
    "C17_excess_refused",
    "C17_set_fee_effect"
   ],
   "note": "Invariant, plus refusal and exact effect of SetProtocolFee."
  },
  {
   "property": "C18",
   "status": "proved",
   "theorems": [
    "C18_index",
    "C18_mint"
   ],
   "note": "By index and by mint; the case shows that it can still be taken out."
  },
  {
   "property": "C19",
   "status": "proved",
   "theorems": [
    "C19_delist"
   ],
   "note": "Process-level."
  },
  {
   "property": "C20",
   "status": "proved",
   "theorems": [
    "C20_meaning",
    "C20_append",
    "C20_remove",
    "C20_field_writes"
   ],
   "note": "Byte-level model of list_account.rs incl. memmove; lists of any length."
  },
  {
   "property": "C21",
   "status": "proved",
   "theorems": [
    "C21_pool_state",
    "C21_lst_state",
    "C21_rebalance_record",
    "C21_offsets",
    "C21_pool_field_writes"
   ],
   "note": "Byte-level model of the bytemuck/borsh layouts."
  },
  {
   "property": "C22",
   "status": "proved",
   "theorems": [
    "C22_roundtrip",
    "C22_unambiguous",
    "C22_accepted_only",
    "C22_truncated_refused",
    "C22_end_rebalance",
    "C22_unknown_refused",
    "C22_entrypoint"
   ],
   "note": "Byte-level model of the generated borsh instruction codecs and of the entrypoint."
  },
  {
   "property": "C23",
   "status": "proved",
   "theorems": [
    "C23_lst_to_sol_exact",
    "C23_wsol",
    "C23_monotone",
    "C23_superadditive",
    "C23_sol_to_lst_bracket",
    "C23_round_trip"
   ],
   "note": "Program-level: LstToSol characterised exactly (iff); SolToLst bracket rests on the contract ratio_lib_ok assumed of the external ratio crate (met by a reference implementation)."
  },
  {
   "property": "C24",
   "status": "proved",
   "theorems": [
    "C24_exact_in",
    "C24_exact_in_bounded",
    "C24_exact_in_refused",
    "C24_exact_out",
    "C24_redeem",
    "C24_redeem_bounded",
    "C24_mint_free",
    "C24_no_fee"
   ],
   "note": "Exact-in and redeem characterised exactly (iff) in every reachable state; exact-out rests on ratio_lib_ok, and says nothing when the fees sum to exactly 100%."
  },
  {
   "property": "C25",
   "status": "proved",
   "theorems": [
    "C25_quote",
    "C25_liquidity_certain",
    "C25_exit"
   ],
   "note": "All four quote kinds. Needs: the cache equal to the chain (in_sync), calculators acknowledged by their managers, pool neither disabled nor rebalancing (the client does not check this), source and destination mints different (nor this). C25_exit: a funded redemption quote for something cannot be refused; C25_liquidity_certain: nor a funded deposit, unless the pool outgrows 64 bits. The ratio crate is used through ratio_lib_ok."
  },
  {
   "property": "C26",
   "status": "proved",
   "theorems": [
    "C26_shipped",
    "C26_add_then_remove"
   ],
   "note": "Process-level: deposit immediately followed by redemption. C26_shipped: with the shipped programs, in tokens."
  },
  {
   "property": "C27",
   "status": "proved",
   "theorems": [
    "C27_needs_end",
    "C27_enough",
    "C27_others_ignore"
   ],
   "note": "Necessary and sufficient; other instructions ignore introspection."
  },
  {
   "property": "C28",
   "status": "proved",
   "theorems": [
    "C28_suffix_split",
    "C28_only_the_groups"
   ],
   "note": "Split of the suffix and non-interference of calls to other groups."
  },
  {
   "property": "C29",
   "status": "proved",
   "theorems": [
    "C29_initialize_conditions",
    "C29_never_again"
   ],
   "note": "Conditions and once-only over histories."
  },
  {
   "property": "C30",
   "status": "proved",
   "theorems": [
    "C30_only_withdraw",
    "C30_exact"
   ],
   "note": "Every instruction, with any aliasing."
  },
  {
   "property": "C31",
   "status": "proved",
   "theorems": [
    "C31_only_paid"
   ],
   "note": "Every instruction, with any aliasing."
  },
  {
   "property": "C32",
   "status": "proved",
   "theorems": [
    "C32_recorded_figures_fit"
   ],
   "note": "Invariant, with an overflow case that fails."
  },
  {
   "property": "C33",
   "status": "proved",
   "theorems": [
    "C33_canonical_accounts",
    "C33_reserve_accounts",
    "C33_accumulator_accounts",
    "C33_found_accounts"
   ],
   "note": "Every instruction position that must be canonical."
  },
  {
   "property": "C34",
   "status": "proved",
   "theorems": [
    "C34_sync",
    "C34_swap_exact_in",
    "C34_swap_exact_out",
    "C34_add_liquidity",
    "C34_remove_liquidity",
    "C34_unlisted",
    "C34_disable_lst_input",
    "C34_enable_lst_input",
    "C34_add_lst",
    "C34_remove_lst",
    "C34_set_sol_value_calculator",
    "C34_set_admin",
    "C34_set_protocol_fee",
    "C34_set_protocol_fee_beneficiary",
    "C34_set_pricing_program",
    "C34_withdraw_protocol_fees",
    "C34_add_disable_pool_authority",
    "C34_remove_disable_pool_authority",
    "C34_disable_pool",
    "C34_enable_pool",
    "C34_set_rebalance_authority",
    "C34_start_rebalance",
    "C34_rebalance_pair",
    "C34_initialize"
   ],
   "note": "Every builder of the client library for the main program id, from any stale-but-still-good view of a reachable state; start/end pair across arbitrary steps of other programs. The _for_prog variants (other deployments) are not modelled."
  },
  {
   "property": "C35",
   "status": "proved",
   "theorems": [
    "C35_no_swallowed_failure"
   ],
   "note": "The runtime undoing a failed transaction is trusted; what the controller must do (never swallow an error of a program it calls) is proved."
  },
  {
   "property": "C36",
   "status": "proved",
   "theorems": [
    "C36_only_current",
    "C36_stale_refused",
    "C36_only_manager_reenables",
    "C36_silent_after_upgrade",
    "C36_upgrade_error"
   ],
   "note": "Over histories: silent from an upgrade until a manager-signed update."
  },
  {
   "property": "C37",
   "status": "proved",
   "theorems": [
    "C37_no_panic"
   ],
   "note": "Panic is an explicit error outcome of the model at each indexing, unwrap and slice operation of the code."
  },
  {
   "property": "C38",
   "status": "proved",
   "theorems": [
    "C38_footprint"
   ],
   "note": "Every instruction."
  },
  {
   "property": "C39",
   "status": "proved",
   "theorems": [
    "C39_listed_accounts_exist",
    "C39_lp_mint",
    "C39_accounts_disjoint"
   ],
   "note": "Invariant."
  },
  {
   "property": "C40",
   "status": "proved",
   "theorems": [
    "C40_effects",
    "C40_state_shape",
    "C40_manager_changes",
    "C40_init_once",
    "C40_manager_can_update"
   ],
   "note": "Every instruction and history."
  },
  {
   "property": "C41",
   "status": "proved",
   "theorems": [
    "C41_fee_bounds",
    "C41_effects",
    "C41_only_manager",
    "C41_init_once",
    "C41_manager_can_set_fee"
   ],
   "note": "Every instruction and history."
  },
  {
   "property": "C42",
   "status": "proved",
   "theorems": [
    "C42_lst_to_sol",
    "C42_sol_to_lst",
    "C42_no_contradiction",
    "C42_price_exact_in",
    "C42_price_exact_out",
    "C42_price_lp"
   ],
   "note": "All six calculators and the flat-fee program, iff. The library reads the same cached bytes; pricing needs a reachable flat-fee program state."
  },
  {
   "property": "C43",
   "status": "proved",
   "theorems": [
    "C43_refresh",
    "C43_two_updates",
    "C43_quote",
    "C43_keeps"
   ],
   "note": "Assumes the fetched accounts are one consistent snapshot of the chain; the list of known LSTs (external crate) names each mint's token program and the Lido/Marinade/wSOL mints correctly."
  },
  {
   "property": "C44",
   "status": "proved",
   "theorems": [
    "C44_recorded_is_backed",
    "C44_value_per_token",
    "C44_never_falls",
    "C44_total_never_falls",
    "C44_rounding",
    "C44_shipped_backed",
    "C44_shipped_value",
    "C44_shipped_rounding",
    "C44_shipped_honest"
   ],
   "note": "From genesis, any history. Two versions: calculators at floor(x*n/d) (fair_history; the shipped ones that charge nothing are such: C44_shipped_honest), and all six shipped calculators, fees included (shipped_history). C44_rounding and C44_shipped_rounding bound what one redemption counts for. LST values never fall (slashing is excluded)."
  },
  {
   "property": "C45",
   "status": "proved",
   "theorems": [
    "C45_requests",
    "C45_calc_call",
    "C45_price_call",
    "C45_program",
    "C45_calc_codec",
    "C45_flat_codec",
    "C45_unknown_refused",
    "C45_queries_change_nothing",
    "C45_kept_typed",
    "C45_layouts",
    "C45_field_writes"
   ],
   "note": "Byte-level model of the CPI requests, of each program entry point, of return data and of the three account layouts. Return data reaching the caller is the runtime's doing (get_borsh_return_data is external)."
  },
  {
   "property": "C46",
   "status": "proved",
   "theorems": [
    "C46_metas",
    "C46_fees",
    "C46_reserve_mints",
    "C46_quotes_named",
    "C46_routed"
   ],
   "note": "jup_ix (specification) is how Jupiter turns a swap description and the final amounts into the controller instruction; Jupiter itself is not in /repo. The fee percentage is an exact fraction where the code has a Decimal."
  },
  {
   "property": "C47",
   "status": "proved",
   "theorems": [
    "C47_accepted",
    "C47_effect",
    "C47_again",
    "C47_full_sync",
    "C47_order"
   ],
   "note": "Acceptance is an equivalence. Repetition and order need calculators whose answers do not depend on the controller's own accounts and stay the same during the run."
  },
  {
   "property": "C48",
   "status": "proved",
   "theorems": [
    "C48_permitted",
    "C48_only_permitted",
    "C48_accepted",
    "C48_one_effect",
    "C48_admin_never_locked_out",
    "C48_rebalancing_refuses"
   ],
   "note": "Equivalence (C48_permitted, C48_only_permitted, C48_accepted) against the inductive rules of AdminSpec.v, which use no processor, resolver or field-update function of the model. Rent and lamports: C55."
  },
  {
   "property": "C49",
   "status": "proved",
   "theorems": [
    "C49_permitted",
    "C49_only_permitted",
    "C49_exactly",
    "C49_one_outcome",
    "C49_every_instruction"
   ],
   "note": "Equivalence (C49_exactly; C49_every_instruction for all 23) against the inductive rules of TradeSpec.v, which use no processor, resolver, check or arithmetic function of the model. The external programs are any functions of the state and the request (Env)."
  },
  {
   "property": "C50",
   "status": "proved",
   "theorems": [
    "C50_exit",
    "C50_shipped_steady",
    "C50_deposit",
    "C50_held",
    "C50_held_whole",
    "C50_held_shipped",
    "C50_solvent",
    "C50_donation"
   ],
   "note": "C50_held: calculators at rates n/d; C50_held_shipped: all six shipped calculators, fees included. C50_exit asks of the external programs only that they answer and do not react to the controller's own accounts (steady; the shipped ones are: C50_shipped_steady). C50_donation is a reachable witness that the bound is one LP token price and that min_lp_out is what protects a depositor. LST rates never fall, as in C44 (losses: C56)."
  },
  {
   "property": "C51",
   "status": "proved",
   "theorems": [
    "C51_withdraw_sol",
    "C51_withdraw_sol_least",
    "C51_stake",
    "C51_stake_loop",
    "C51_sol",
    "C51_sol_exact",
    "C51_refusals",
    "C51_sol_short"
   ],
   "note": "The stake pools' own quotes (what they pay out or mint) are arbitrary inputs; sanctum's stake SDKs, RPC and sending transactions are not modelled. C51_sol_short is a reachable witness that rebal-sol's figure can be one unit short."
  },
  {
   "property": "C52",
   "status": "proved",
   "theorems": [
    "C52_all_forced",
    "C52_all",
    "C52_sync",
    "C52_all_cancel"
   ],
   "note": "RPC, compute budget and signing are not modelled; the simulation and the transaction see the same state, and no other transaction comes between the fetch and the last send. C52_all_cancel is a reachable witness that sync-all without --force can leave LSTs stale when their changes cancel out."
  },
  {
   "property": "C53",
   "status": "proved",
   "theorems": [
    "C53_file_calculator",
    "C53_goes_through",
    "C53_only",
    "C53_payer_account"
   ],
   "note": "Equivalence (C53_goes_through, C53_only) against the inductive rules of CliAdminSpec.v, which use no client builder, processor or plan of the model. The state fetched is the state acted on (C57 lifts that); RPC, transaction fees and confirmation are not modelled (lamports: C55), --program is its default. C53_payer_account: the defect of withdraw_protocol_fees.rs:97-103."
  },
  {
   "property": "C54",
   "status": "proved",
   "theorems": [
    "C54_flat_goes_through",
    "C54_flat_only",
    "C54_batch",
    "C54_batch_blocked",
    "C54_anyone_can_block",
    "C54_price_exact_in",
    "C54_price_exact_out",
    "C54_price_redeem",
    "C54_calc_goes_through",
    "C54_calc_only"
   ],
   "note": "Equivalences against the rules of PeriphCliSpec.v. Accounts that hold only lamports are not modelled (such a gift to the state address stops the tools' init commands, not the programs'); RPC, compilation and size of the batch transaction are not modelled."
  },
  {
   "property": "C55",
   "status": "proved",
   "theorems": [
    "C55_rent_exempt",
    "C55_flows",
    "C55_who_loses",
    "C55_conserved",
    "C55_never_stuck",
    "C55_payer_had_it",
    "C55_pool_keeps",
    "C55_listing_refunded",
    "C55_commands",
    "C55_flat_commands",
    "C55_calc_commands",
    "C55_flat_goes_through"
   ],
   "note": "Rent.v models the lamport movements of every controller instruction, of the flat-fee and calculator programs and of the tools' commands. External and modelled by contract: sanctum_system_program_lib, the associated-token program (creation tops up what is missing), the token programs' close_account and the rent sysvar (any positive monotone function of the size). Transaction fees and the SOL inside wrapped-SOL token accounts are not modelled."
  },
  {
   "property": "C56",
   "status": "proved",
   "theorems": [
    "C56_overstated",
    "C56_overstated_genesis",
    "C56_value_per_token",
    "C56_shipped_value",
    "C56_held"
   ],
   "note": "Two versions, as in C44: calculators at rates n/d (loss_history) and all six shipped calculators (loss_shipped). Starts in any reachable state. C56_case is a reachable witness that a holder can escape an unrecorded loss and that the bound is met. C56_held is at rates n/d."
  },
  {
   "property": "C57",
   "status": "proved",
   "theorems": [
    "C57_as_if_built_now",
    "C57_tool_as_if_typed_now",
    "C57_tool_effect",
    "C57_swap_exact_in",
    "C57_swap_exact_out",
    "C57_add_liquidity",
    "C57_remove_liquidity"
   ],
   "note": "The view is unconstrained. The builders are those of Client.v (the trusted resolvers of s-controller-lib), the plans those of CliAdmin.v. EndRebalance reads nothing but the StartRebalance instruction (C34). The trader theorems assume the receiving account is not one of the pool's and that the PDAs do not sign."
  },
  {
   "property": "C58",
   "status": "proved",
   "theorems": [
    "C58_no_fee",
    "C58_no_fee_histories",
    "C58_total",
    "C58_swap_exact_in_value",
    "C58_swap_exact_out_value",
    "C58_swap_exact_in_moves",
    "C58_swap_exact_out_moves",
    "C58_add_liquidity",
    "C58_remove_liquidity",
    "C58_rebalance_start",
    "C58_rebalance_end",
    "C58_token_2022",
    "C58_dilution",
    "C58_minimum_not_met"
   ],
   "note": "Fee.v is Controller.v with the six instructions that move LSTs going through a transfer that withholds F mint amount, for any F with 0 <= F <= amount (token_2022_fee, spl-token-2022's formula, is one); the withheld balance itself is not modelled. C58_dilution and C58_minimum_not_met are the negative findings, on a reachable state with a 10% mint."
  },
  {
   "property": "C59",
   "status": "proved",
   "theorems": [
    "C59_demanded",
    "C59_as_documented",
    "C59_nothing_spare",
    "C59_end_rebalance",
    "C59_only_documented",
    "C59_tool",
    "C59_rebalance",
    "C59_sync",
    "C59_jupiter",
    "C59_flat_demanded",
    "C59_calc_demanded",
    "C59_flat_tool",
    "C59_flat_batch",
    "C59_calc_tool",
    "C59_price_tool"
   ],
   "note": "privileges (PrivSpec.v) is the interface table; C59_nothing_spare does not mention it. At instruction granularity: that a transaction lends an account named by several of its instructions with the union of their flags is the runtime's doing and not modelled. EndRebalance built by the library is in C59_end_rebalance."
  },
  {
   "property": "C60",
   "status": "proved",
   "theorems": [
    "C60_quoted",
    "C60_refused"
   ],
   "note": "The converse of C25, for the same deployment, cache and readiness hypotheses; the user is paid into an account other than the pool's own reserves. overcautious (QuoteSpec.v) lists the client's only needless refusals; C60_rebate exhibits the first."
  },
  {
   "property": "C61",
   "status": "proved",
   "theorems": [
    "C61_same_price",
    "C61_unmoved",
    "C61_shipped"
   ],
   "note": "About swaps that are carried out; when they are is C49's rule. Derived from C49_only_permitted: the accounts passed pin down the LSTs, their calculators and the pricing program, so the entries' positions, recorded values, the reserves' balances and the pool's total do not enter the price. LP prices do depend on the pool (C44)."
  },
  {
   "property": "C62",
   "status": "proved",
   "theorems": [
    "C62_holdings",
    "C62_no_arbitrage",
    "C62_not_a_token",
    "C62_shipped_holdings",
    "C62_shipped_no_arbitrage"
   ],
   "note": "Assumptions as for C44 (honest: calculators value at the rates, rounding down, prices never above the value; rates do not fall in between; LP supply stays at or above some M > 0). z in C62_holdings is the sum of redemption roundings not covered by the withdrawal fee (0 in C62_no_arbitrage); the fresh-records hypothesis is needed only at the start: C62_stale_dilutes is a deposit that lowers the holdings per LP token because another LST's accruals are unrecorded (see Findings)."
  },
  {
   "property": "C63",
   "status": "proved",
   "theorems": [
    "C63_instruction",
    "C63_history",
    "C63_untouched",
    "C63_fees"
   ],
   "note": "outsider excludes the two PDAs under which the pool holds tokens (C30, C31 cover those). Delegates and close authorities of SPL Token accounts are not modelled: the owner is the only authority, and the transaction signer is passed as the authority in every debit. In histories, what happens outside the program is assumed to leave the account alone (hold_outside)."
  },
  {
   "property": "C64",
   "status": "proved",
   "theorems": [
    "C64_records",
    "C64_history",
    "C64_total",
    "C64_from_genesis",
    "C64_no_arbitrage",
    "C64_shipped"
   ],
   "note": "C64_records is one instruction from any reachable state, fresh or not; C64_history tracks the set of LSTs that may be stale along any history from any start (with everything stale to begin with it says which SyncSolValue round suffices, with anything interleaved); C64_total and C64_from_genesis are its use when that set is empty; C64_no_arbitrage discharges the freshness hypothesis of C62. value_at asks the calculators listed after the instruction to answer the valuation V in every world state: the valuation may change along the history (stake-pool rewards, fees, slashing): an LST whose reserves that revalues becomes stale, the others do not. C64_shipped: the same of the shipped calculators, with no assumption about them left. C64_case: genesis to a finished rebalance; C64_gift: the exception is real; C64_rewards: shipped programs, one stake pool earns, only its LST goes stale, SyncSolValue renews it."
  },
  {
   "property": "C65",
   "status": "proved",
   "theorems": [
    "C65_exact_in",
    "C65_exact_out",
    "C65_deposit",
    "C65_redemption",
    "C65_shipped"
   ],
   "note": "Swaps are compared across any two reachable states (C65_exact_in, C65_exact_out); deposits and redemptions in one state, since their price moves with the pool. C65_shipped discharges the hypothesis for the shipped calculators and pricing programs; that the reverse operations of sanctum-token-ratio answer more for more is assumed there (library_rises; the crate is not in /repo; C65_library: the reference library does). Nothing is said about the protocol fee, which is not monotone."
  },
  {
   "property": "C66",
   "status": "proved",
   "theorems": [
    "C66_reads",
    "C66_others_do_not_matter",
    "C66_either_order",
    "C66_calculators",
    "C66_flat_fee",
    "C66_shipped",
    "C66_shipped_reads"
   ],
   "note": "For two arbitrary worlds (C66_reads), with C38 for the accounts not passed; corollaries: others do not matter (C66_others_do_not_matter), independent calls commute (C66_either_order). C66_calculators and C66_flat_fee say it of the shipped programs on their own chain, C66_shipped of the controller running with them, with both chains different elsewhere; the epoch is the one sysvar they read and is the same on both sides, as is the transaction the call is part of. C66_shipped_reads: on one chain the shipped programs meet the hypothesis of C66_reads."
  }
 ]
}