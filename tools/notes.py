status={}
notes={
'C01':'Invariant over every reachable world (any history of controller instructions under any oracle, accounts and arguments, interleaved with outside token movements).',
'C02':'Invariant; stated both as NoDup of the mints and as equality of indexes.',
'C03':'Invariant plus the exact effect of adding and removing an authority.',
'C04':'For any calculator and pricing answers; the value before is re-measured on both legs first, as the program does.',
'C05':'For any calculator and pricing answers.',
'C06':'Exact formula of the mint, plus no dilution when the calculator values at floor(x*n/d); bounded shortfall (e-1)*supply otherwise. The pool value recorded is the calculator minimum. C06_shipped gives the result for the shipped calculators and pricing programs; those that charge nothing are of rate form (C06_shipped_rate).',
'C07':'Share bound for any oracle; price bound for calculators of rate form; the exact monotone-price statement is refuted by a concrete reachable witness (C07_exact_price_refuted). C07_shipped and C07_shipped_price give the result with the shipped programs.',
'C08':'Split, ceiling and bounds stated with bps_share of Spec.v, process-level.',
'C09':'Process-level, from the balances before and after.',
'C10':'Over arbitrary account lists, including aliased accounts. C10_backed: a mint whose holders together hold at most its supply stays one.',
'C11':'Transactions with arbitrary nested calls, instruction granularity inside; the runtime commit rule is the trusted part.',
'C12':'Instruction-level pair with arbitrary steps in between, and transaction-level version.',
'C13':'Every instruction, every history between start and end.',
'C14':'Invariant.',
'C15':'Every instruction; effects stated field by field.',
'C16':'Every instruction, each setting.',
'C17':'Invariant, plus refusal and exact effect of SetProtocolFee.',
'C18':'By index and by mint; the case shows that it can still be taken out.',
'C19':'Process-level.',
'C20':'Byte-level model of list_account.rs incl. memmove; lists of any length.',
'C21':'Byte-level model of the bytemuck/borsh layouts.',
'C22':'Byte-level model of the generated borsh instruction codecs and of the entrypoint.',
'C23':'Program-level: LstToSol characterised exactly (iff); SolToLst bracket rests on the contract ratio_lib_ok assumed of the external ratio crate (met by a reference implementation).',
'C24':'Exact-in and redeem characterised exactly (iff) in every reachable state; exact-out rests on ratio_lib_ok, and says nothing when the fees sum to exactly 100%.',
'C26':'Process-level: deposit immediately followed by redemption. C26_shipped: with the shipped programs, in tokens.',
'C27':'Necessary and sufficient; other instructions ignore introspection.',
'C28':'Split of the suffix and non-interference of calls to other groups.',
'C29':'Conditions and once-only over histories.',
'C30':'Every instruction, with any aliasing.',
'C31':'Every instruction, with any aliasing.',
'C32':'Invariant, with an overflow case that fails.',
'C33':'Every instruction position that must be canonical.',
'C34':'Every builder of the client library for the main program id, from any stale-but-still-good view of a reachable state; start/end pair across arbitrary steps of other programs. The _for_prog variants (other deployments) are not modelled.',
'C35':'The runtime undoing a failed transaction is trusted; what the controller must do (never swallow an error of a program it calls) is proved.',
'C36':'Over histories: silent from an upgrade until a manager-signed update.',
'C37':'Panic is an explicit error outcome of the model at each indexing, unwrap and slice operation of the code.',
'C38':'Every instruction.',
'C39':'Invariant.',
'C40':'Every instruction and history.',
'C41':'Every instruction and history.',
'C25':'All four quote kinds. Needs: the cache equal to the chain (in_sync), calculators acknowledged by their managers, pool neither disabled nor rebalancing (the client does not check this), source and destination mints different (nor this). C25_exit: a funded redemption quote for something cannot be refused; C25_liquidity_certain: nor a funded deposit, unless the pool outgrows 64 bits. The ratio crate is used through ratio_lib_ok.',
'C42':'All six calculators and the flat-fee program, iff. The library reads the same cached bytes; pricing needs a reachable flat-fee program state.',
'C43':'Assumes the fetched accounts are one consistent snapshot of the chain; the list of known LSTs (external crate) names each mint\'s token program and the Lido/Marinade/wSOL mints correctly.',
'C44':'From genesis, any history. Two versions: calculators at floor(x*n/d) (fair_history; the shipped ones that charge nothing are such: C44_shipped_honest), and all six shipped calculators, fees included (shipped_history). C44_rounding and C44_shipped_rounding bound what one redemption counts for. LST values never fall (slashing is excluded).',
'C45':'Byte-level model of the CPI requests, of each program entry point, of return data and of the three account layouts. Return data reaching the caller is the runtime\'s doing (get_borsh_return_data is external).',
'C46':'jup_ix (specification) is how Jupiter turns a swap description and the final amounts into the controller instruction; Jupiter itself is not in /repo. The fee percentage is an exact fraction where the code has a Decimal.',
'C47':'Acceptance is an equivalence. Repetition and order need calculators whose answers do not depend on the controller\'s own accounts and stay the same during the run.',
'C48':'Equivalence (C48_permitted, C48_only_permitted, C48_accepted) against the inductive rules of AdminSpec.v, which use no processor, resolver or field-update function of the model. Rent and lamports: C55.',
'C49':'Equivalence (C49_exactly; C49_every_instruction for all 23) against the inductive rules of TradeSpec.v, which use no processor, resolver, check or arithmetic function of the model. The external programs are any functions of the state and the request (Env).',
'C50':'C50_held: calculators at rates n/d; C50_held_shipped: all six shipped calculators, fees included. C50_exit asks of the external programs only that they answer and do not react to the controller\'s own accounts (steady; the shipped ones are: C50_shipped_steady). C50_donation is a reachable witness that the bound is one LP token price and that min_lp_out is what protects a depositor. LST rates never fall, as in C44 (losses: C56).',
'C51':'The stake pools\' own quotes (what they pay out or mint) are arbitrary inputs; sanctum\'s stake SDKs, RPC and sending transactions are not modelled. C51_sol_short is a reachable witness that rebal-sol\'s figure can be one unit short.',
'C52':'RPC, compute budget and signing are not modelled; the simulation and the transaction see the same state, and no other transaction comes between the fetch and the last send. C52_all_cancel is a reachable witness that sync-all without --force can leave LSTs stale when their changes cancel out.',
'C53':'Equivalence (C53_goes_through, C53_only) against the inductive rules of CliAdminSpec.v, which use no client builder, processor or plan of the model. The state fetched is the state acted on (C57 lifts that); RPC, transaction fees and confirmation are not modelled (lamports: C55), --program is its default. C53_payer_account: the defect of withdraw_protocol_fees.rs:97-103.',
'C54':'Equivalences against the rules of PeriphCliSpec.v. Accounts that hold only lamports are not modelled (such a gift to the state address stops the tools\' init commands, not the programs\'); RPC, compilation and size of the batch transaction are not modelled.',
'C55':'Rent.v models the lamport movements of every controller instruction, of the flat-fee and calculator programs and of the tools\' commands. External and modelled by contract: sanctum_system_program_lib, the associated-token program (creation tops up what is missing), the token programs\' close_account and the rent sysvar (any positive monotone function of the size). Transaction fees and the SOL inside wrapped-SOL token accounts are not modelled.',
'C56':'Two versions, as in C44: calculators at rates n/d (loss_history) and all six shipped calculators (loss_shipped). Starts in any reachable state. C56_case is a reachable witness that a holder can escape an unrecorded loss and that the bound is met. C56_held is at rates n/d.',
'C57':'The view is unconstrained. The builders are those of Client.v (the trusted resolvers of s-controller-lib), the plans those of CliAdmin.v. EndRebalance reads nothing but the StartRebalance instruction (C34). The trader theorems assume the receiving account is not one of the pool\'s and that the PDAs do not sign.',
'C58':'Fee.v is Controller.v with the six instructions that move LSTs going through a transfer that withholds F mint amount, for any F with 0 <= F <= amount (token_2022_fee, spl-token-2022\'s formula, is one); the withheld balance itself is not modelled. C58_dilution and C58_minimum_not_met are the negative findings, on a reachable state with a 10% mint.',
'C59':'privileges (PrivSpec.v) is the interface table; C59_nothing_spare does not mention it. At instruction granularity: that a transaction lends an account named by several of its instructions with the union of their flags is the runtime\'s doing and not modelled. EndRebalance built by the library is in C59_end_rebalance.',
'C60':'The converse of C25, for the same deployment, cache and readiness hypotheses; the user is paid into an account other than the pool\'s own reserves. overcautious (QuoteSpec.v) lists the client\'s only needless refusals; C60_rebate exhibits the first.',
'C61':'About swaps that are carried out; when they are is C49\'s rule. Derived from C49_only_permitted: the accounts passed pin down the LSTs, their calculators and the pricing program, so the entries\' positions, recorded values, the reserves\' balances and the pool\'s total do not enter the price. LP prices do depend on the pool (C44).',
'C62':'Assumptions as for C44 (honest: calculators value at the rates, rounding down, prices never above the value; rates do not fall in between; LP supply stays at or above some M > 0). z in C62_holdings is the sum of redemption roundings not covered by the withdrawal fee (0 in C62_no_arbitrage); the fresh-records hypothesis is needed only at the start: C62_stale_dilutes is a deposit that lowers the holdings per LP token because another LST\'s accruals are unrecorded (see Findings).',
'C63':'outsider excludes the two PDAs under which the pool holds tokens (C30, C31 cover those). Delegates and close authorities of SPL Token accounts are not modelled: the owner is the only authority, and the transaction signer is passed as the authority in every debit. In histories, what happens outside the program is assumed to leave the account alone (hold_outside).',
'C64':'C64_records is one instruction from any reachable state, fresh or not; C64_history tracks the set of LSTs that may be stale along any history from any start (with everything stale to begin with it says which SyncSolValue round suffices, with anything interleaved); C64_total and C64_from_genesis are its use when that set is empty; C64_no_arbitrage discharges the freshness hypothesis of C62. value_at asks the calculators listed after the instruction to answer the valuation V in every world state: the valuation may change along the history (stake-pool rewards, fees, slashing): an LST whose reserves that revalues becomes stale, the others do not. C64_shipped: the same of the shipped calculators, with no assumption about them left. C64_case: genesis to a finished rebalance; C64_gift: the exception is real; C64_rewards: shipped programs, one stake pool earns, only its LST goes stale, SyncSolValue renews it.',
 'C65':'Swaps are compared across any two reachable states (C65_exact_in, C65_exact_out); deposits and redemptions in one state, since their price moves with the pool. C65_shipped discharges the hypothesis for the shipped calculators and pricing programs; that the reverse operations of sanctum-token-ratio answer more for more is assumed there (library_rises; the crate is not in /repo; C65_library: the reference library does). Nothing is said about the protocol fee, which is not monotone.',
 'C66':'For two arbitrary worlds (C66_reads), with C38 for the accounts not passed; corollaries: others do not matter (C66_others_do_not_matter), independent calls commute (C66_either_order). C66_calculators and C66_flat_fee say it of the shipped programs on their own chain, C66_shipped of the controller running with them, with both chains different elsewhere; the epoch is the one sysvar they read and is the same on both sides, as is the transaction the call is part of. C66_shipped_reads: on one chain the shipped programs meet the hypothesis of C66_reads.',
}
