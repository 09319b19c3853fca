# Formal model of igneous-labs/S — design

## Approach
Shallow embedding in Gallina. Each Rust function modelled is one total function that returns
`res A = Ok a | Err e`; integers are `Z` with the `u64`/`u32`/`u16`/`i16` bounds checked where the Rust code
uses checked arithmetic or a typed decoder. Panics (indexing, `unwrap`, slicing) are an explicit error
outcome. On-chain state is a record `World` of key-indexed account views; one controller instruction is
`process : Derive -> Env -> Ctx -> World -> list Meta -> Ix -> res World`, following the code's order of checks.

What the controller calls by CPI (SOL value calculators, pricing programs) is an *oracle* `Env`, universally
quantified in the controller theorems: nothing is assumed of it except, where a theorem says so, a stated
contract. The shipped programs (lido, marinade, spl, sanctum-spl, sanctum-spl-multi and wsol calculators,
flat-fee and no-fee pricing) are modelled themselves (Periph.v), shown to meet the contracts, and plugged in
as the oracle (`deployed_env`, Deploy.v; over bytes in Wire.v).

Histories are sequences of controller instructions (any environment, accounts, arguments, signers)
interleaved with arbitrary outside movements that Solana allows (`external_step`, Spec.v). That is a superset
of the histories of committed transactions; transactions themselves (all-or-nothing lists of top-level
instructions with arbitrary nested calls) are in Tx.v.

Specifications live in separate files (Spec.v, PeriphSpec.v, ClientSpec.v, JupSpec.v, DeploySpec.v,
HistSpec.v, WireSpec.v, and a Specification section in PropMeta.v): balances, supplies, sums, "who signed",
"the cache equals the chain". The `Prop*.v` files hold the claimed theorems (`Cnn_*`), each with concrete cases
(`Cnn_case*`) that meet its hypotheses on a concrete reachable chain (Concrete*.v).

## Files (rocq/theories, in build order)
| files | contents | models |
|---|---|---|
| Base, Ratio | res monad, list helpers, token-ratio semantics | sanctum_token_ratio (external): its floor/ceil functions as definitions, its reverse as the contract `ratio_lib_ok`, met by `ref_ratio_lib` |
| Calc | fee and LP arithmetic | libs/s-controller-lib/src/calc.rs |
| State, Controller | accounts, token program, all 23 instruction processors with their verifications | programs/s-controller/src/processor, verify, account_traits; generated resolvers |
| Inversion, ProcInv, Spec, CalcProofs, InvProofs, TokProofs, AccessProofs, ShapeProofs, MoneyProofs | lemmas, specification | |
| Concrete, ConcreteReach | a concrete deployment and a 17-step reachable history | |
| PropState, PropAccess, PropTok, PropMoney, PropLp, PropRebalance, PropRobust, PropSuffix | C01–C19, C26–C33, C35, C37–C39 | |
| Serde, SerdeProofs, PropSerde | bytes: pool state, list, record, instruction data, list memmove; C20–C22 | generated/s_controller_interface, libs/s-controller-lib/src/{accounts_serde,state}.rs |
| Tx, PropTx | transactions, instruction introspection; C11, C12, C27 | runtime; processor/start_rebalance.rs |
| Periph, PeriphSpec, PeriphProofs, PropCalc, PropFlat | calculators and pricing programs; C23, C24, C36, C40, C41 | programs/sol-value-calculator-programs, programs/pricing-programs and their libs |
| Client, ClientSpec, ClientProofs, PropClient | client-side instruction builders; C34 | libs/s-controller-lib/src/{accounts_resolvers,instructions} |
| Deploy, DeploySpec, DeployProofs, PropDeploy | the shipped programs as the oracle; shipped versions of C06, C07, C26 | |
| Known, Jup, JupSpec, JupProofs, JupPool, JupRefresh, PropJup, PropRefresh | off-chain calculators, quoting client, updates; C25, C42, C43 | libs/aggregate, libs/s-jup-interface |
| HistSpec, HistProofs, PropHistory | value per LP token over histories; C44 | |
| Wire, WireSpec, WireProofs, PropWire | the calls between programs as bytes, periphery account layouts; C45 | generated/{sol-value-calculator-programs,pricing-programs}, program entrypoints, programs/s-controller/src/cpi |
| JupMeta, PropMeta | what the client hands to Jupiter; C46 | libs/s-jup-interface/src/core |
| PropSync | C47 | programs/s-controller/src/processor/sync_sol_value.rs |
| AdminSpec, PropAdmin | C48: rules of the 16 administrative instructions, equivalence | programs/s-controller/src/processor |
| TradeSpec, PropTrade | C49: rules of the 7 valuing, trading and rebalancing instructions, equivalence | programs/s-controller/src/processor |
| PropHolder, PropExit | C50: what a holder keeps over a history; that it can be withdrawn | programs/s-controller/src/processor/{add,remove}_liquidity.rs |
| Cli, CliSpec, CliProofs, PropCli, PropCliCase | C51: the operator's rebalancing commands: what they fetch, the subsidy they compute, the two instructions they build | cli/s-controller/src/{common,lst_arg,rpc}.rs, subcmd/{rebal_sol,rebal_withdraw_sol,rebal_stake}.rs |
| CliSync, PropCliSync, PropCliSyncCase | C52: the operator's sync and sync-all commands: instructions built, split into transactions, simulated, sent or skipped | cli/s-controller/src/subcmd/{sync,sync_all}.rs, rpc.rs, common.rs |
| CliAdmin, CliAdminSpec, PropCliAdmin, PropCliAdminCase | C53: the sixteen administrative commands of the operator's tool: what is fetched, checked, built, signed and sent; CliAdminSpec: the rules, independent of builders and account lists | cli/s-controller/src/subcmd (the administrative ones), common.rs, lst_arg.rs |
| PeriphCli, PeriphCliSpec, PropPeriphCli | C54: the flat-fee manager's and the calculators' command line tools, with the client resolvers they use; PeriphCliSpec: the rules | cli/pricing-programs/flat-fee/src/subcmd, cli/generic-pool-calculator/src/subcmd, flat-fee-lib and generic-pool-calculator-lib account_resolvers |
| Rent, RentSpec, PropRent, RentCli, RentCliSpec, PropRentCli, PropRentCase | C55: lamports beside the World, what each instruction and each tool command moves; RentSpec, RentCliSpec: histories with lamports, the payments as lists | list_account.rs, processor/*.rs (create, extend, shrink, close, transfer_direct), flat-fee processor, generic calculators' init, cli/ |
| LossSpec, LossProofs, PropLoss | C56: histories in which rates move both ways |
| LateSpec, PropLate | C57: instructions and commands carried out in a later state than the one they were built from |
| PrivSpec, PropPriv | C59: which accounts are lent with which privileges |
| QuoteSpec, JupBack, PropQuote | C60: an accepted trade was quoted; the reasons for needless refusals |
| ImpactSpec, PropImpact | C61: a swap's price does not depend on the pool or on others' trades |
| ArbSpec, PropArb | C62: no sequence of operations takes value out of the pool for nothing |
| SafeSpec, PropSafe, PropSafeFee | C63: tokens leave only with their owner's signature and up to the amount signed for |
| FreshSpec, FreshProofs, PropFresh | C64: which instruction renews which record, and the only ways one falls behind |
| MoreSpec, PropMore | C65: a larger order against a smaller one |
| ReadSpec, ReadProofs, PropRead | C66: a call reads nothing but the accounts passed; calls on disjoint accounts commute |
| Fee, FeeSpec, FeeProofs, PropFee | C58: the controller's token-moving instructions when the mint withholds a fee from transfers |

## Per property
| id | model | proof |
|---|---|---|
| C01 | World, all processors, histories | invariant by induction on histories |
| C02, C03 | list edits in processors | same invariant |
| C04, C05 | swap / add liquidity processors, any Env | inversion of the processor |
| C06 | Calc + add liquidity + calculator contract; shipped programs | arithmetic on floors; C06_shipped from Deploy |
| C07 | Calc + remove liquidity | same; the exact "price never falls" version is *refuted* by a reachable witness (C07_exact_price_refuted), the bounded version is proved |
| C08 | Calc, process level | arithmetic |
| C09, C10 | processors + token program | inversion of the processors |
| C11–C14 | Tx + histories | invariants, induction on transactions |
| C15–C19 | processors | case analysis over the 23 instructions |
| C20–C22 | Serde | induction on lists / byte arithmetic |
| C23, C24 | Periph + ratio contract | arithmetic; exact characterisations (iff) where no external contract is involved |
| C25 | Jup + processors + Deploy | symbolic run of the built instruction in the quoted state |
| C26 | Calc, process level | arithmetic |
| C27 | Tx | induction on the scan |
| C28 | suffix slicing in Controller | list lemmas |
| C29–C33 | processors | case analysis, invariants |
| C34 | Client | runs of the built instruction against `process` |
| C35 | Controller/Tx | no error of a callee is swallowed; undoing a failed transaction is the runtime's (trusted) |
| C36, C40, C41 | Periph histories | invariants over administration and other programs' actions |
| C37 | Controller | every reachable state, panics are explicit outcomes |
| C38, C39 | Controller | footprint; invariant |
| C42 | Known vs Periph | equality of functions (iff) |
| C43 | Jup updates against chain histories | invariant of client histories, then a refresh |
| C44 | histories with fair/shipped calculators | invariant on (recorded value, supply) and backing by reserves |
| C45 | Wire | codec round trips; agreement of `process` under the direct and the byte-level oracle |
| C46 | JupMeta | agreement with the client's own builders; C25; C42 |
| C47 | Controller (sync) | inversion and direct computation for the equivalence; induction over runs of syncs |
| C48 | Controller, against the rules in AdminSpec.v | inversion of each processor for one direction, running it for the other; invariants (canonical accounts, flags) supply what the rules need not ask |
| C49 | Controller, against the rules in TradeSpec.v | each step (measuring, paying, minting, burning, each fee formula) is shown equivalent to the function the model calls, inside the states an instruction can pass through; then inversion for one direction, running the processor for the other |
| C50 | Controller, Deploy, HistSpec | C06/C44 composed: the deposit inequality, the history inequality of C44 and the redemption formula, cleared of denominators; exit by running the processor through C49's rules (PropTrade) |
| C51 | Cli (on Jup, Client, Deploy) | the built pair inverted exactly (pair_core: the outcome of the end as a function of four calculator answers), the tool's cache shown equal to the chain (fetched_lst), then monotonicity and superadditivity of worth and the sol-to-lst bracket |
| C52 | CliSync (on Client, Known, Jup) | invariant over the instructions of a transaction and over transactions (state: which mints are done, what is recorded); skipping is sound when no difference is negative, since then a zero sum means all zero |
| C53 | CliAdmin (on Client) | per command: forwards, the plan equals the instruction that C48's rule permits; backwards, C48_only_permitted inverted on the built instruction, and the tool's own checks give the rule. The defect is derived from both directions |
| C54 | PeriphCli (on Periph) | per command, forwards by computing the instruction on the shape the records have in every reachable state (flat_inv, C40_state_shape), backwards by the instruction's inversion; batch: induction over the accounts to change |
| C55 | Rent (on Controller, Periph, CliAdmin, PeriphCli) | the lamport part of each processor is proved equal to the listed payments (settled); funded is an invariant of reachable_lam; conservation and losers from the payment lists; progress by the invariant |
| C56 | Controller + HistSpec | induction over loss_history with the invariant that the records overstate by at most x + o and that backing less the overstatement, plus what was lost, never falls per LP token; per-instruction value lemmas are those of C44, made independent of the bound on records |
| C57 | Client + CliAdmin + Controller | from acceptance (C48/C49 rules) every account and index of the instruction is forced to be the one the builder derives from the state at hand; rebuild and compare; trader theorems from C09 |
| C58 | Fee (variant of Controller's six LST-moving instructions) | invariants of reachable states re-proved for histories with fees; value and flow lemmas with what arrives in place of what is sent; F = 0 gives back Controller |
| C59 | Client, CliAdmin, Cli, CliSync, JupMeta, PeriphCli against Controller and Periph | demands: from the completeness of the rules of C48/C49 and by inversion of the flat-fee and calculator processors; requests: by computation of each builder's account list against the interface table |
| C60 | Jup (quotes, builders) against Controller with the shipped programs | the processor of the built instruction is inverted step by step (account checks by C34's lemmas, CPI answers by C42's agreement with the client's arithmetic), each success giving the corresponding check of the quote; what is left over are the four refusals of `overcautious`; what the quote then says is C25 applied backwards |
| C61 | Controller (swaps) with any stateless calculators and pricing; the shipped ones are | C49's rules in both states; the passed accounts determine mints, calculators and pricing program; equal questions have equal answers |
| C62 | as C44 (histories with prices, values and rates over time; the shipped programs) | from C44's value per LP token: the recorded total is the holdings at the start (measured) and at most the holdings at the end, so holdings per LP token cannot fall; with no LP token given up and no reserve raised, each difference is worth zero |
| C63 | Controller, and Fee for mints that charge | per token primitive, what an owner's accounts may lose; composed along each processor's inversion; induction over histories in which the owner signs, others act, and the outside leaves the account alone |
| C64 | Controller, C62 | per record the relation "named and equal to V of the reserves, or untouched with its reserves, or gifted", carried through every measurement and transfer of each processor; induction over histories with the set of stale LSTs |
| C65 | Controller, Periph, C49's rules | two accepted calls are two instances of C49's rules for the same accounts, hence the same programs and CPI accounts; monotonicity composed step by step; for the shipped programs each calculator and price is a fixed verification followed by a monotone function |
| C66 | Controller, two arbitrary worlds | a relational walk through every processor: related worlds stay related at the passed accounts, every read is at a passed account, the CPI accounts are a part of those passed; commuting by C38's footprint; likewise each instruction of the shipped programs, so two runs of the controller with them on two chains |

## Trusted base
* Coq 8.16.1's kernel. `Print Assumptions` says **"Closed under the global context" for every theorem in
  MANIFEST.json** (checked by printing all of them). No axiom is declared. (vcheck lists
  `Coq.ssr.ssrunder.Under_rel.*` as library axioms: they are the fields of a standard-library module type that
  `Require` loads; no theorem depends on them.)
* The reading of the Rust code into Gallina; each definition cites file and lines and says what it simplifies.
* **Solana runtime**: a failed transaction leaves no trace; only an account's owner program changes its data;
  only the key holder (or the program deriving a PDA) signs; instructions of one transaction run in order;
  the instructions sysvar shows the top-level instructions and the index of the running one; an instruction
  with duplicate accounts sees one account. The runtime's refusal of recursive re-entry is *not* used.
* **Token program**: plain SPL Token semantics (transfer_checked, mint_to, burn, close, set_authority) for both
  token programs. Token-2022 extensions (mint close authority, hooks, …) are not modelled, except transfer fees (Fee.v, C58).
* **Address derivation** (`derive_ok`, `ata_ok`, `flat_derive_ok`): find/create agree and distinct seeds give
  distinct addresses (collision resistance); nobody holds the key of a PDA.
* **sanctum_token_ratio** (external): floor/ceil ratio and fee functions as written in Ratio.v; "reverse"
  functions only through the contract `ratio_lib_ok`.
* **get_borsh_return_data / set_return_data** (external): the caller reads the callee's bytes (C45).
* **sanctum_lst_list** (external): `known_lsts_ok` (C43).

## Not modelled
* Transaction fees, and the SOL inside wrapped-SOL accounts (rent is modelled: C55); of account reallocation the
  10 KB limit and memory alignment; logging; compute budget.
* CPIs into calculators and pricing programs answer without changing the controller's accounts (they cannot
  write accounts they do not own; whether they write their own matters to no theorem).
* Periphery accounts are typed by kind (PData); that one blob cannot be read as two kinds is justified by the
  distinct sizes proved in C45_layouts. An initialised calculator state account starts empty.
* `_for_prog` variants of the client builders and of SPool (other program ids); of the CLI (cli/) its
  configuration, RPC use and view commands; test code; `s-jup-interface`'s `clone_amm`, `label`, `program_dependencies`.
* Rust's HashMap order is taken as list order. The quote's `fee_pct` is an exact fraction, not a Decimal.
* In C25/C34 the list length is assumed to fit u32 (`fresh`); in C43 fetched accounts are one consistent
  snapshot. C44 and C50 exclude falling rates (slashing); C56 has them.

## Findings about the code (none is assumed away; the theorems hold with them)
* C58: add_lst accepts Token-2022 mints with a transfer fee; add_liquidity then credits the whole deposit although less
  arrives, diluting the other LP holders (C58_dilution), and the slippage bounds of swaps and redemptions are checked against
  what is sent (C58_minimum_not_met). Swaps and rebalances remain safe for the pool.
* C07: after a redemption the recorded value per LP token can fall by rounding (witness in PropLp.v), because
  the payment is rounded against the calculator's maximum.
* update_pool_state drops the error when the new pricing program is unknown (`.ok()`): the update reports success
  and the client cannot quote until the program is known.
* remove_liquidity_swap_and_account_metas asks for the redemption accounts of the LP mint instead of the LST; it is
  harmless because the first account is dropped (C46_metas).
* get_swap_and_account_metas takes `in_amount == 0` to mean exact-out; harmless, both modes' accounts agree.
* Quotes do not check that the pool is active, that source and destination differ, or the final value check
  (hence `late_refusal` in C25).
* A client keeps the fee of a removed fee account (C43_removed_fee_case), loses the data of an LST moved beyond
  the old list length until reinitialised (C43_moved_case), and never gets data of an LST added later.
* C56: a loss is recorded only when its LST is next touched; who redeems through another LST first is paid at the old
  price (C56_case). Nothing forces a sync of the other LSTs. Likewise who deposits one LST while
  another's rewards are unrecorded pays too little per LP token (C62_stale_dilutes).
* `_for_prog` variants of sync, start_rebalance, set_sol_value_calculator and remove_lst derive reserves from the
  *main* pool state id rather than the given program's.
* C60: with fees that sum below zero the chain carries out swaps paying more SOL value than they bring (the fee is then a
  rebate from the LP holders), which the client refuses to quote (C60_rebate); a zero-valued first deposit is credited
  with the pool's whole recorded value when no LP tokens exist.

## Wrong programs
`tools/mutate.py` edits the model in a scratch copy and rebuilds; `seeded/LOG.jsonl` has one line per attempt,
with the theorems that failed and, where a mutant survived, the theorem added or tightened.
