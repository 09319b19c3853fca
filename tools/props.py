# regenerates parts of properties.jsonl: applies corrections / appends entries (idempotent)
import json
P='/verif/properties.jsonl'
ps=[json.loads(l) for l in open(P)]
d={p['id']:p for p in ps}
def upd(i,**k): d[i].update(k)
upd('C06',statement="After a successful AddLiquidity on a pool with positive LP supply and positive value, the LP tokens minted are exactly floor(value_after_fees * supply / total) with supply and total as measured just before the deposit. If the LST's calculator values amounts at a rate floor(x*n/d), and the pricing program does not answer more than the value it was asked about, total/supply does not decrease: new_total * old_supply >= old_total * new_supply. If the calculator's rate is only accurate to e units (a fee rounded separately) the shortfall is at most (e-1)*old_supply.")
upd('C13',statement="While the pool is rebalancing, nothing on the LST list changes until EndRebalance: only EndRebalance, SetAdmin and edits of the disable-authority list can succeed, and EndRebalance changes only the recorded SOL value of its destination entry; hence the destination recorded at StartRebalance still names the same mint at EndRebalance.")
upd('C15',statement="While the pool is disabled, the only instructions that can succeed are EnablePool, SetAdmin, AddDisablePoolAuthority and RemoveDisablePoolAuthority; no token moves and no SOL value, fee, beneficiary, rebalance authority, pricing program or listing changes.")
upd('C20',anchors=["programs/s-controller/src/list_account.rs","libs/s-controller-lib/src/accounts_serde.rs"])
upd('C23',anchors=["libs/sol-value-calculator-programs/wsol-calculator-lib/src/lib.rs","libs/sol-value-calculator-programs/marinade-calculator-lib/src/calc.rs","libs/sol-value-calculator-programs/lido-calculator-lib/src/calc.rs","libs/sol-value-calculator-programs/spl-calculator-lib/src/calc.rs"])
upd('C24',anchors=["libs/pricing-programs/flat-fee-lib/src/calc","libs/pricing-programs/flat-fee-lib/src/fee_bound.rs","programs/pricing-programs/flat-fee/src/processor"])
upd('C33',anchors=["libs/s-controller-lib/src/accounts_resolvers","programs/s-controller/src/verify.rs","generated/s_controller_interface/src/instructions.rs"])
upd('C34',anchors=["libs/s-controller-lib/src/accounts_resolvers","libs/s-controller-lib/src/instructions"])
upd('C35',title="A failure anywhere undoes everything",statement="A controller instruction never swallows the failure of a program it calls: if a calculator or the pricing program fails at any of the calls an instruction makes, the instruction itself fails, so (the runtime being all-or-nothing) the transaction that contains it leaves every account as it was.",quantifier="every instruction, every call it makes to another program, every position in a transaction")
upd('C36',anchors=["libs/sol-value-calculator-programs/generic-pool-calculator-lib/src/lst_sol_common.rs","libs/sol-value-calculator-programs/generic-pool-calculator-lib/src/utils.rs","libs/sol-value-calculator-programs/spl-calculator-lib/src/calc.rs","libs/sol-value-calculator-programs/lido-calculator-lib/src/calc.rs"])
def app(**k):
    if k['id'] in d: d[k['id']].update(k)
    else: ps.append(k); d[k['id']]=k
app(id='C37',title="The controller never panics",statement="On well-formed instruction data, no controller instruction panics: in every reachable state every input either succeeds or is refused with a program error.",quantifier="every reachable state, instruction, account list and external answer",why_tests_cant="a panic may hide behind a particular length or index",anchors=["programs/s-controller/src/processor","programs/s-controller/src/list_account.rs"])
app(id='C38',title="Only accounts passed as writable change",statement="A successful instruction changes only accounts that the caller passed to it and marked writable; every other account of the controller, and every other token account and mint, is untouched.",quantifier="every instruction, account list and state",why_tests_cant="all account lists and aliasings",anchors=["programs/s-controller/src/processor","generated/s_controller_interface/src/instructions.rs"])
app(id='C39',title="Every listed LST has its canonical accounts",statement="In every reachable state every listed LST has, at the canonical addresses, a reserves account owned by the pool and a fee accumulator owned by the fee authority, both for that mint; reserves and accumulators of different LSTs and of each other never coincide; and the LP mint stays controlled by the pool.",quantifier="every history",why_tests_cant="invariant over unbounded histories",anchors=["programs/s-controller/src/processor/add_lst.rs","programs/s-controller/src/processor/initialize.rs","libs/s-controller-lib/src/pda.rs"])
app(id='C40',title="Calculator administration is the manager's alone",statement="A generic-pool calculator's record (its manager and the deployment slot of the stake pool program it trusts) is created once, by Init, with the built-in manager; afterwards only a call signed by the current manager changes it: SetManager the manager, UpdateLastUpgradeSlot the slot, to that of the code deployed at that moment. Price requests change nothing, and no instruction touches any other account.",quantifier="every history of calls and of other programs' actions",why_tests_cant="access control over unbounded histories",anchors=["libs/sol-value-calculator-programs/generic-pool-calculator-onchain/src/processor","libs/sol-value-calculator-programs/generic-pool-calculator-lib/src/account_resolvers"])
app(id='C41',title="Flat-fee administration is the manager's alone and fees stay in bounds",statement="The flat-fee program's records (manager, LP withdrawal fee, each LST's fees) change only by calls signed by the manager, each changing just what it names; initialisation happens once; in every reachable state the withdrawal fee is within 0..10000 bps and every LST fee within -10000..10000 bps; and fee accounts exist only at the canonical address of their LST.",quantifier="every history of calls and of other programs' actions",why_tests_cant="access control and invariants over unbounded histories",anchors=["programs/pricing-programs/flat-fee/src/processor","libs/pricing-programs/flat-fee-lib/src/account_resolvers","libs/pricing-programs/flat-fee-lib/src/fee_bound.rs"])
app(id='C42',title="Off-chain calculators and pricing answer as the chain does",statement="When the off-chain library's cached stake pool data and fee accounts are what the chain holds (and the calculator's manager has acknowledged the pool program's current code), its SOL value calculators (SPL, Sanctum SPL, Sanctum SPL multi, Lido, Marinade, wSOL) and its flat-fee pricing give an answer exactly when the on-chain programs do, called with the accounts the library lists, and the same answer. A calculator that is not in working order on chain refuses; it never contradicts the off-chain answer.",quantifier="every stake pool state, fee setting, amount and mint pair",why_tests_cant="two implementations must agree on all pool states and amounts",anchors=["libs/sol-value-calculator-programs","libs/pricing-programs/flat-fee-lib","libs/aggregate/s-sol-val-calc-prog-aggregate/src/lib.rs","libs/aggregate/s-pricing-prog-aggregate/src/lib.rs"])
upd('C25',title="A quote is what the chain does",statement="When the Jupiter client's cache matches the chain, every quote it gives (swap, exact in or exact out; adding or removing liquidity) can be turned into an instruction, and running that instruction with parameters that accept the quote either moves exactly the quoted amounts (in from the user, out to the user, the rest only between the pool's own accounts) or is refused for one of these reasons: the user's token accounts are not in order; the deposited amount makes the pool outgrow 64 bits (the source LST's calculator does not value the reserves with it added, or the total does not fit); rounding of a swap would cost the pool a lamport; or a liquidity quote was for nothing. So a funded redemption quoted for something is certain to go through, and a funded deposit unless the pool outgrows 64 bits.",quantifier="every reachable state, amount, mint pair, mode and pool/fee state")
app(id='C43',title="A refreshed client is in step with the chain",statement="Whatever happened before (chain events, partial updates, failed updates), a Jupiter client that has once read the pool state and then successfully updates from all the accounts it asks for holds exactly what the chain holds: pool state, list, LP supply, reserves, stake pools and fees of every LST it has data for. Starting from the list account alone, two updates suffice. It needs the pricing program unchanged since the previous update, and that no stake pool or fee account it had read was closed (a closed fee account is silently kept, a refuted case). An update never forgets an LST that is still listed with the same calculator within the length of the old list. So quotes given after a refresh are what the chain does (C25).",quantifier="every client history and chain history, every set of fetched accounts",why_tests_cant="interleavings of chain events and updates are unbounded",anchors=["libs/s-jup-interface/src/update.rs","libs/s-jup-interface/src/init.rs","libs/s-jup-interface/src/utils.rs","libs/aggregate"])
upd('C07',statement="In a successful RemoveLiquidity the SOL value credited for the burned LP tokens is at most the exact proportional share burned*total/supply, the amount the user receives is the calculator's lower estimate for at most that value, and the LP tokens burned are exactly those asked for. Whether total/supply can never decrease exactly is also settled: it can, by rounding of the two external conversions; the loss is bounded, and with the shipped programs there is none when the fee left in the pool covers the rounding.")
upd('C26',statement="Adding liquidity and immediately redeeming all LP tokens received yields at most the SOL value deposited after fees; with the shipped calculators and pricing programs, once the withdrawal fee covers the rounding of the calculator (one lamport, except for SPL pools with their own fee), it returns no more tokens than were deposited.")
app(id='C44',title="The value behind an LP token never falls over a history",statement="Along any history of controller instructions, outside token movements and rises of LST rates, in which the calculators asked value at the current rates, the recorded SOL value of each LST never exceeds what its reserves are worth, and (total SOL value)/(LP supply) never falls (during a rebalance, counting the total it must restore), except by rounding of redemptions whose withdrawal fee does not make up for it: the total fall is at most z/M, z the sum of those roundings (at most about the price of one token each) and M the least LP supply in between.",quantifier="every history of any length, mix of users, LSTs, rates, rebalances, calculator and listing changes",why_tests_cant="value drift only shows over unbounded interleavings of trades",anchors=["programs/s-controller/src/processor","libs/s-controller-lib/src/calc.rs"])
app(id='C45',title="The programs understand each other's bytes",statement="The requests the controller sends to SOL value calculators and pricing programs are read by every shipped program as the request meant, and the answer bytes are read back as the program's answer: the whole controller behaves, on any instruction data and accounts in any reachable state, exactly as if the programs answered directly. Instruction data of the calculators and of the flat-fee program reads back exactly what was serialised, cut-off, ambiguous or unknown data is refused, price requests change nothing; the accounts these programs keep read back exactly what was stored, never parse as another kind, keep every value within its type, and a change of one field leaves the others alone.",quantifier="every request, argument value, byte string, account content and controller state",why_tests_cant="all byte strings and argument values, across independently generated crates",anchors=["programs/s-controller/src/cpi","generated/sol-value-calculator-programs","generated/pricing-programs","programs/sol-value-calculator-programs","programs/pricing-programs","libs/sol-value-calculator-programs/generic-pool-calculator-lib/src/utils.rs","libs/pricing-programs/flat-fee-lib/src/utils.rs"])
app(id='C46',title="What the quoting client hands to Jupiter is what the chain will do",statement="For a client at any moment of any history: when it describes a swap to Jupiter, the accounts are the controller program followed by exactly the accounts of the instruction the client itself would build, and the description with the final amounts gives exactly that instruction, whatever the amounts; and it describes every swap it can build. The fee figures of an up-to-date quote are the true ones: the percentage is the share of SOL value lost between the on-chain values before and after fees, the fee amount is that loss converted into the fee mint by its on-chain calculator, and the fee mint is the LST received (deposited when adding liquidity). The mints it names are exactly the listed LSTs and the LP token, and every quote is between two of them. Jupiter running the described instruction does exactly what was quoted, or is refused for one of the reasons listed in C25.",quantifier="every client history, chain state, swap direction and mode, amounts, up-to-date quote",why_tests_cant="all histories and amounts, and agreement between separately written instruction builders and on-chain programs",anchors=["libs/s-jup-interface/src/core/mod.rs: get_swap_and_account_metas_full, get_reserve_mints_full","libs/s-jup-interface/src/core/common.rs: calc_quote_fees","libs/s-jup-interface/src/core/swap_exact_in.rs","libs/s-jup-interface/src/core/swap_exact_out.rs","libs/s-jup-interface/src/core/add_liquidity.rs","libs/s-jup-interface/src/core/remove_liquidity.rs"])
app(id='C47',title="Syncing an LST's value is open to all, exact, and order-free",statement="SyncSolValue is accepted exactly when the pool is neither rebalancing nor disabled, the entry named is listed, the mint, pool, list, reserves and calculator accounts passed are the entry's, the calculator answers, and the new total fits in 64 bits; nobody's signature is needed. It then sets the entry's recorded value to the calculator's lower answer for the current reserves, moves the total by the difference, and changes nothing else at any address. Repeating it changes nothing; a run of syncs ends in figures that do not depend on the order or on repetitions; and once every entry was visited, every entry is recorded at what its calculator says and the total is the sum, however stale the figures were before.",quantifier="every reachable state, account list, calculator answer, and run of syncs of any length and order",why_tests_cant="all states and all orders of unboundedly many syncs",anchors=["programs/s-controller/src/processor/sync_sol_value.rs","libs/s-controller-lib/src/state.rs: sync_sol_value_with_retval","libs/s-controller-lib/src/accounts_resolvers/sync_sol_value.rs"])
app(id='C48',title="Administration does exactly what it says, and the admin is never locked out",statement="Each of the sixteen administrative instructions is accepted exactly when its rule holds (who signs, which accounts are passed, in which states of the pool and of the list, with which arguments) and then changes exactly what the rule says, at every address: nothing else. In particular, whatever happened before, the admin can always hand over the admin key, put anybody on and take anybody off the list of disable-pool authorities, disable a pool that is not in the middle of a rebalance, and re-enable a disabled pool, which is then open for everything again. A pool in the middle of a rebalance accepts no administrative call but handing over the admin key and editing that list.",quantifier="every reachable state, account list, argument value and calculator answer",why_tests_cant="acceptance and effect must match the rule in every state and for every account list, in both directions",anchors=["programs/s-controller/src/processor","libs/s-controller-lib/src/accounts_resolvers","programs/s-controller/src/verify.rs","programs/s-controller/src/list_account.rs"])
app(id='C49',title="Trading and rebalancing do exactly what they say",statement="Each of the seven instructions that value, trade and rebalance (SyncSolValue, SwapExactIn, SwapExactOut, AddLiquidity, RemoveLiquidity, StartRebalance, EndRebalance) is accepted exactly when its rule holds: who signs, which accounts are passed in which order, the state of the pool and of the entries, what the calculators and the pricing program are asked, in which state and in which order, and what they answer, every amount and fee as a formula of these, the limits the user set, and that the pool is not worth less. It then leads to exactly the world the rule names, every account included. With C48: of all 23 instructions, a call is accepted if and only if a rule permits it, and the rules leave no choice of outcome.",quantifier="every reachable state, account list, argument value, transaction and sequence of answers of the external programs",why_tests_cant="acceptance and outcome must match the rule in every state, for every account list and every external answer, in both directions",anchors=["programs/s-controller/src/processor","libs/s-controller-lib/src/accounts_resolvers","libs/s-controller-lib/src/calc.rs","programs/s-controller/src/verify.rs","programs/s-controller/src/cpi"])
app(id='C50',title="LP holders keep, and can withdraw, what they put in",statement="A deposit is minted LP tokens worth what was credited for it (its value less the pricing program's fee), short by less than the price of one LP token; the first depositor owns the whole pool. From then on, over any history of fair valuations and whatever other users, traders, the rebalancer or the admin do, redeeming those LP tokens is credited what the deposit was credited, less at most the price of one LP token at the deposit, one lamport, and the holder's share of the rounding of other redemptions counted in C44. All LP tokens together are a claim to no more than the recorded total of the pool, which is covered by its reserves. While the pool is running, a holder whose LST's calculator and the pricing program answer, and whose LST's reserves suffice, can always redeem, even through an LST whose input is disabled. The bound is in LP token prices: a pool whose LP token was made expensive by a donation can cost a depositor who accepts any number of LP tokens a large part of the deposit (witness).",quantifier="every history of any length before, between and after deposit and redemption; every user, LST, rate and amount",why_tests_cant="what others can do to a holder ranges over unbounded interleavings of trades",anchors=["programs/s-controller/src/processor/add_liquidity.rs","programs/s-controller/src/processor/remove_liquidity.rs","libs/s-controller-lib/src/calc.rs"])
app(id='C51',title="The rebalancing commands compute a sufficient subsidy",statement="The operator's commands rebal-withdraw-sol, rebal-stake and rebal-sol build a rebalance (start, stake pool steps, subsidy transfer, end) from a view of the chain. Once the start they built has been accepted in the state they read, putting what the stake pool pays out and the subsidy they computed into the destination reserves is enough for the end they built not to be refused for missing value: it goes through unless the destination's calculator gives no answer or the total outgrows 64 bits, whatever other transfers happen in between, as long as the stake pools' steps left the destination LST worth no less. For rebal-withdraw-sol the subsidy is also the least that works. rebal-stake's search for the amount takes at most one step. For rebal-sol one token unit more than computed may be needed (refuted witness without it) and always suffices.",quantifier="every reachable state, stake pool state, LST pair, amount, payout, and every other program's doing in the middle of the transaction",why_tests_cant="rounding and fees of every stake pool state and amount, and anything in the middle of the transaction",anchors=["cli/s-controller/src/subcmd/rebal_withdraw_sol.rs","cli/s-controller/src/subcmd/rebal_stake.rs","cli/s-controller/src/subcmd/rebal_sol.rs","cli/s-controller/src/common.rs","cli/s-controller/src/rpc.rs","libs/s-jup-interface/src/update.rs","libs/s-controller-lib/src/instructions"])
app(id='C52',title="The sync commands leave the records right",statement="When the operator's sync command ends normally, the LST is recorded at exactly what its calculator says its reserves are worth, the pool's total changed by exactly that difference and nothing else changed; without --force nothing is sent exactly when the record already was right. When sync-all --force ends normally, every listed LST the tool's file knows is recorded at what its calculator says, whatever the number of LSTs and transactions, the others are as before and the total is the sum. Without --force the same holds if no LST is worth less than recorded; otherwise changes that cancel out in one transaction are wrongly skipped (a reachable case).",quantifier="every reachable state, list, file of LSTs, number of LSTs, and calculators that do not read the controller's own accounts",why_tests_cant="the commands split any number of LSTs over several transactions, each simulated and compared with the state fetched at the start; whether skipping loses an update depends on every combination of rate changes",anchors=["cli/s-controller/src/subcmd/sync.rs","cli/s-controller/src/subcmd/sync_all.rs","cli/s-controller/src/rpc.rs: does_tx_modify_pool_state","cli/s-controller/src/common.rs: find_sanctum_lst_by_mint"])
app(id='C53',title="The administrative commands do exactly what their rules say",statement="Each of the operator tool's sixteen administrative commands (initialise; set the admin, protocol fees, fee beneficiary, pricing program, rebalance authority; add and remove disable authorities; disable and enable the pool; disable, enable, add and remove an LST; set an LST's calculator; withdraw protocol fees) goes through exactly when its rule holds: whose keys it is given, the state of the pool, the list and the token accounts, its arguments. It then changes exactly what the rule says and nothing else. The operator names mints and keys, never positions or account lists: the tool finds those. It never refuses what its rule permits. One case its own message promises is refused, and proved to be: withdrawing fees to the payer's associated account when that does not exist yet and the payer is not the beneficiary.",quantifier="every reachable state, pair of signing keys, command and arguments",why_tests_cant="all states, positions in the lists, and keys; a wrong position or a missing signature shows only in particular states",anchors=["cli/s-controller/src/subcmd/init.rs","cli/s-controller/src/subcmd/set_admin.rs","cli/s-controller/src/subcmd/set_protocol_fee.rs","cli/s-controller/src/subcmd/set_protocol_fee_beneficiary.rs","cli/s-controller/src/subcmd/set_pricing_prog.rs","cli/s-controller/src/subcmd/set_rebalance_auth.rs","cli/s-controller/src/subcmd/add_disable_auth.rs","cli/s-controller/src/subcmd/remove_disable_auth.rs","cli/s-controller/src/subcmd/disable_pool.rs","cli/s-controller/src/subcmd/enable_pool.rs","cli/s-controller/src/subcmd/disable_lst_input.rs","cli/s-controller/src/subcmd/enable_lst_input.rs","cli/s-controller/src/subcmd/add_lst.rs","cli/s-controller/src/subcmd/remove_lst.rs","cli/s-controller/src/subcmd/set_sol_value_calculator.rs","cli/s-controller/src/subcmd/withdraw_protocol_fees.rs","cli/s-controller/src/common.rs"])
app(id='C54',title="The managers' tools do exactly what their rules say",statement="Each command of the flat-fee manager's tool (initialise; set the manager, the LP withdrawal fee, an LST's fees; add and remove an LST) and of the calculators' tool (initialise, set the manager, acknowledge the stake pool program's current code) goes through exactly when its rule holds (the manager's key, bounds on fees, what is recorded) and then makes the records exactly what the rule says, changing nothing else. The transaction batch-set-fees prints, run by the manager, sets every LST the program knows to the given fees and changes nothing else, and goes through exactly when the fees are within bounds or nothing was to be changed; the price commands print exactly the price the fees on record imply. One weakness is proved: anybody can create an account owned by the program that stops batch-set-fees from producing anything.",quantifier="every reachable state of the program's records, signing key, command and argument, and every order in which the node lists the accounts",why_tests_cant="all states, keys, numbers of LSTs and listing orders",anchors=["cli/pricing-programs/flat-fee/src/subcmd","cli/generic-pool-calculator/src/subcmd","libs/pricing-programs/flat-fee-lib/src/account_resolvers","libs/sol-value-calculator-programs/generic-pool-calculator-lib/src/account_resolvers"])
app(id='C55',title="Rent is paid by who signs for it, returned where told, and never lost",statement="In every history, every account of the pool that holds data stays rent-exempt, except that the pool state lends one lamport to the rebalance record while a rebalance is under way. Each controller instruction, each administrative command of the operator's tool and each command of the managers' tools moves SOL exactly as listed: the payer of a creation or growth pays exactly what the account lacks; what a shrunk account no longer needs, and all of a closed one, goes to the account named for it; every other balance, at every address, is as before (rent, that is: wrapped SOL also moves as a token). SOL is conserved. Nobody loses SOL but an account that signed, and the pool's own accounts when they are shrunk or closed; whatever lands in the pool's accounts by gift is not lost. Lamports never stop an instruction that would otherwise go through, unless the payer cannot pay or the refund is to go to an account being closed. Listing an LST and then unlisting it returns what was paid, to the lamport.",quantifier="every rent schedule (positive and monotone), every history of instructions and of other programs' transfers, every account list and balance",why_tests_cant="all balances, gifts to derived addresses, list lengths and orders of growing and shrinking",anchors=["programs/s-controller/src/list_account.rs","programs/s-controller/src/processor/initialize.rs","programs/s-controller/src/processor/add_lst.rs","programs/s-controller/src/processor/remove_lst.rs","programs/s-controller/src/processor/add_disable_pool_authority.rs","programs/s-controller/src/processor/remove_disable_pool_authority.rs","programs/s-controller/src/processor/start_rebalance.rs","programs/s-controller/src/processor/end_rebalance.rs","programs/pricing-programs/flat-fee/src/processor","libs/sol-value-calculator-programs/generic-pool-calculator-onchain/src/processor/init.rs","cli/s-controller/src/subcmd","cli/pricing-programs/flat-fee/src/subcmd","cli/generic-pool-calculator/src/subcmd"])
app(id='C56',title="A loss of an LST costs LP holders no more than what was lost",statement="LSTs may also lose value (slashing, a broken stake pool), at any moment, also in the middle of a rebalance. Whatever is done then, the pool's records overstate its reserves by no more in total than what the reserves lost; and over any history from any reachable state the value behind each LP token, counting each LST at no more than its reserves are worth now, falls by at most (z + x + o)/M: z the roundings of C44, x what the reserves lost, o what the records overstated at the start, M the least LP supply in between. So trading on stale records cannot multiply a loss, and a holder who redeems is credited what the deposit was, less the rounding of C50 and at most shares*(z + x + o)/M. The bound is met: whoever redeems through another LST before a loss is recorded escapes it, and the remaining holders bear it (a reachable case).",quantifier="every reachable state, every history of any length, every change of rates or of stake pools, every holder",why_tests_cant="losses and trades interleave in unboundedly many ways",anchors=["programs/s-controller/src/processor","libs/s-controller-lib/src/calc.rs","libs/s-controller-lib/src/state.rs"])
app(id='C57',title="An instruction that lands late does what it would do if made then, or is refused",statement="An instruction that a client library built from any view of the accounts (stale, or made up by a lying node) and that the pool accepts in some later state is exactly the instruction the library would build from that state for the same request, except that a change of the rebalance authority may have been asked for in the other of the two capacities. Likewise a command of the operator's tool that was planned from an earlier state does what the same command would do if typed at that moment (with the amount the tool read in place of 'all'), or is refused. In particular a trader's swap or liquidity instruction pays the signed amount (or at most the signed maximum) of the named mint from the named account, delivers at least the signed minimum (or the signed amount) of the other mint to the other named account, and takes nothing from any other user's account, whatever happened in between.",quantifier="every request, every view it was built from, every reachable state it is carried out in, every external answer; every operator command and pair of states",why_tests_cant="it ranges over all pairs of states (whatever interleaving led from one to the other) and over views no test would fabricate",anchors=["libs/s-controller-lib/src/accounts_resolvers","libs/s-controller-lib/src/instructions","programs/s-controller/src/processor","cli/s-controller/src/subcmd"])
app(id='C58',title="LSTs that charge for transfers",statement="The pool accepts Token-2022 mints, and such a mint may withhold part of every transfer. Whatever each mint withholds (anything between nothing and the whole amount): the pool's total stays the sum of its records and both reserves are recorded at what really arrived in them; a swap is still refused unless both reserves together are worth at least what they were; a redemption lowers the value behind the remaining LP tokens by no more than it does without fees; a rebalance still ends only when the total is back at its start. What changes: the depositor is minted LP tokens for the whole deposit, so the pool's value per LP token may fall, by less than the value of what was withheld (a reachable case is shown, so C06 does not extend to such mints); and what the user signs as a minimum (or exact) output is what is sent, not what arrives (a reachable case is shown). Where nothing is withheld everything is as in the other properties.",quantifier="every fee function, every history of any length, every instruction, account list and external answer",why_tests_cant="all fee schedules, amounts and histories; the test suite has no mint with a transfer fee",anchors=["programs/s-controller/src/processor/add_lst.rs","programs/s-controller/src/processor/add_liquidity.rs","programs/s-controller/src/processor/remove_liquidity.rs","programs/s-controller/src/processor/swap_exact_in.rs","programs/s-controller/src/processor/swap_exact_out.rs"])
app(id='C59',title="No more signatures or write access than needed",statement="Whatever the controller carries out, in any state, was passed every signature and write access its interface documents for its accounts. The instructions built by the client library, by every administrative, sync and rebalance command of the operator's tool and by the client given to Jupiter ask for exactly that and no more: their remaining accounts are only read (or are the caller's own calculator and pricing accounts, flagged as the caller flagged them). Nothing could be spared: lend any one account with less, and the program refuses the instruction in every state, whatever the external programs answer. The same holds of the flat-fee and calculator programs and of their managers' tools; price simulations ask for nothing. So a signer exposes no account to more than the program insists on.",quantifier="every request, view, command and arguments; every account position and lesser privilege; every state the instruction may be run in",why_tests_cant="a superfluous flag never makes a test fail; that a flag is indispensable is a claim about every state",anchors=["libs/s-controller-lib/src/instructions","libs/s-controller-lib/src/accounts_resolvers","generated/s_controller_interface/src/instructions.rs","generated/pricing-programs/flat_fee_interface/src/instructions.rs","generated/sol-value-calculator-programs/generic_pool_calculator_interface/src/instructions.rs","libs/s-jup-interface/src/core","cli/s-controller/src/subcmd","cli/pricing-programs/flat-fee/src/subcmd","cli/generic-pool-calculator/src/subcmd"])
app(id='C60',title="What the chain accepts, the client quotes",statement="The quote an aggregator shows is not only kept (C25), it is never missing: whenever an instruction the Jupiter client built from an up-to-date cache is carried out by the chain, the pool was active, and the client quotes that trade: the quote is within the limits the user gave and equals what was taken and paid. It refuses a trade the chain would do only if (1) the pricing program gives a rebate in a swap, (2) the trading fee, which the quote merely reports, has no LST equivalent, (3) a deposit worth no SOL is the first while no LP tokens exist, or (4) LP tokens worth no SOL are redeemed for an LST whose stake pool is empty or charges everything. Otherwise, what the client refuses to quote, no limits make the chain accept.",quantifier="every reachable pool, every in-sync client cache, all amounts and limits, both directions of all four trades, every ratio library meeting its contract, every fee schedule the flat-fee program can reach",why_tests_cant="a test compares one quote with one simulated trade; that no acceptable trade exists where the client says no is a statement about all limits and all states",anchors=["libs/s-jup-interface/src/core (quote_full, quote_swap_exact_in, quote_swap_exact_out, quote_add_liquidity, quote_remove_liquidity)","programs/s-controller/src/processor (swap_exact_in, swap_exact_out, add_liquidity, remove_liquidity)"])
app(id='C61',title="Nobody else's trade moves a swap's price",statement="There is no price impact and nothing for a sandwich to gain from: a swap instruction (amount, direction, accounts), if carried out at all, takes from and pays to the user exactly the same amounts in every reachable state of the pool, however large or lopsided the pool, and whatever others traded, deposited, redeemed, rebalanced or administered in between, as long as the stake pools' rates and the pricing program's fees are the same. The protocol's fee is the rate at the time applied to the same SOL values and comes out of the pool's side.",quantifier="every pair of reachable states, every history between them, both swap instructions, any limits and list positions, every set of calculators and pricing programs that answer from their own accounts (the shipped ones do)",why_tests_cant="a test can compare two states; that no state and no interleaving matters quantifies over all histories",anchors=["programs/s-controller/src/processor/swap_exact_in.rs","programs/s-controller/src/processor/swap_exact_out.rs","libs/s-controller-lib/src/calc"])
app(id='C62',title="No arbitrage against the pool",statement="From any point at which every LST's recorded SOL value is fresh, whatever anybody (or any number of parties in concert) does until any later point outside a rebalance - swaps, deposits, redemptions, rebalances, pool administration, gifts, at any sizes and in any order - cannot take lamports' worth out of the pool's reserves per LP token outstanding: what the pool holds, valued at the stake pools' rates, per LP token falls by no more than the roundings of redemptions that their fees did not make up for. So if the rates did not change, no LP token was given up, and no LST's reserves ended higher, then what left the reserves is worth not one lamport; and where one unit of each LST is worth a lamport or more, not one unit left.",quantifier="every reachable starting state with fresh records, every history of instructions by any parties, external transfers and rises of the rates, every pair of honest calculators and pricing programs as in C44, in particular the shipped ones",why_tests_cant="an attacker may chain any number of operations of any kind; tests try some chains",anchors=["programs/s-controller/src/processor","libs/s-controller-lib/src/calc"])
app(id='C63',title="Nobody's tokens leave without their signature, nor more than signed for",statement="Whatever instruction succeeds, in any reachable state and with any accounts passed by anyone, a token account that is not the pool's own stays open with the same mint and owner, and loses no token unless its owner signed. If the owner signed, it loses at most what the instruction itself states: the amount in of a swap or deposit, the maximum in of an exact-out swap, the LP tokens to redeem, and only from the account named as the source. Over any history the loss is at most the sum of what the owner signed for, so an owner who signs nothing loses nothing, whatever the admin, the rebalancer, other users, or the pricing and calculator programs do. The same holds for mints that charge for transfers.",quantifier="every reachable state, every instruction with any data and accounts (accounts may be aliased), every calculator and pricing program whatsoever, every history, every outside token account and owner",why_tests_cant="it must hold for every way anyone can combine accounts, including aliased and unrelated ones; a test tries those it names",anchors=["programs/s-controller/src/processor","programs/s-controller/src/verify.rs"])
app(id='C64',title="Records go stale only by rewards and gifts",statement="At any valuation that the listed calculators answer truthfully, and in any reachable state, an instruction that succeeds leaves the record of every LST it names exactly equal to the value of what that LST's reserves hold afterwards, and every other LST's record and reserves as they were, with one exception: reserves into which the caller had LP tokens minted or protocol fees paid without naming them; a newly listed LST starts at 0. So along any history, in whatever order instructions come, an LST's record differs from its reserves' value only if, since an instruction last named it, tokens reached those reserves unmeasured or the stake pools' rates revalued them; otherwise the recorded total is exactly the value of the pool's holdings, and nothing can be made from the pool by trading (C62) without anyone calling SyncSolValue first.",quantifier="all reachable states, instructions, arguments, account lists, calculator and pricing programs, valuations; all histories of instructions, outside steps and changes of rates of any length, mid-rebalance states included",why_tests_cant="The set of LSTs whose record is current depends on the whole history, on which reserves each instruction happens to touch (aliased accounts included), and on the order of transfers and measurements inside each instruction; tests run single instructions with distinct accounts.",anchors=["programs/s-controller/src/processor/sync_sol_value.rs","programs/s-controller/src/processor/swap_exact_in.rs","programs/s-controller/src/processor/swap_exact_out.rs","programs/s-controller/src/processor/add_liquidity.rs","programs/s-controller/src/processor/remove_liquidity.rs","programs/s-controller/src/processor/start_rebalance.rs","programs/s-controller/src/processor/end_rebalance.rs","programs/s-controller/src/processor/withdraw_protocol_fees.rs"])
app(id='C65',title="A larger order never does worse",statement="With calculators and a pricing program that answer more (or as much) for more - the shipped ones do, given arithmetic-library reverse operations that do - a swap that gives more pays out no less, a swap that asks for more charges no less, whatever happened to the pool between the two; in the same state, a larger deposit gets no fewer LP tokens and a larger redemption no less LST.",quantifier="every such environment, any two reachable states (swaps) or any reachable state (deposits, redemptions), every pair of amounts, every account list that both calls accept, any list positions and slippage limits",why_tests_cant="it compares two executions, over all pairs of amounts and states; rounding in four chained steps could break it at isolated amounts",anchors=['programs/s-controller/src/processor/swap_exact_in.rs:process_swap_exact_in','programs/s-controller/src/processor/swap_exact_out.rs:process_swap_exact_out','programs/s-controller/src/processor/add_liquidity.rs:process_add_liquidity','programs/s-controller/src/processor/remove_liquidity.rs:process_remove_liquidity','libs/s-controller-lib/src/calc.rs:calc_lp_tokens_to_mint'])
app(id='C66',title="The outcome depends only on the accounts passed",statement="Run on two chains on which the accounts passed to a call are the same (data, owner, whether a program), whatever else differs, an instruction fails with the same error on both or succeeds on both and leaves the passed accounts the same. So what others do to accounts not passed cannot change a call's outcome; and two calls neither of which is passed as writable an account the other is passed can be run in either order with the same effect on every account. The same holds of the shipped calculators and the flat-fee program, their administration included, given the same epoch; so of the controller running with them it holds whatever differs in their other accounts too.",quantifier="every pair of worlds (reachable or not), every instruction, argument and account list, every set of calculators and pricing programs that answer from the accounts they are handed (the shipped ones do)",why_tests_cant="a test runs on one chain state; that no other account on the chain matters ranges over all of them, in pairs",anchors=['programs/s-controller/src/entrypoint.rs:process_instruction','programs/s-controller/src/processor','programs/s-controller/src/verify.rs','libs/s-controller-lib/src/accounts_resolvers'])
with open(P,'w') as f:
    for p in ps: f.write(json.dumps(p,ensure_ascii=False)+'\n')
