{"id": "C01", "title": "Instruction bytes round-trip", "statement": "Decoding the Borsh bytes of any instruction with in-range arguments yields exactly that instruction.", "quantifier": "every instruction of all 12 kinds, every u64 / 32-byte key / optional-u64 / lockup argument", "why_tests_cant": "2^64 and 2^256 argument spaces; a unit test samples a few literals", "anchors": ["programs/rewards/src/instruction.rs: RewardsInstruction", "programs/rewards/src/instructions/mod.rs: process_instruction"]}
{"id": "C02", "title": "Instruction encoding is canonical and rejects junk", "statement": "If the program accepts a byte string as an instruction then that byte string is the unique encoding of it: truncated input, trailing bytes, unknown tags, unknown lockup tags and bad option tags are all rejected, and no two instructions share an encoding.", "quantifier": "every byte string of every length", "why_tests_cant": "the set of byte strings is infinite", "anchors": ["programs/rewards/src/instructions/mod.rs: process_instruction (try_from_slice)", "programs/rewards/src/instruction.rs: RewardsInstruction", "programs/rewards/src/utils.rs: LockupPeriod"]}
{"id": "C03", "title": "Privileged signatures are always required", "statement": "Whenever an instruction succeeds, the authority recorded in the pool account it names has signed: the deposit authority for deposit, withdraw, extend, change-delegate, slash, decrease-rewards, claim and close; the fill authority for fill; the distribute authority for distribute. Claim, close and change-delegate additionally carry the signature of the wallet recorded as the mining's owner.", "quantifier": "every ledger, account list (with duplicates and missing entries), argument and time", "why_tests_cant": "adversarial account lists are unbounded", "anchors": ["programs/rewards/src/asserts.rs: assert_and_get_pool_and_mining, assert_account_key", "programs/rewards/src/instructions/*.rs", "programs/rewards/src/utils.rs: AccountLoader"]}
{"id": "C04", "title": "Stake instructions only act on the mining derived for (owner, pool)", "statement": "A successful deposit, withdraw, extend, change-delegate, slash or decrease-rewards names a mining account that is owned by the program, whose recorded pool is the pool passed, whose recorded owner is the wallet passed, and whose address is the program-derived address of (owner, pool, recorded bump). A delegate credited by deposit / extend / change-delegate, or debited by withdraw / extend, sits at the derived address of (delegate wallet, that pool).", "quantifier": "every ledger, account list, argument and time", "why_tests_cant": "account substitution attacks range over all ledgers", "anchors": ["programs/rewards/src/asserts.rs: assert_and_get_pool_and_mining", "programs/rewards/src/utils.rs: verify_delegate_mining_address, create_mining_address"]}
{"id": "C05", "title": "Instructions touch only the accounts they name", "statement": "Every account other than the ones at the instruction's documented positions is bit-for-bit unchanged by a successful instruction, and a failed instruction changes nothing.", "quantifier": "every ledger, account list, instruction and time", "why_tests_cant": "needs quantification over all other accounts", "anchors": ["programs/rewards/src/instructions/*.rs"]}
{"id": "C06", "title": "Pools are isolated from each other, except through two holes", "statement": "An instruction that names pool P never changes the data of any other pool, and never changes a mining belonging to another pool, unless it is ChangeDelegate (whose old-delegate account is not checked against the pool) or CloseMining (whose mining is not checked against the pool). Both exceptions are real: any caller with a pool of their own can, without any signature of the victim, use ChangeDelegate to push a stranger's mining in another pool into a state in which refreshing it fails until the other pool's index catches up.", "quantifier": "every ledger satisfying the program's address invariant, every instruction", "why_tests_cant": "needs all pairs of pools and all instructions; exploit found only by failing proof", "anchors": ["programs/rewards/src/instructions/change_delegate.rs: process_change_delegate", "programs/rewards/src/instructions/close_mining.rs: process_close_mining", "programs/rewards/src/state/reward_pool.rs: change_delegate"]}
{"id": "C07", "title": "A pool is initialised once and its configuration never changes", "statement": "After a pool account is initialised, its deposit, fill and distribute authorities, reward mint and vault bump are the same after every later history of instructions, whoever sends them; initialising it again is rejected.", "quantifier": "every history of instructions and external events of any length", "why_tests_cant": "histories are unbounded", "anchors": ["programs/rewards/src/instructions/initialize_pool.rs: process_initialize_pool", "programs/rewards/src/state/reward_pool.rs: RewardPool::initialize"]}
{"id": "C08", "title": "A mining's identity never changes while it exists", "statement": "InitializeMining creates the mining only at the canonical derived address, with zero stake, zero rewards and empty schedule; afterwards its recorded owner, pool and bump survive every history of instructions other than a close of that mining.", "quantifier": "every history of instructions of any length", "why_tests_cant": "histories are unbounded", "anchors": ["programs/rewards/src/instructions/initialize_mining.rs: process_initialize_mining", "programs/rewards/src/state/mining.rs: Mining::initialize"]}
{"id": "C09", "title": "Reward index and distribution history only grow", "statement": "Over any history, a pool's cumulative index never decreases, a recorded (day, index) entry is never altered or removed, entries are strictly increasing in day and non-decreasing in index, and a mining's own index never decreases.", "quantifier": "every history with a non-decreasing clock", "why_tests_cant": "histories are unbounded", "anchors": ["programs/rewards/src/state/reward_pool.rs: update_index, distribute", "programs/rewards/src/state/mining.rs: update_index"]}
{"id": "C10", "title": "At most one distribution takes effect per UTC day", "statement": "If a distribution is already recorded for the current UTC day, DistributeRewards changes neither the index, nor its history, nor the tokens available for distribution. As long as fewer than 1095 days are recorded, a successful distribution records the day, so at most one takes effect per day.", "quantifier": "every pool state and every time of day", "why_tests_cant": "all states and times", "anchors": ["programs/rewards/src/state/reward_pool.rs: distribute"]}
{"id": "C11", "title": "When the 1095-day history is full, distributions burn budget without paying anyone", "statement": "Once 1095 distinct days are recorded, a distribution on a new day still deducts its tokens from the budget and advances the pool index, but records no history entry; no mining ever accrues anything from it, and it can be repeated any number of times on the same day. (Finding.)", "quantifier": "every pool whose history holds 1095 days and every later history", "why_tests_cant": "takes three years of daily operation to reach", "anchors": ["programs/rewards/src/state/mod.rs: INDEX_HISTORY_MAX_SIZE", "programs/rewards/src/state/reward_pool.rs: distribute, update_index"]}
{"id": "C12", "title": "Daily distribution amount", "statement": "A distribution takes exactly floor(budget / whole days left) tokens, or the entire budget when less than one whole day is left; it never exceeds the budget, and computing it never fails or overflows.", "quantifier": "every budget, end date and time in u64", "why_tests_cant": "2^192 combinations", "anchors": ["programs/rewards/src/state/reward_pool.rs: rewards_to_distribute"]}
{"id": "C13", "title": "Daily distribution spreads the budget evenly and empties it by the end date", "statement": "For any fill and any end date, if a distribution takes effect with n, n-1, ..., 1 whole days left and nothing else changes the budget or the end date in between, every part is floor(budget/n) or one token more, the parts add up to the budget and nothing is left; a distribution with fewer than two whole days left takes everything.", "quantifier": "every budget and number of days", "why_tests_cant": "unbounded schedules", "anchors": ["programs/rewards/src/state/reward_pool.rs: rewards_to_distribute, distribute"]}
{"id": "C14", "title": "Index increment of a distribution", "statement": "A distribution that takes effect raises the index by floor(10^16 * tokens / T), where T is the pool's total weighted stake after removing every stake bonus that expires on or before the current UTC day, records it under the start of the current UTC day, and deducts exactly those tokens from the budget.", "quantifier": "every pool state, schedule and time", "why_tests_cant": "all schedules", "anchors": ["programs/rewards/src/state/reward_pool.rs: distribute, consume_old_modifiers, update_index"]}
{"id": "C15", "title": "Accrual formula", "statement": "Refreshing a mining credits, for every recorded distribution day not yet accounted, (index increment of that day) * (weighted stake of the mining on that day, i.e. after the bonuses expiring on or before that day) / 10^16, rounded down once per expiry segment: never more than the exact sum and less than one token per segment below it.", "quantifier": "every mining, schedule, distribution history and time", "why_tests_cant": "unbounded histories and schedules", "anchors": ["programs/rewards/src/state/mining.rs: refresh_rewards, consume_old_modifiers, update_index", "programs/rewards/src/state/mod.rs: find_max_value_limited_by_key"]}
{"id": "C16", "title": "Refresh is idempotent and path-independent", "statement": "Refreshing twice at the same time equals refreshing once. Refreshing at an earlier time and then later (with the distributions in between) leaves the same weighted stake, schedule and index as refreshing only at the later time, and never credits more.", "quantifier": "every mining, history and pair of times", "why_tests_cant": "all interleavings of refreshes", "anchors": ["programs/rewards/src/state/mining.rs: refresh_rewards"]}
{"id": "C17", "title": "Expiry removes exactly the bonus", "statement": "Refreshing removes from the schedule exactly the entries dated on or before the current UTC day, lowers the weighted stake by exactly their sum, and leaves the delegated-in stake, the difference (weighted stake - pending bonuses) and the identity unchanged.", "quantifier": "every mining, schedule and time", "why_tests_cant": "all schedules", "anchors": ["programs/rewards/src/state/mining.rs: consume_old_modifiers, refresh_rewards"]}
{"id": "C18", "title": "Total share equals the sum of weighted stakes", "statement": "For every history of deposits, withdrawals, slashes, expired-or-flex extensions, delegate changes, claims, fills, distributions and mining initialisations that never overflows a schedule's capacity, on every day from now on the pool's total share net of its scheduled expiries equals the sum over all its minings of (weighted stake + delegated-in stake) net of theirs.", "quantifier": "every history of any length, every number of minings, every future day", "why_tests_cant": "histories are unbounded; equality is across accounts updated lazily at different times", "anchors": ["programs/rewards/src/state/reward_pool.rs: deposit, withdraw, slash, extend, change_delegate, distribute"]}
{"id": "C19", "title": "Penalties and closing only ever over-count the pool", "statement": "Decrease-rewards and close lower the minings' side but not the pool's total share, so with them the pool's total share is still never below the sum of its minings' stakes (rewards are under-distributed, never over-distributed); and the pool side really does stay behind (the weighted stake of a closed mining keeps diluting everybody).", "quantifier": "every history; every closed or penalised mining", "why_tests_cant": "histories are unbounded", "anchors": ["programs/rewards/src/state/mining.rs: decrease_rewards", "programs/rewards/src/instructions/close_mining.rs"]}
{"id": "C20", "title": "Solvency", "statement": "For every disciplined history (authority withdraws only unlocked stake, extends only expired or flex stakes, delegates only to up-to-date minings, never exceeds a mining's 50 schedule slots, does not raise stake in the same midnight second in which a distribution was recorded, fills from an account other than the vault) the vault holds at least the undistributed budget plus all unclaimed rewards plus everything the minings have accrued but not yet refreshed.", "quantifier": "every disciplined history of any length, any number of minings", "why_tests_cant": "histories are unbounded; depends on rounding and lazy expiry everywhere", "anchors": ["programs/rewards/src/state/reward_pool.rs", "programs/rewards/src/state/mining.rs", "programs/rewards/src/instructions/claim.rs", "programs/rewards/src/instructions/fill_vault.rs"]}
{"id": "C21", "title": "Claims always succeed in disciplined histories", "statement": "After every disciplined history, a claim by any mining at any later time passes the reward computation without arithmetic failure and the vault holds enough tokens to pay it.", "quantifier": "every disciplined history, mining and later time", "why_tests_cant": "liveness over unbounded histories", "anchors": ["programs/rewards/src/instructions/claim.rs: process_claim", "programs/rewards/src/state/mining.rs: refresh_rewards"]}
{"id": "C22", "title": "Unlocked stake can always be withdrawn in disciplined histories", "statement": "After every disciplined history, withdrawing any amount up to the unlocked stake of a mining succeeds at any later time.", "quantifier": "every disciplined history, mining, amount and later time", "why_tests_cant": "liveness over unbounded histories", "anchors": ["programs/rewards/src/state/reward_pool.rs: withdraw"]}
{"id": "C23", "title": "Every discipline condition of solvency is necessary", "statement": "For each condition of C20 there is a concrete history of successful instructions violating only that condition that ends with the minings' claimable rewards exceeding the tokens in the vault: delegating to a stale mining; delegating to a brand-new mining (whose index starts at 0, so it is paid for the whole past of the pool); extending an unexpired stake; overflowing the 50-slot schedule; depositing in the midnight second of a distribution; filling the vault from itself; withdrawing locked stake. (Findings.)", "quantifier": "existential witnesses", "why_tests_cant": "requires histories nobody thought to test", "anchors": ["programs/rewards/src/state/reward_pool.rs: deposit, extend, change_delegate", "programs/rewards/src/instructions/fill_vault.rs"]}
{"id": "C24", "title": "A claim pays exactly what is owed, once", "statement": "A successful claim moves exactly the mining's unclaimed rewards after refresh from the vault to the destination, resets them to zero, returns that number, and an immediately repeated claim pays zero.", "quantifier": "every ledger, account list and time", "why_tests_cant": "all ledgers", "anchors": ["programs/rewards/src/instructions/claim.rs: process_claim"]}
{"id": "C25", "title": "Claims cannot be redirected", "statement": "The destination of a successful claim is a token account whose owner is the mining owner who signed, the source is the vault derived from the pool, the mint passed and the pool's bump, the mining belongs to the pool, and no other token account changes.", "quantifier": "every ledger, account list and time", "why_tests_cant": "all ledgers", "anchors": ["programs/rewards/src/instructions/claim.rs: process_claim"]}
{"id": "C26", "title": "Filling the vault", "statement": "A successful fill moves exactly the given positive amount from the source to the vault, adds it to the budget, sets the end date to the start of the given UTC day, and never moves the end date backwards nor sets it before today; zero amounts, past dates and earlier-than-current end dates are rejected.", "quantifier": "every ledger, amount, date and time", "why_tests_cant": "all amounts, dates, times", "anchors": ["programs/rewards/src/instructions/fill_vault.rs: process_fill_vault"]}
{"id": "C27", "title": "Deposit effect", "statement": "A successful deposit of amount a for period p raises the mining's weighted stake and the pool's total share by a*multiplier(p), schedules a drop of a*(multiplier(p)-1) at the start of the day p days ahead in both schedules (if they have room), raises the delegate's delegated-in stake and the total share by a when a distinct delegate is named, and changes nothing else besides the refreshes.", "quantifier": "every state, amount, period, delegate and time", "why_tests_cant": "all states", "anchors": ["programs/rewards/src/state/reward_pool.rs: deposit", "programs/rewards/src/utils.rs: LockupPeriod"]}
{"id": "C28", "title": "Withdraw effect", "statement": "A successful withdrawal of a lowers the refreshed mining's weighted stake by a, lowers the total share by a, applies the pool's due expiries, lowers the delegate's delegated-in stake and the total share by a when a distinct delegate is named, and pays out no rewards.", "quantifier": "every state, amount, delegate and time", "why_tests_cant": "all states", "anchors": ["programs/rewards/src/state/reward_pool.rs: withdraw"]}
{"id": "C29", "title": "Slash effect", "statement": "A successful slash of n native tokens with weight w lowers the weighted stake and total share by w; with an expiration date it also lowers the scheduled drop at the start of that day by w-n in both schedules, so that the unlocked stake falls by exactly n; a slash naming a date without a scheduled drop in either schedule is rejected.", "quantifier": "every state, amounts, date and time", "why_tests_cant": "all states", "anchors": ["programs/rewards/src/state/reward_pool.rs: slash"]}
{"id": "C30", "title": "Decrease-rewards effect", "statement": "Decrease-rewards by d lowers the weighted stake by exactly d, lowers the scheduled drops latest-first by min(d, their sum) in total, never leaves the weighted stake below the sum of scheduled drops if it was not before, changes no other field and nothing in the pool, and is rejected when d exceeds the weighted stake.", "quantifier": "every mining, schedule and d", "why_tests_cant": "all schedules", "anchors": ["programs/rewards/src/state/mining.rs: decrease_rewards", "programs/rewards/src/instructions/penalties/decrease_rewards.rs"]}
{"id": "C31", "title": "Extend effect, and the stale expiry it leaves in the pool", "statement": "Extending an expired or flex stake equals removing its flex weight and depositing base+additional anew. Extending an unexpired stake removes the old scheduled drop from the mining but leaves it in the pool, so from the old expiry on the pool's total share is too small by base*(multiplier-1); repeating it makes every withdrawal and every distribution of the pool fail, at every later time and with whatever accounts, until new stake is deposited. (Finding.)", "quantifier": "every state, periods, amounts and time", "why_tests_cant": "all states; failure appears months later", "anchors": ["programs/rewards/src/state/reward_pool.rs: extend, modify_weighted_stake_diffs"]}
{"id": "C32", "title": "Change-delegate effect", "statement": "A successful delegate change moves exactly the given amount of delegated-in stake from the old to the new delegate; total share is unchanged when both are distinct from the staker's own mining, falls by the amount when the new delegate is the staker itself, and rises by it when the old one is; identical delegates are rejected.", "quantifier": "every state, amount and time", "why_tests_cant": "all states", "anchors": ["programs/rewards/src/state/reward_pool.rs: change_delegate", "programs/rewards/src/instructions/change_delegate.rs"]}
{"id": "C33", "title": "Close effect", "statement": "A successful close requires zero delegated-in stake and zero unclaimed rewards after refresh, moves all lamports of the mining to the target, wipes the mining's data and changes no token balance and no pool; it does not require zero weighted stake and leaves the pool's total share as it was.", "quantifier": "every ledger, account list and time", "why_tests_cant": "all ledgers", "anchors": ["programs/rewards/src/instructions/close_mining.rs: process_close_mining"]}
{"id": "C34", "title": "Lockup periods", "statement": "Multipliers are 1, 2, 4, 6 for flex, 3, 6, 12 months; the expiry is the start of the starting day plus 5, 90, 180, 365 days, always day-aligned and at least 4 days in the future; period None is rejected by deposit and extend whatever the amount.", "quantifier": "every time and amount", "why_tests_cant": "all times", "anchors": ["programs/rewards/src/utils.rs: LockupPeriod::multiplier, end_timestamp, days"]}
{"id": "C35", "title": "History lookup", "statement": "Looking up the index for a date returns the index of the latest recorded day strictly before the date, or nothing when there is none, for every search tree whatever its shape.", "quantifier": "every binary search tree and key", "why_tests_cant": "all tree shapes", "anchors": ["programs/rewards/src/state/mod.rs: find_max_value_limited_by_key"]}
{"id": "C36", "title": "Schedule capacity", "statement": "The pool's schedule never drops an entry when expiries up to today were applied before the deposit (it then holds at most 365 distinct days); without that, and for the mining's 50 slots, a deposit on a full schedule silently loses the scheduled drop: the bonus weight never expires.", "quantifier": "every state reachable by deposits, extensions, slashes, distributions; every time", "why_tests_cant": "needs hundreds of dated deposits", "anchors": ["programs/rewards/src/state/mod.rs: POOL_MODIFIERS_TREE_CAPACITY, MINING_MODIFIERS_TREE_CAPACITY", "programs/rewards/src/state/reward_pool.rs: deposit"]}
{"id": "C37", "title": "Client-built instructions", "statement": "Every instruction built by the crate's own builders presents the accounts in the order, with the signer and writable flags, that the processor needs. The generated clients' data bytes equal the crate's and carry the arguments they were given, but the generated ExtendStake is always rejected, the generated CloseMining can never succeed on a mining in use, and the generated deposit / withdraw with a distinct delegate can never change a delegate. (Finding.)", "quantifier": "every argument, key and ledger", "why_tests_cant": "clients and processor are never composed in a test", "anchors": ["programs/rewards/src/instruction.rs", "clients/rust/src/generated/instructions/extend_stake.rs", "clients/rust/src/generated/instructions/close_mining.rs", "clients/rust/src/generated/instructions/deposit_mining.rs", "clients/rust/src/generated/instructions/withdraw_mining.rs"]}
{"id": "C38", "title": "Account layout", "statement": "The fixed headers of pool and mining accounts encode and decode without loss, every field lies at the offset the clients expect, the headers take 176 and 144 bytes, and the accounts 64480 and 1776 bytes (of a pool's, 55720 are used on chain). Data shorter than a mining are never read as a mining and data shorter than the used part of a pool are never read as a pool; in particular a mining is never read as a pool. (A pool, being longer, can be read as a mining: see C62.)", "quantifier": "every header value, every byte string of the header length", "why_tests_cant": "all byte values", "anchors": ["programs/rewards/src/state/mining.rs: Mining, WrappedMining", "programs/rewards/src/state/reward_pool.rs: RewardPool, WrappedRewardPool", "clients/rust/src/generated/accounts/*.rs"]}
{"id": "C39", "title": "Stored numbers stay in range", "statement": "Every balance, share, index and date stored by the program stays within its machine type after every history: no operation wraps; any operation that would wrap fails instead.", "quantifier": "every history", "why_tests_cant": "all histories", "anchors": ["programs/rewards/src/utils.rs: SafeArithmeticOperations"]}
{"id": "C40", "title": "Tokens and lamports are conserved", "statement": "No instruction creates or destroys reward tokens or lamports: the sum over all accounts is the same before and after every successful instruction.", "quantifier": "every ledger and instruction", "why_tests_cant": "all ledgers", "anchors": ["programs/rewards/src/instructions/*.rs", "programs/rewards/src/utils.rs: spl_transfer, create_account"]}
{"id": "C41", "title": "Rewards are monotone and split-proof", "statement": "On the same schedule dates and index, a mining with at least as much weighted stake on every day accrues at least as much; splitting a stake over two minings never accrues more than keeping it together and at most one token per segment less.", "quantifier": "every pair of minings and every history", "why_tests_cant": "all pairs", "anchors": ["programs/rewards/src/state/mining.rs: update_index, consume_old_modifiers"]}
{"id": "C42", "title": "Removing delegation is retroactive", "statement": "Withdrawing, extending or re-delegating away from a delegate that was not refreshed since the last distribution recomputes the delegate's past accrual without the removed stake, so the delegate permanently loses rewards it had earned. (Finding; the loss is exactly removed-stake * missed index increment / 10^16 up to rounding.)", "quantifier": "every state", "why_tests_cant": "all states", "anchors": ["programs/rewards/src/state/reward_pool.rs: withdraw, change_delegate, extend"]}
{"id": "C43", "title": "Distribution always succeeds in disciplined histories", "statement": "After every disciplined history with fewer than 1095 recorded days, DistributeRewards succeeds at every later time at which the pool's total share net of due expiries is positive: no subtraction underflows and the 128-bit index cannot overflow.", "quantifier": "every disciplined history and later time", "why_tests_cant": "the index overflow bound only follows from 1095 * 10^16 * 2^64 < 2^128 over all histories", "anchors": ["programs/rewards/src/state/reward_pool.rs: distribute, update_index, consume_old_modifiers", "programs/rewards/src/instructions/distribute_rewards.rs"]}
{"id": "C44", "title": "Deposits fail only for lack of 64-bit room", "statement": "After every disciplined history, a disciplined deposit of any amount and period into an existing mining succeeds at every later time as long as the pool's new total share and the delegate's stake fit in 64 bits.", "quantifier": "every disciplined history, later time, amount, period and delegate", "why_tests_cant": "liveness over unbounded histories", "anchors": ["programs/rewards/src/state/reward_pool.rs: deposit"]}
{"id": "C45", "title": "A pool creator can over-claim from another pool", "statement": "A mining refreshed through ChangeDelegate against a different pool (its old-delegate account is not checked) is paid according to that pool's history. There is a reachable ledger on which a staker, by first naming their mining in pool A as the old delegate of a change in a pool B of their own, claims twice their share from pool A's vault, empties it, and makes an honest staker's claim fail. (Finding.)", "quantifier": "existential witness; a history of successful instructions from a fresh chain", "why_tests_cant": "needs a second pool run by the attacker with a prepared index history", "anchors": ["programs/rewards/src/instructions/change_delegate.rs", "programs/rewards/src/state/reward_pool.rs: change_delegate", "programs/rewards/src/state/mining.rs: refresh_rewards"]}
{"id": "C46", "title": "A lamport at the derived address blocks creation for good", "statement": "If the address derived for a wallet's mining in a pool holds any lamports, every InitializeMining for that wallet and pool fails, and goes on failing after any history in which nobody signs for the (keyless) address. The same holds for InitializePool and the vault address derived for a pool and mint. Anybody can add the lamport. (Finding: the accounts are made with CreateAccount only.)", "quantifier": "every reachable ledger, wallet, pool, mint, and every later history", "why_tests_cant": "a statement about all later attempts by anybody; tests start from empty addresses", "anchors": ["programs/rewards/src/instructions/initialize_mining.rs", "programs/rewards/src/instructions/initialize_pool.rs", "programs/rewards/src/utils.rs: create_account"]}
{"id": "C47", "title": "A closed mining that is topped up can never be reopened", "statement": "If a mining's account receives lamports after CloseMining before the runtime has swept it (in the same transaction), then the account stays with the program, its lamports cannot be taken out again, and no InitializeMining at that address ever succeeds, whatever happens later (the system program's id does not sign). (Finding.)", "quantifier": "every reachable ledger, close, top-up and later history", "why_tests_cant": "needs a transaction with a transfer after the close, and speaks about all futures", "anchors": ["programs/rewards/src/instructions/close_mining.rs", "programs/rewards/src/instructions/initialize_mining.rs"]}
{"id": "C48", "title": "Exact conditions under which each instruction succeeds", "statement": "On every reachable ledger and for every instruction with in-range arguments and writable accounts where it may write, the instruction succeeds if and only if it is allowed: the listed accounts are of the right kind, the right authorities signed, the numbers fit, the mining (and delegate) can be brought up to date, there is enough stake, budget or tokens, and the named bonus is scheduled, as spelled out per instruction in SuccessSpec.v. Nothing succeeds that is not allowed, whatever the flags.", "quantifier": "all twelve instructions, all reachable ledgers, all account lists, arguments and times", "why_tests_cant": "an equivalence over all inputs: tests check a few failures and successes, never that no other condition exists", "anchors": ["programs/rewards/src/instructions/", "programs/rewards/src/state/reward_pool.rs", "programs/rewards/src/state/mining.rs", "programs/rewards/src/asserts.rs"]}
{"id": "C49", "title": "Nothing but dust is lost", "statement": "For a pool run with care (the deposit authority asks only for what the staker has, delegates have accounted for all distributions when stake is added to or taken from them, no stake change in the very second a distribution is dated at, no penalty without counterpart, fewer than 1095 recorded days), every token of the vault is still to be distributed, or owed to a staker, or part of a bounded loss: donations (whatever else reaches the vault, including claims paid back into it), less than one token per refresh and expiry applied, and less than 10^-16 token per unit of weighted stake and distribution. Consequently all but that much can be claimed. Each of the three extra conditions is needed: without it a concrete history loses more (findings: removing stake from a stale delegate, an exit at midnight, a full index history).", "quantifier": "every history of events from a fresh pool, any amounts and times; and every orderly history of instructions and outside changes of a whole ledger, any number of pools and accounts", "why_tests_cant": "a conservation bound over whole histories of unbounded length; tests compare a few amounts", "anchors": ["programs/rewards/src/state/reward_pool.rs", "programs/rewards/src/state/mining.rs", "programs/rewards/src/instructions/claim.rs"]}
{"id": "C50", "title": "Errors tell the truth", "statement": "On every reachable ledger and for every instruction with in-range arguments, whatever error is returned has its reason: InvalidAccountOwner (0) only when an account in a position whose owner is checked belongs to another program, RewardsNoDeposits (2) only when the pool's weighted stake is zero, InvalidLockupPeriod (3) only for the empty period, DistributionInThePast (4) only for an end day before today, RewardsMustBeClaimed (6) and StakeFromOthersMustBeZero (8) only when closing with tokens to claim or delegated-in stake, 7 only for filling zero, 9 only when the named bonus is not scheduled, 10 only for equal delegates, 12 only for an initialised pool, 13/14 only for a delegate account that is not (or cannot be) the wallet's derived mining, 15 only for decreases above the share; MathOverflow and conversion errors only from instructions that compute; missing accounts, missing signatures, used or read-only accounts likewise. No custom code outside 0-15 is ever returned, and 11 never is. Conversely, in the listed situations (accounts otherwise in order) exactly that code is returned, and the first account in the list that is not as wanted decides the error. Data too short to be cut into its parts (a mining passed as a pool, say) stops the program without a code.", "quantifier": "all twelve instructions, all reachable ledgers, account lists, arguments and times", "why_tests_cant": "tests check a code for a handful of bad inputs; that a code is never returned for another reason is a statement about all inputs", "anchors": ["programs/rewards/src/error.rs", "programs/rewards/src/instructions/", "programs/rewards/src/asserts.rs", "programs/rewards/src/utils.rs: AccountLoader"]}
{"id": "C51", "title": "Requests built by the clients carry the documented accounts and exactly the flags needed", "statement": "Each builder of the crate asks for the instruction it is named after with the arguments it is given, puts every account where the documentation has it (without the mint documented for ExtendStake), marks as signers exactly the accounts that must sign, and marks as writable exactly the accounts that may change (plus the pool in InitializeMining and DecreaseRewards, which is spare). The generated Rust builder and the generated JavaScript function both produce the documented account table (the account attributes, equal to the IDL), filling in the rent sysvar, the token program and the system program (and, in JavaScript, the payer) when left out; the Rust builder refuses when another account is missing, the JavaScript function silently puts the program's own address, read-only and unsigned, in its place. For every instruction except DepositMining, WithdrawMining, ExtendStake and CloseMining, a request made from the documented table succeeds whenever any request naming the same accounts does.", "quantifier": "all account assignments, arguments, remaining accounts, times and ledgers", "why_tests_cant": "A test uses a few addresses; whether a flag is missing or spare only shows for particular combinations of equal and different accounts, and a client test cannot range over all ledgers.", "anchors": ["programs/rewards/src/instruction.rs:17-170", "programs/rewards/src/instruction.rs:173-508", "idls/mplx_rewards.json", "clients/rust/src/generated/instructions", "clients/js/src/generated/shared/index.ts:88-115", "clients/js/src/generated/instructions"]}
{"id": "C52", "title": "The clients read, search and name things as the program does", "statement": "From any account data from which the program reads a mining or a pool, the generated clients read the same fields; they read something from any data of at least 144 (176) bytes, without looking at the account type. A search by a registered field (getProgramAccounts with the generated offsets) finds exactly the accounts whose field, as read, has that value; but a search for minings by owner also finds every pool whose distribute authority has that address, and the size helpers (144 and 176) give what the readers need but the size of no account the program accepts. The error tables of the program, the IDL and both clients agree in codes, names and messages. Every error code the program returns has an entry in the clients' error tables, names and codes are one to one, and messages are too, except that codes 4 and 5 share one message.", "quantifier": "all byte strings, all field values in range, all ledgers reached", "why_tests_cant": "Tests decode a few sample accounts; they cannot show that no account is misread or missed by a filter, nor that no other code is ever returned.", "anchors": ["clients/rust/src/generated/accounts/mining.rs:14-57", "clients/rust/src/generated/accounts/reward_pool.rs:14-62", "clients/js/src/generated/accounts/mining.ts:34-170", "clients/js/src/generated/accounts/rewardPool.ts:34-175", "clients/js/src/generated/errors/mplxRewards.ts:15-282", "programs/rewards/src/error.rs:13-94"]}
{"id": "C53", "title": "Every stored date is the start of a UTC day", "statement": "After every history, a pool's end of distribution, the expiry dates in the schedules of pools and minings, and the dates of the index history are whole multiples of 86400 seconds; the dates of the index history are not in the future.", "quantifier": "every history, at any times of day", "why_tests_cant": "all histories and times of day", "anchors": ["programs/rewards/src/state/reward_pool.rs: fill/distribute", "programs/rewards/src/utils.rs: LockupPeriod::end_timestamp"]}
{"id": "C54", "title": "A staker can take everything and go", "statement": "In a pool whose history kept the stated rules, a staker to whom nobody delegates can at any time claim, withdraw any unlocked amount and close the mining, one after the other: all three succeed, the staker's token account gets exactly the tokens due, the chosen account gets the mining's lamports, the mining account is empty, and the pool's weighted stake falls by exactly the amount withdrawn (and the delegated part). Once every bonus has expired the unlocked amount is the staker's whole weighted stake.", "quantifier": "every pool with an orderly history, every time, every unlocked amount, with or without a delegate", "why_tests_cant": "all histories and times", "anchors": ["programs/rewards/src/instructions/claim.rs", "programs/rewards/src/instructions/withdraw_mining.rs", "programs/rewards/src/instructions/close_mining.rs"]}
{"id": "C55", "title": "The order of unrelated calls at the same time does not matter", "statement": "Take two successful calls at the same time that may change no account in common except a pool both are about, where neither sets that pool up nor hands out its rewards, and the pool's schedule has room for two more dates. Whichever goes first, each returns the same amount and every account ends up the same. The same holds for two claims on different minings, which share the vault. It fails if the calls name the same delegate (the delegate earns on a deposit for days before it was made, so the order of two deposits changes the delegate's reward) and if the pool's schedule is full.", "quantifier": "every reachable ledger, time, pair of instructions with any accounts and arguments", "why_tests_cant": "all pairs of instructions and states", "anchors": ["programs/rewards/src/state/reward_pool.rs", "programs/rewards/src/instructions/claim.rs", "programs/rewards/src/instructions/deposit_mining.rs"]}
{"id": "C56", "title": "Every staker gets the share their stake calls for", "statement": "Split every distribution between the stakers in proportion to their weighted stakes on that day. In a pool whose history kept the stated rules, what a staker has been paid together with what a claim pays now never exceeds the sum of these shares, and falls short of it by less than a token for each of the staker's own calls and expired bonuses, plus 10^-16 token per unit of stake per distribution. A staker who has closed the mining was paid all of it. What other stakers do, and when, costs a staker nothing; whoever never has less at stake than another gets no less, up to that rounding. Each rule is needed: a delegation to a staker with days not yet counted, an extension before the end, a full schedule, a stake or exit in the first second of a day, a withdrawal of locked stake or a full history of distributions give some staker more or less.", "quantifier": "every history of a pool (and of a whole ledger) that keeps the rules, every staker, every time", "why_tests_cant": "sums over arbitrarily long histories; rounding accumulates", "anchors": ["programs/rewards/src/state/mining.rs", "programs/rewards/src/state/reward_pool.rs", "programs/rewards/src/instructions/claim.rs", "programs/rewards/src/instructions/distribute_rewards.rs"]}
{"id": "C57", "title": "Nothing is taken or changed without the right signature", "statement": "A token balance falls only in a FillVault or Claim signed by the balance's owner. Lamports leave an account only if it signed, or if it is a mining closed with the signatures of its owner and a deposit authority. As long as the owner of a mining signs nothing, the mining stays and its accounted rewards never fall, whatever anybody else does. As long as the deposit authority of its pool signs nothing, a mining does not change at all, unless it is named as the old delegate of a ChangeDelegate or as the mining of a CloseMining, where the program does not check the pool; without this exception it is false. Only the deposit authority moves a pool's stake on any day to come; only the distribution authority moves the reward index or lowers what is left to distribute; only the fill authority raises it or moves the end date; with all three silent the pool does not change.", "quantifier": "every history of a ledger from genesis, with arbitrary other transactions in between; every account, pool, mining, day", "why_tests_cant": "a test tries one missing signature in one state; this excludes every sequence of calls by everybody else", "anchors": ["programs/rewards/src/instructions", "programs/rewards/src/asserts.rs", "programs/rewards/src/state/mining.rs", "programs/rewards/src/state/reward_pool.rs"]}
{"id": "C58", "title": "Raw transactions do nothing that the histories do not", "statement": "Take the chain as it is: transactions made of any number of calls of the program, each with arbitrary accounts and arbitrary data bytes, with anything else in between, where a transaction takes effect entirely or not at all. The ledgers such chains reach are exactly those of the histories of well-formed instructions, and every chain is a history of instructions found in its transactions; so everything proved of histories holds of chains. A transaction with one failing call, or with data that encodes no instruction, changes nothing. Signatures count per transaction: a staker who signs no transaction loses no accounted rewards, and a pool whose authorities sign none does not change.", "quantifier": "every chain of transactions from genesis, any number of calls each, any data", "why_tests_cant": "arbitrary bytes and arbitrary composition of calls", "anchors": ["programs/rewards/src/entrypoint.rs", "programs/rewards/src/instructions/mod.rs", "programs/rewards/src/instruction.rs"]}
{"id": "C59", "title": "On an orderly pool only the caller can make a call fail", "statement": "On a pool with an orderly, disciplined history, an instruction that addresses the pool and its own minings succeeds exactly when a short list of conditions holds, none of which depends on the pool's internal bookkeeping: the right accounts and signatures; a withdrawn, slashed or extended amount the staker's up-to-date weighted stake covers; a delegate who has the delegated amount; the recorded bonus for a dated slash or an early extension; room in 64 bits for the new totals; for a claim, a destination of the right mint with room; for a close, no delegated stake and nothing to claim; for a distribution, a positive total share or an entry for the day. In particular bringing schedules up to date never fails, the pool's total always covers what is taken from it, and the vault always covers a claim. Where the total share is exact, every bonus a mining has recorded is recorded in the pool too. After an undisciplined withdrawal these conditions do not suffice.", "quantifier": "every orderly disciplined ledger, every later time, every instruction with any accounts and in-range arguments addressing the pool", "why_tests_cant": "an equivalence over all reachable pools and all arguments", "anchors": ["programs/rewards/src/state/reward_pool.rs", "programs/rewards/src/state/mining.rs", "programs/rewards/src/instructions"]}
{"id": "C60", "title": "What a staker can claim falls only by a claim, a close, a penalty or a leaving delegator", "statement": "At any time, the tokens a mining stands for (what it would hold once brought up to date, which is exactly what a claim would pay) are not lowered by any successful instruction, except a claim of that mining, its closing, a decrease of its rewards, or a withdrawal, extension or change of delegate by somebody else that names it as the delegate being left. Deposits, withdrawals, slashes and extensions of the mining itself, and everything done by others, leave the amount exactly unchanged; only distributions and newly delegated stake raise it. Waiting never lowers it. A claim pays exactly this amount and leaves zero. In orderly disciplined histories the amount is always defined and never falls over any history sparing the mining. The exceptions are real: in an orderly history a leaving delegator and a penalty each take tokens already earned, without the owner's signature.", "quantifier": "every reachable ledger, every time, every successful instruction with any accounts; every orderly disciplined history", "why_tests_cant": "a comparison of two hypothetical amounts around every instruction on every reachable state", "anchors": ["programs/rewards/src/state/mining.rs", "programs/rewards/src/state/reward_pool.rs", "programs/rewards/src/instructions/claim.rs", "programs/rewards/src/instructions/withdraw_mining.rs", "programs/rewards/src/instructions/penalties"]}
{"id": "C61", "title": "Splitting a call in two changes nothing while delegates are up to date", "statement": "Filling the vault (with one end date), depositing, withdrawing, changing the delegate, slashing and decreasing rewards can be asked for in two parts or at once: if the two parts succeed one after the other, the single call with the summed amounts succeeds and reaches exactly the same ledger; and if the single call succeeds, so do the two parts, reaching the same ledger. This needs every delegate named by the call to have seen all distributions and expiries, the source of a fill not to be the vault itself, a change of delegate not to move more than the pool's total (for joining), own and delegated-in stake of the minings involved to fit in 64 bits together and each dated slash not to take more native than weighted stake (for splitting). Without the conditions it fails: a delegate who missed distributions gets less reward from a deposit made in two parts; a vault filled from itself accepts two parts but not the whole; stake taken from a mining of another pool can be moved in parts but not at once.", "quantifier": "every reachable ledger, every time, every pair of in-range amounts and every account list", "why_tests_cant": "two executions are compared over all states and all ways of splitting", "anchors": ["programs/rewards/src/state/reward_pool.rs", "programs/rewards/src/state/mining.rs", "programs/rewards/src/instructions/deposit_mining.rs", "programs/rewards/src/instructions/withdraw_mining.rs", "programs/rewards/src/instructions/change_delegate.rs", "programs/rewards/src/instructions/fill_vault.rs", "programs/rewards/src/instructions/penalties"]}
{"id": "C62", "title": "A pool in place of a mining", "statement": "Claim, CloseMining and ChangeDelegate (for the old delegate) accept a pool account where a mining is expected, because minings are read from the first 1776 bytes of any account of the program and neither type nor address is checked there. Every call that gives no such account behaves exactly as the other properties say. A call that does succeeds only if the pool's total share is within 50 above a multiple of 2^32, another pool is passed whose deposit authority signs and whose visible index is at least the number in the low half of the victim's reward mint, and for Claim the victim's deposit authority is that other pool and its distribute authority signs, for CloseMining its distribute authority signs, its index is a multiple of 2^64 and the last eight bytes of its mint are zero, for ChangeDelegate the amount is at most the low half of its index. It then lowers the victim's index by exactly that amount and replaces part of its reward mint, or on CloseMining erases the pool; authorities and index history stay, and no third pool changes. Rewards of a pool are never claimed through another pool unless the claimed pool's own address was made a deposit authority. Such calls, like all others, need the deposit authority's signature, change only accounts named as writable, keep all lengths, and conserve lamports and tokens; an account of the program that is neither pool nor mining can be claimed or closed only with the signature of key zero and nothing can be taken from it. Refuted: strangers cannot do this to a pool in use (somebody who stakes so that the total becomes 2^32 can set its index back to zero, after which stakers cannot claim), the reward mint never changes, a pool is never closed.", "quantifier": "all ledgers, account lists, times and amounts; every content of the parts of the account the model leaves open; all histories including such calls", "why_tests_cant": "tests pass the right kind of account in every position; the confusion shows only for a pool given as a mining with a suitable total share", "anchors": ["programs/rewards/src/state/mining.rs: WrappedMining::from_bytes_mut", "programs/rewards/src/instructions/claim.rs", "programs/rewards/src/instructions/close_mining.rs", "programs/rewards/src/instructions/change_delegate.rs", "programs/rewards/src/state/reward_pool.rs: change_delegate"]}
{"id": "C63", "title": "Calls taken back at once", "statement": "A deposit without lock followed in the same second by a withdrawal of the same amount (or the other way round), and a change of delegate followed by the change back, leave every stake, the pool's total and all schedules as before, apart from expiries that fell due and the staker's own tokens being counted up to date. The delegate's stakes also stay, but its tokens are counted as if the amount had been delegated to it (or taken from it) all the time since it was last up to date: the difference is the amount times the index it missed, divided by 10^16, up to one unit per schedule segment. A delegate that is up to date is left exactly as it was. Refuted: stake that is there for an instant earns nothing for anybody; depositing and withdrawing at once through a delegate that is not up to date lets that delegate claim nearly the whole vault, and the stakers' claims then fail.", "quantifier": "all reached ledgers, times, amounts, stakers and delegates; both calls at the same time on the same accounts", "why_tests_cant": "the tests withdraw on later days and look at stakes, not at what a delegate that missed distributions can claim", "anchors": ["programs/rewards/src/state/reward_pool.rs: deposit", "programs/rewards/src/state/reward_pool.rs: withdraw", "programs/rewards/src/state/reward_pool.rs: change_delegate", "programs/rewards/src/state/mining.rs: refresh_rewards"]}
{"id": "C64", "title": "Only differences between dates matter", "statement": "Take the accounts the program can ever produce and add the same whole number of days to every date stored in them. The same instruction made as many days later, with as many days added to the dates in its arguments, then gives the same error, or the same returned number and the same accounts with the days added. So a whole history made later gives the same stakes, rewards, balances and payments. Refuted: the same for part of a day (a second distribution on one day pays nothing, unless midnight lies between).", "quantifier": "all whole numbers of days, all reached ledgers, all instructions, account lists and times from 2 January 1970 on, as long as dates stay within 64 bits; all histories", "why_tests_cant": "tests run at a handful of clock values; code that depended on the weekday, the year or the epoch would pass them", "anchors": ["programs/rewards/src/state/reward_pool.rs", "programs/rewards/src/state/mining.rs", "programs/rewards/src/utils.rs: SafeArithmeticOperations", "programs/rewards/src/utils.rs: get_curr_unix_ts"]}
{"id": "C65", "title": "No key is special", "statement": "Replace every key in the accounts, in the account list and in the arguments by another, different keys by different ones, and let addresses be derived for the new keys as they were for the old ones; only the system program keeps its key. The same instruction then gives the same error, or the same returned number and the same accounts with the keys replaced. So does a whole history. No pool, mint, authority, staker or delegate is treated in any way that depends on who it is.", "quantifier": "all renamings of keys, all ledgers whatsoever, all instructions, account lists and times; all histories", "why_tests_cant": "tests use a few random keys; a backdoor for one key would not be met", "anchors": ["programs/rewards/src/instructions/mod.rs", "programs/rewards/src/asserts.rs", "programs/rewards/src/utils.rs"]}
{"id": "C66", "title": "Damage done through a wrong account stays where it was done", "statement": "Some instructions accept a longer account of the program where a mining is expected, and can damage a pool that way. Follow a history in which this happens, and mark the program's accounts changed by such a call, or by a later call that names a marked account. Every account never marked is exactly what it is in a history with no such call at all, in which those calls count as calls of other programs; so everything else stated about pools and minings holds for it. A call that names no marked account gives the same error, or the same answer, and changes its accounts in the same way as there. What a call does depends only on the accounts it names. An initialised pool is changed only by a call that gives it in place of a mining, or that names it as its pool and is signed by the authority the instruction needs.", "quantifier": "all histories with such calls, whatever bytes are found; all calls after them", "why_tests_cant": "tests start from clean accounts and never follow a chain on which some other pool was damaged", "anchors": ["programs/rewards/src/instructions/mod.rs", "programs/rewards/src/instructions/claim.rs", "programs/rewards/src/instructions/close_mining.rs", "programs/rewards/src/instructions/change_delegate.rs"]}
{"id": "C67", "title": "A deposit delegated to a second mining counts once more", "statement": "Compare one deposit of an amount made without a delegate and made with another mining as delegate, from the same state and at the same time. Delegated, the amount counts once more in the delegate's weighted stake and in the pool's total on every later day, and nothing else differs; no deposited token ever counts more than seven times, or less than once. After any number of distributions, no mining but the delegate can claim more than without the delegation. As long as stakes are counted correctly, the staker's mining and the delegate together have at least the same part of each day's weight, and a larger one when anybody else has stake that day. So somebody with two wallets earns more, at everybody else's expense, by naming the second as delegate.", "quantifier": "all reached states, all deposits, all numbers of later distributions", "why_tests_cant": "tests check balances of one history; they do not compare two histories that differ in the delegate", "anchors": ["programs/rewards/src/state/reward_pool.rs", "programs/rewards/src/instructions/deposit_mining.rs", "programs/rewards/src/state/mining.rs"]}
{"id": "C68", "title": "The whole effect of every instruction", "statement": "For every instruction, every list of accounts and flags, every time and every state a history can lead to: the instruction succeeds with given contents of all accounts and a given answer exactly when (1) the listed conditions for it hold, (2) the contents and the answer are the ones described, account by account - the listed accounts get the described data, lamports and owner and every other account stays as it was - and (3) every account it changes, or passes to the token or system program to change, is given as writable. The description fixes the result: no two different results fit it. The states that can be reached with calls described this way are exactly those that can be reached with the program.", "quantifier": "every instruction, argument in range, account list, flags, time, and reachable state; result, answer and every account of the ledger", "why_tests_cant": "Tests look at a few fields of a few accounts after a call and cannot see that nothing else in any account changed, nor that the conditions and effects written down leave nothing open.", "anchors": ["programs/rewards/src/instruction.rs:13-169", "programs/rewards/src/instructions/initialize_pool.rs:13-75", "programs/rewards/src/instructions/change_delegate.rs:12-60", "programs/rewards/src/state/reward_pool.rs:134-503", "programs/rewards/src/state/mining.rs:28-172"]}
{"id": "C69", "title": "Frozen token accounts, allowances, wrapped SOL and multisig authorities", "statement": "With the token program as it is - token accounts may be frozen, may have a delegate with an allowance, may hold wrapped SOL, and an authority may be a multisig account - a fill or claim moves tokens exactly when it would on plain token accounts with the source in the signer's name and the token program agrees: neither account is frozen; the signer is the source's delegate with a sufficient allowance or else its owner; the signer is not a multisig account; wrapped lamports are there and fit. It then does the same to pool and mining, moves the amount between the two token accounts and keeps their owners, moves as many lamports for wrapped SOL, and uses up the allowance. Calls that move nothing, among them claims of nothing, are not affected. With ordinary token accounts nothing differs, errors included. Every history is one in which the same calls are made and the rest counts as outside changes, so what is stated about reachable states holds for these too; and an orderly pool whose vault the token program lets move pays every claim. Left out of the history statements: a claim naming the vault itself as destination after the deposit authority gave the vault away and kept only an allowance.", "quantifier": "all instructions, account lists, ledgers and token account fields; all histories with arbitrary changes of those fields from outside", "why_tests_cant": "tests use one fresh mint and plain token accounts; none freezes an account, approves a delegate or wraps SOL", "anchors": ["programs/rewards/src/utils.rs:74-107", "programs/rewards/src/instructions/fill_vault.rs", "programs/rewards/src/instructions/claim.rs", "programs/rewards/src/instructions/initialize_pool.rs"]}
{"id": "C70", "title": "A stake held only for the moment of a distribution takes a full day's part", "statement": "On an orderly pool whose history is not full and which has not distributed today: whoever deposits an amount without a lock just before the distribution call, claims just after it and withdraws the amount again, all in the same second (not the first of a day), is served by every call, ends with the stake and pool total from before, and is paid, besides what was due anyway, the day's tokens times (the effective stake plus the amount) over (the pool's total plus the amount), rounded down by less than 2 tokens plus one per 10^16 of stake. How long a stake was there before the distribution does not enter: rewards are not weighted by time.", "quantifier": "all orderly pools, stakers, amounts and times of the two calls", "why_tests_cant": "a test can show one such sequence; that the later two calls always succeed and the exact payment for every amount and pool needs a proof", "anchors": ["programs/rewards/src/state/reward_pool.rs:113-220", "programs/rewards/src/state/mining.rs:175-233", "programs/rewards/src/instructions/deposit_mining.rs", "programs/rewards/src/instructions/distribute_rewards.rs", "programs/rewards/src/instructions/claim.rs", "programs/rewards/src/instructions/withdraw_mining.rs"]}
{"id": "C71", "title": "Open minings keep the rent they were opened with", "statement": "In every reachable state an initialised mining account holds at least the rent-exempt minimum for its size, no sequence of instructions and outside changes without its closing lowers its lamports, and closing it gives the target at least that minimum and leaves the account with none.", "quantifier": "all reachable states and histories", "why_tests_cant": "tests check the lamports of one account after one closing", "anchors": ["programs/rewards/src/instructions/initialize_mining.rs:33-41", "programs/rewards/src/instructions/close_mining.rs:47-52"]}
{"id": "C72", "title": "Account loaders and assertion helpers agree", "statement": "Each checked account loader is the unchecked loader followed by the assertion of the same condition, with the same error; has_more says exactly whether the unchecked loader succeeds; each assertion succeeds exactly when its condition holds and otherwise returns its one error; the rent assertion holds for every open mining in every reachable state.", "quantifier": "all ledgers, account lists, keys and lengths", "why_tests_cant": "the helpers are not called by any instruction and have no tests", "anchors": ["programs/rewards/src/asserts.rs:13-99", "programs/rewards/src/utils.rs:149-229"]}
{"id": "C73", "title": "Naming a delegate leaves the staker's own account as it would be without", "statement": "Of two otherwise equal deposit_mining, withdraw_mining or extend_stake calls that both succeed in the same state, about the same pool and mining, but with different delegates, the staker's mining account comes out byte for byte the same. The pool account differs at most in its total, and there exactly by the amount handed to the delegate when one of the two delegates is the staker's own mining; its schedule is the same. Apart from the two delegates no other account differs.", "quantifier": "all reachable states, times, amounts, periods, account lists, pairs of delegates", "why_tests_cant": "tests run one delegate per scenario and never compare two outcomes of the same state", "anchors": ["programs/rewards/src/instructions/deposit_mining.rs:11-43", "programs/rewards/src/instructions/withdraw_mining.rs:11-44", "programs/rewards/src/instructions/extend_stake.rs:11-56", "programs/rewards/src/state/reward_pool.rs:201-295", "programs/rewards/src/state/reward_pool.rs:331-421"]}
{"id": "C74", "title": "Extending never lowers the stake that goes on", "statement": "After a successful extend_stake of a stake that has expired, or that started in the past and is extended to a period of at least the same multiplier, the weighted stake of the mining is, on every day from the present one on, at least what it would have been without the call plus the added amount; its tokens are what they would have been, and whatever the pool distributes later, it earns at least as much from it. Both conditions are needed: extending an unexpired stake to a lighter period, or naming a start in the future, can lower it.", "quantifier": "all reachable states, times, amounts, periods, starts, account lists, later histories", "why_tests_cant": "needs comparing with the course of events without the call, on every later day and for every later history", "anchors": ["programs/rewards/src/instructions/extend_stake.rs:11-56", "programs/rewards/src/state/reward_pool.rs:331-421", "programs/rewards/src/state/mining.rs:56-79"]}
{"id": "C75", "title": "Extending an expired stake is withdrawing it and depositing it again", "statement": "For a stake that has expired, extend_stake(base, additional) and withdraw_mining(base) followed by deposit_mining(base + additional) with the new period at the same second, when they succeed, leave the staker's mining and the delegate's mining the same byte for byte and all other accounts but the pool the same. The pool differs only in that the withdrawal has already taken expired stake off its total and dropped expired dates, unless the new date does not fit in the pool's full schedule.", "quantifier": "all reachable states, times, amounts, periods, starts, account lists", "why_tests_cant": "needs comparing two different sequences of calls from the same state", "anchors": ["programs/rewards/src/instructions/extend_stake.rs:11-56", "programs/rewards/src/state/reward_pool.rs:201-295", "programs/rewards/src/state/reward_pool.rs:331-421"]}
{"id": "C76", "title": "The deposit authority can keep a pool solvent from its own records of the calls", "statement": "Suppose whoever sends a pool's instructions writes down, per mining, the tokens put in and not taken out again, the expiry dates asked for, and whether the mining has taken part in a call since the last distribution; and suppose each call for the pool is checked against these records only: no more is withdrawn, slashed or extended than is on record, a new delegate has taken part in a call since the last distribution, only expired or flexible stakes are extended, fewer than 50 other dates are to come, the vault is not filled from itself, and no stake is opened, extended or re-delegated in the first second of a UTC day. Then, in an otherwise orderly history (the vault and the derived addresses are not tampered with from outside), the records are right: at least the stake on record is free to be withdrawn and the withdrawal succeeds at any time, every scheduled date is on record, and a mining on record as up to date is. And the vault covers the sum of all claims.", "quantifier": "all histories of instructions by anyone and of other programs, all pools, times and amounts", "why_tests_cant": "the statement is about every history of calls; tests play single histories and read the accounts", "anchors": ["programs/rewards/src/state/mining.rs:37-79", "programs/rewards/src/state/reward_pool.rs:150-421", "programs/rewards/src/utils.rs:109-158", "programs/rewards/src/instructions/deposit_mining.rs:1-43"]}
{"id": "C77", "title": "The distance between a pool's total share and its stakers is exactly accounted for", "statement": "For a pool and a day, call the gap the pool's total share on that day (after everything due has expired) less what all minings of the pool count for on it. Right after the pool is initialised the gap is minus what its minings already count for (zero if there are none with stake). From then on, in every history of instructions by anyone and of outside changes, the gap changes exactly by the sum of the following and by nothing else: a deposit or extension whose date finds no place in a full schedule, by the dropped amount (the pool's lost drop adds, the mining's lost drop subtracts); an extension of an unexpired stake, by minus base*(multiplier-1) from the old expiry day on; a decrease of rewards by n, by what the mining loses (n less what its schedule loses until the day); a closed mining, by what it still counts for; and a stake delegated to, or taken from, a mining of another pool or to none, by that stake. A delegate checked against the wallet and the pool that is an initialised mining adds nothing. Each distribution that takes effect promises the minings exactly the tokens taken from the reserve, less the index increment times the gap and less a remainder smaller than the total share: a negative gap promises more than there is, by exactly the increment times the gap.", "quantifier": "all histories, pools, days from the last event on, accounts, amounts and times", "why_tests_cant": "the accounting is about sums over all minings of a pool in every history; a test reads single accounts after single histories", "anchors": ["programs/rewards/src/state/reward_pool.rs:134-421", "programs/rewards/src/state/mining.rs:37-160", "programs/rewards/src/instructions/close_mining.rs:13-55", "programs/rewards/src/instructions/penalties/decrease_rewards.rs:1-32", "programs/rewards/src/instructions/change_delegate.rs:13-60"]}
{"id": "C78", "title": "A stranger can freeze any mining, and an expiry that passes meanwhile freezes it for good", "statement": "A mining whose index is beyond its pool's index is refused by every instruction that names that pool and would bring the mining up to date (deposit, withdraw, extend, claim, slash, close, change of delegate, also as a delegate), and stays unchanged, but for DecreaseRewards, through any history until the pool's index reaches the mining's, unless it is named again as an old delegate or as the mining to close. If one of its expiry dates passes meanwhile, nothing under its pool ever works on it again, however much the pool distributes. A ChangeDelegate of zero tokens in a stranger's own pool, signed only by that pool's deposit authority and the owner of one of its minings, succeeds with any other mining as the old delegate exactly when both minings can be brought up to date with the stranger's history, and then leaves it with that history's index: beyond its own pool whenever that history is. Anybody can bring that about from any state of the chain: with a wallet that pays two rents, a zeroed pool account, and X tokens of any mint, six calls at any moment but the first of a day all succeed and leave any chosen mining that has no expiry to work off, and whose figures fit, with the index X * 10^16, beyond every pool whose index is below that.", "quantifier": "all reachable ledgers, pools, minings, instructions, account lists, times and histories of instructions and outside changes", "why_tests_cant": "The tests never name a mining of another pool as the old delegate, and that nothing ever works again is a statement about all later calls.", "anchors": ["programs/rewards/src/instructions/change_delegate.rs", "programs/rewards/src/state/mining.rs", "programs/rewards/src/state/reward_pool.rs"]}
{"id": "C79", "title": "No mining takes more than its largest stake times the index, whatever anybody does", "statement": "As long as a mining is open, what is paid for it in claims together with the change of what is kept for it is at most (s + d) times the rise of its index divided by 10^16, if its weighted stake never exceeds s and the stake delegated to it never exceeds d. This holds in every history of instructions by anyone and of outside changes, without any rule being kept, calls through foreign pools included. At each claim, all tokens paid for the mining since it was created, this claim included, are at most (s + d) times the pool's index divided by 10^16. The bound is reached: with the history of another pool that had reached its index before the mining's bonuses expired, a ChangeDelegate in that pool followed by a claim pays the full weight, expired bonuses included, for everything up to that index.", "quantifier": "all reachable ledgers, minings, bounds s and d, and histories in which the mining stays open", "why_tests_cant": "The bound has to hold for every sequence of calls, including ones that break the rules of the staking program; tests run a few sequences that keep them.", "anchors": ["programs/rewards/src/state/mining.rs", "programs/rewards/src/state/reward_pool.rs", "programs/rewards/src/instructions/claim.rs", "programs/rewards/src/instructions/change_delegate.rs"]}
{"id": "C80", "title": "A stake of one second collects the pool's whole past", "statement": "From any state of the chain: a staker whose mining can be brought up to date, together with a wallet that has no mining in the pool yet, makes four calls in one second, all of which succeed: open the wallet's mining, deposit an amount without a lock and delegate it to the new mining, withdraw it again, and claim for the new mining. The vault pays the amount times the pool's index divided by 10^16 - all that this stake would have earned since the pool's first distribution - to the wallet, and every stake, the pool's total and all schedules are as if only due expiries had been applied. The amount can be chosen so that the vault keeps no more than one token plus what a single unit of stake has earned in the pool's life. The same stake can be used again in the same second with any number of further wallets, each of which gets as much, while no other token account changes. The staking authority signs the deposit, the withdrawal and the claim, each of them an ordinary request of a user; nobody's consent beyond that is needed. (Finding: Mining::initialize starts the index at 0, and a delegate is refreshed after its stake is raised.)", "quantifier": "all reachable ledgers, pools, stakers, wallets without a mining, and amounts that the counters and the vault can hold", "why_tests_cant": "The four calls have to succeed and pay in every state of the chain; tests run a few fixed sequences on a few fixed states.", "anchors": ["programs/rewards/src/state/mining.rs", "programs/rewards/src/state/reward_pool.rs", "programs/rewards/src/instructions/deposit_mining.rs", "programs/rewards/src/instructions/withdraw_mining.rs", "programs/rewards/src/instructions/claim.rs", "programs/rewards/src/instructions/initialize_mining.rs"]}
{"id": "C81", "title": "Every event's effect on a pool's debt is accounted for", "statement": "Call a pool's debt its undistributed budget plus everything the owners of its minings can still get from the recorded distributions, less the tokens in its vault. After any history of the chain in which no other pool's fill takes tokens out of this pool's vault, no mining of this pool is closed under another pool's name, the old delegate of a ChangeDelegate belongs to the pool named, the pool account has lamports before it is initialised, the system program signs nothing and the vault loses tokens only through the program, the debt equals the sum of the amounts its events added, less roundings. An event adds: a deposit, withdrawal, extension or change of delegate with a delegate, the delegated amount times what the delegate's mining has not yet accounted for; in the second a distribution is dated at, the stake put in or (negatively) taken out or closed times that distribution; a penalty, what it takes back over the days its mining has not accounted for; a distribution, its rate times the difference between the stake the minings count and the stake the pool counts (minus its tokens, when the history is full and the distribution is not recorded); a fill from the vault itself, its amount; a token sent to the vault, minus one token. All else adds nothing. Roundings are at most one token (less 10^-16) per refreshed mining and per expiry it applies, and one unit of 10^-16 token per unit of stake and distribution. So what all stakers could claim, plus the budget, is at most the vault plus that sum, and (when no distribution is dated at that second) at least the vault plus that sum less the roundings.", "quantifier": "all orderly histories of any length, with any instructions for any pools and any events outside the program; no discipline of the stakers or authorities is assumed", "why_tests_cant": "A test sees the effect of a few fixed calls on a few balances; this is an equation over the whole past of a pool, with the exact part of each kind of event.", "anchors": ["programs/rewards/src/state/mining.rs", "programs/rewards/src/state/reward_pool.rs", "programs/rewards/src/instructions/deposit_mining.rs", "programs/rewards/src/instructions/withdraw_mining.rs", "programs/rewards/src/instructions/extend_stake.rs", "programs/rewards/src/instructions/change_delegate.rs", "programs/rewards/src/instructions/penalties/slash.rs", "programs/rewards/src/instructions/penalties/decrease_rewards.rs", "programs/rewards/src/instructions/claim.rs", "programs/rewards/src/instructions/fill_vault.rs", "programs/rewards/src/instructions/distribute_rewards.rs", "programs/rewards/src/instructions/close_mining.rs"]}
{"id": "C82", "title": "Every call's effect on a mining's rewards is accounted for", "statement": "Call a mining's account everything its owner has been paid for it and can still get from the recorded distributions. Through any history of the chain during which the mining is open in its pool, the account grows by exactly the sum of what the calls add to it, less roundings; from its creation on, that sum is all it ever gets. A distribution adds its rate times the stake the mining counts for on that day (only the part of the rate above the mining's index, if a foreign pool has pushed that too high). A deposit, withdrawal, extension, slash naming the mining as the staker's adds the stake put in or (negatively) taken out times the distribution dated at that very second, if there is one, else nothing. One naming it as delegate, or a change of delegate naming it as the old or new one, adds the delegated amount (negatively, if taken away) times what the mining has not yet accounted for. A penalty adds, negatively, what it takes back over the days not accounted for, less the expiries it cancels. A change of delegate for another pool that names the mining as old delegate replaces what its own history gave it by what the other pool's history gives until now, and its own afterwards from the other's index. All other calls, whoever signs them, and all events outside the program add nothing. Roundings are at most one token (less 10^-16) per refresh of the mining and one per expiry it applies. So what was paid plus what a claim now pays is at most the start plus that sum, and (when no distribution is dated at that second) at least that less the roundings.", "quantifier": "all histories of any length from any reachable state, with any instructions for any pools and any events outside the program; no discipline is assumed, and foreign pools' strikes are included", "why_tests_cant": "A test sees a mining's balance after a few fixed calls; this is an equation over the whole life of a mining, with the exact part of each kind of call, including calls for other pools.", "anchors": ["programs/rewards/src/state/mining.rs", "programs/rewards/src/state/reward_pool.rs", "programs/rewards/src/instructions/initialize_mining.rs", "programs/rewards/src/instructions/deposit_mining.rs", "programs/rewards/src/instructions/withdraw_mining.rs", "programs/rewards/src/instructions/extend_stake.rs", "programs/rewards/src/instructions/change_delegate.rs", "programs/rewards/src/instructions/penalties/slash.rs", "programs/rewards/src/instructions/penalties/decrease_rewards.rs", "programs/rewards/src/instructions/claim.rs", "programs/rewards/src/instructions/distribute_rewards.rs"]}
{"id": "C83", "title": "What another pool's change of delegate costs or brings a mining", "statement": "A change of delegate made in one pool may name a mining of another pool as the old delegate; its signers have nothing to do with that mining or its pool. After such a call the mining's rewards since its last refresh are what its stake (less the amount named) on the days on which the other pool's index rose earns up to the other pool's index, plus what its stake of today earns from there up to its own pool's index, less roundings. So, whatever the other pool's history, the mining ends with what it had accounted for plus all the index since its last refresh, times a stake between that of today and the one it had before any expiry since its last refresh (both less the amount named), less roundings; bonuses that expired may be erased from days on which they earned, or granted for days on which they had expired. If the other pool's index rose only on days with today's stake, and not above the mining's own pool's, then exactly what the expired bonuses (and the amount named) earned since the last refresh is lost, up to roundings. If it rose only on days before any of those expiries, and at least to the own pool's index, then expired bonuses count for all that was distributed since the last refresh, and the largest stake for index never distributed at all. Any stranger can bring the loss on any mining that was not refreshed since before its pool's first distribution, from any state of the chain and whatever the pool's authorities do, in three calls that all succeed (create a pool, create a mining in it, change its delegate), for two rents and without owning a token.", "quantifier": "all states reachable by any history, all pools, minings, amounts and times; the last part for every stranger with a zeroed pool account and two rents", "why_tests_cant": "A test shows one loss in one scenario; this gives the exact range of the harm for every state, and shows that a stranger can always bring about the lower end.", "anchors": ["programs/rewards/src/instructions/change_delegate.rs", "programs/rewards/src/state/mining.rs", "programs/rewards/src/state/reward_pool.rs", "programs/rewards/src/instructions/initialize_pool.rs", "programs/rewards/src/instructions/initialize_mining.rs"]}
{"id": "C84", "title": "A mining's contents and payments depend only on its diary", "statement": "The diary of a mining lists, for every successful call that works on it, the time, the instruction with its amounts and lockups, at which places of the call the mining stands, and the distributions recorded so far in the pool that the call names. Take two histories of the chain, with any calls by anybody and any transfers in between, and a mining in each, of any owners and any pools. If both minings begin with the same index, stakes, unclaimed rewards and schedule, and their diaries are the same, then they end with the same index, stakes, unclaimed rewards and schedule, and exactly the same amount has been paid for both. In particular nobody's mining is treated better or worse because of its address, its owner, who signed, who sponsored, who else stakes or delegates, what other pools do, or how the stakes of others are spread; other people reach a mining only through calls that name it and through the recorded distributions. A mining that begins with the same data in both ends with the same data.", "quantifier": "all pairs of histories (also in different environments), all minings, from any reachable states, with any number of calls", "why_tests_cant": "A test compares at most two given runs; this compares all pairs of histories of any length.", "anchors": ["programs/rewards/src/state/mining.rs", "programs/rewards/src/state/reward_pool.rs", "programs/rewards/src/instructions/deposit_mining.rs", "programs/rewards/src/instructions/withdraw_mining.rs", "programs/rewards/src/instructions/extend_stake.rs", "programs/rewards/src/instructions/change_delegate.rs", "programs/rewards/src/instructions/claim.rs", "programs/rewards/src/instructions/penalties/slash.rs", "programs/rewards/src/instructions/penalties/decrease_rewards.rs"]}
{"id": "C85", "title": "A pool and its minings can be worked out from the log of its calls", "statement": "The log of a pool lists, for every successful call that names the pool and changes it, the time, the instruction with its amounts, lockups and dates, and whether delegates take part; it contains nothing that is stored on the chain. Take two histories of the chain, with any calls by anybody and any transfers in between, and a pool in each, with any authorities. If both pools begin with the same index, total stake, budget, end of distribution, schedule and recorded distributions, and their logs are the same, they end with the same. If the log moreover tells at which places of each call a given mining stands (and includes the claims and penalties of this mining), and no other pool's call works on the mining, then the mining's index, stakes, schedule and unclaimed rewards also end the same, and the same amount has been paid for it. So whoever reads the calls of a pool can work out the pool and all its minings without reading accounts; and what other pools do, the balances of vaults and wallets, and who takes part make no difference to the amounts.", "quantifier": "all pairs of histories (also in different environments), all pools and minings, from any reachable states, with any number of calls", "why_tests_cant": "A test compares at most two given runs; this compares all pairs of histories of any length.", "anchors": ["programs/rewards/src/state/reward_pool.rs", "programs/rewards/src/state/mining.rs", "programs/rewards/src/instructions/deposit_mining.rs", "programs/rewards/src/instructions/withdraw_mining.rs", "programs/rewards/src/instructions/extend_stake.rs", "programs/rewards/src/instructions/change_delegate.rs", "programs/rewards/src/instructions/distribute_rewards.rs", "programs/rewards/src/instructions/fill_vault.rs", "programs/rewards/src/instructions/penalties/slash.rs"]}
{"id": "C86", "title": "More stake, or less stake of others, never earns less", "statement": "Take two histories and a mining in each. The calls that work on the mining come at the same times and are of the same kind, with the same lockups and dates; in the first history each brings no less stake (deposits, extensions, delegations) and takes no more (withdrawals, slashings, penalties). The distributions are on the same days. The minings begin with the same index, and the first with no less stake at every date and no less to claim. (1) If every distribution raises the index of the first pool by no less than that of the second, then what has been paid for the first mining plus what it can still claim is no less than for the second, and no less of its stake counts at any date: rounding down, expiries, and the schedule's limited room never turn the order around. (2) If moreover each call of the pool leaves no more stake in the first pool and no smaller budget, by whomever it is made, then every distribution does raise the first pool's index by no less; so stake of others can only dilute, and a larger budget or a larger penalty for others can only help. (3) That others are left as they are is not enough: with everything else equal, a larger stake of one's own can earn less, since the index is rounded down. A single staker with stake 1 gets the one token distributed, with stake 3 gets nothing.", "quantifier": "all pairs of histories (also in different environments), all pools and minings, from any reachable states, with any number of calls, amounts and dates", "why_tests_cant": "A test compares a few given amounts; monotonicity in all of them, over histories of any length and with every rounding, needs a proof.", "anchors": ["programs/rewards/src/state/reward_pool.rs", "programs/rewards/src/state/mining.rs", "programs/rewards/src/state/mod.rs", "programs/rewards/src/instructions/distribute_rewards.rs", "programs/rewards/src/instructions/claim.rs", "programs/rewards/src/instructions/penalties/decrease_rewards.rs"]}
{"id": "C87", "title": "For the same distributions, a longer lockup never earns less, but for rounding", "statement": "Take two histories and a mining in each. The calls that work on the mining come at the same times and are of the same kind; in the first history each deposit and extension brings no less stake, locked for no less time, and each withdrawal, slashing and penalty takes no more. The distributions are on the same days and leave the same index history. The minings begin with the same index, the first with no less stake at every date and no less to claim, and the second mining's schedule has a place for every date that is opened. Then no less of the first mining's stake counts at any date, and what has been paid for it plus what it can still claim is less than for the second by less than one token for every call on the first mining and for every expiry date it has had. Without the allowance for rounding this is false: the parts earned before and after an expiry are rounded down separately, so a lockup of six months can get nothing where one of three months gets a token.", "quantifier": "all pairs of histories (also in different environments), all pools and minings, from any reachable states, with any number of calls, amounts, lockups and dates, as long as the second schedule has room", "why_tests_cant": "The expiry dates of the two histories differ, so the rewards are computed in different segments; a test checks one pair of lockups against one list of distributions, and would not meet the rounding case.", "anchors": ["programs/rewards/src/state/mining.rs", "programs/rewards/src/state/reward_pool.rs", "programs/rewards/src/utils.rs", "programs/rewards/src/instructions/deposit_mining.rs", "programs/rewards/src/instructions/extend_stake.rs"]}
{"id": "C88", "title": "More stake of one's own never costs more than rounding, though it dilutes the pool", "statement": "Take two histories of a pool and a mining of it. The calls come at the same times; those that do not work on the mining are the same, and in the first history each of the staker's own deposits and extensions brings no less stake for the same lockup, and each withdrawal and slashing takes no more (the same where a delegate is involved). None of the staker's own calls is in the first second of a day. The pools begin with the same budget and dates, the first mining with no less stake and no less owed, and the rest of its pool has no more stake; the pool's schedule has a place for every date, and in the second history the mining's stake is never more than the pool's at a distribution (which follows when the history keeps to the discipline of C19). Then no less of the first mining's stake counts at any date, and what it has been paid plus what it is owed is less than in the second history by at most the rounding: less than one token for every call on the mining and every expiry date, and 10^-16 of a token for each unit of its stake at each distribution. The midnight condition is needed: a deposit in the first second of a day takes part in a distribution made before it in that second, at a price per stake that the staker's earlier deposits have lowered, and then 800 more staked before cost 3600 tokens. So is the condition on delegates: stake that is also delegated counts twice in the pool, and a staker with nine tenths of a pool who adds 900 instead of 1 with a delegate gets 523 tokens instead of 901.", "quantifier": "all pairs of histories (also in different environments), all pools and minings, from any reachable states, with any number of calls, amounts, lockups, dates and other stakers", "why_tests_cant": "The staker's own stake enlarges both its part and the pool's total, and every distribution rounds the price per stake; that the gain outweighs the dilution for every interleaving with expiries, extensions and other stakers' calls cannot be tried out call by call.", "anchors": ["programs/rewards/src/state/mining.rs", "programs/rewards/src/state/reward_pool.rs", "programs/rewards/src/utils.rs", "programs/rewards/src/instructions/deposit_mining.rs", "programs/rewards/src/instructions/distribute_rewards.rs"]}
{"id": "C89", "title": "Locking one's own stake for longer never costs more than rounding, though it dilutes the pool", "statement": "Take two histories of a pool and a mining of it. The calls come at the same times; those that do not work on the mining are the same, and in the first history each of the staker's own deposits and extensions brings no less stake, locked for no shorter, and each withdrawal and slashing takes no more (the same amounts where a delegate is involved). None of the staker's own calls is in the first second of a day. The pools begin with the same budget and days of distribution, the first mining with no less stake at any date and no less owed, and the rest of its pool has no more stake; the schedules may begin with different dates. The first pool's schedule and the second mining's have a place for every date, and in the second history the mining's stake is never more than the pool's at a distribution (which follows when the history keeps to the discipline of C19). Then no less of the first mining's stake counts at any date, and what it has been paid plus what it is owed is less than in the second history by at most the rounding: less than one token for every call on the mining and every expiry date, and 10^-16 of a token for each unit of its stake at each distribution. The place is needed: a mining holds 50 dates, and a 51st deposit for three months whose date is not there keeps its bonus for good, while one for six months whose date is there loses it; the shorter lockup then earns 338 tokens and the longer 173.", "quantifier": "all pairs of histories (also in different environments), all pools and minings, from any reachable states, with any number of calls, amounts, lockups, dates and other stakers", "why_tests_cant": "Longer lockups change when the bonus ends both in the mining and in the pool's total, with roundings and the limits of both schedules in between; that the longer one is no worse for every interleaving with distributions, expiries and other stakers' calls cannot be tried out call by call, and the exception needs 51 deposits on different days.", "anchors": ["programs/rewards/src/state/mining.rs", "programs/rewards/src/state/reward_pool.rs", "programs/rewards/src/utils.rs", "programs/rewards/src/instructions/deposit_mining.rs", "programs/rewards/src/instructions/extend_stake.rs", "programs/rewards/src/instructions/distribute_rewards.rs"]}
{"id": "C90", "title": "When and how often a staker claims makes no difference but for rounding", "statement": "Take two histories of a pool and one of its minings that begin with the same pool and mining data. Their calls are the same, at the same times, except that the claims of this mining may come at any times, more often, less often or never. The mining is nobody else's delegate, and decrease_rewards is not called on it. Then at any later time the tokens paid so far together with those that can be claimed are the same in both histories, up to one token for every claim in the history that comes out lower; so who never claims until the end is never worse off, and nobody gains by claiming often. The same holds for the totals paid when both histories end with a claim at the same time. The rounding is real: a small staker who claims every day can get nothing at all where one who waits gets 17 tokens. Both conditions are needed: claiming before a decrease_rewards saves tokens that it would take, and claiming before somebody delegates stake to the mining forgoes what that stake is credited for the past.", "quantifier": "all pairs of reachable histories of any lengths whose logs of the pool and mining are the same but for claims, all times of the final comparison", "why_tests_cant": "The bound is about all pairs of histories that differ in claims at arbitrary times, before and after expiries and distributions; tests try a few fixed schedules of claims.", "anchors": ["programs/rewards/src/state/mining.rs", "programs/rewards/src/instructions/claim.rs", "programs/rewards/src/state/reward_pool.rs"]}
{"id": "C91", "title": "While stakes stand still everybody gets their part of the rewards, on whichever days they are handed out", "statement": "Take a history of a pool and one of its minings in which, as far as this pool and mining are concerned, only fill_vault, distribute_rewards and this mining's claim are called, and no lockup in the pool ends before the time of the comparison. The pool has stake, and its history has room for the distributions. Then at any later time that is not exactly midnight, the tokens paid to the mining so far together with those that can be claimed are its part, in proportion of its weighted stake (own and delegated) to the pool's, of all the tokens handed out in that time, together with what it was owed at the beginning: never more, and less only by the rounding, which is under one token for every claim and the last one, and the stake's part of 10^-16 for every distribution. So two such histories that begin alike and hand out as many tokens in all give the same up to this rounding, on whichever days the distributions are made, daily or once at the end: missed days are made up. Both conditions are needed: when a lockup ends, or somebody else stakes, between two possible days of the distribution, the day decides (248 against 397 tokens, 198 against 397).", "quantifier": "all reachable histories and pairs of histories of any lengths whose entries for the pool and mining are fillings, distributions and claims; all times of the comparison", "why_tests_cant": "The number, days and sizes of the distributions are arbitrary; tests distribute on a few fixed days and compare with numbers computed for them.", "anchors": ["programs/rewards/src/state/reward_pool.rs", "programs/rewards/src/state/mining.rs", "programs/rewards/src/instructions/distribute_rewards.rs", "programs/rewards/src/instructions/claim.rs"]}
{"id": "C92", "title": "Dividing a stake among two accounts never gains anything, and loses no more than rounding", "statement": "Take a history with one staker, and another with two stakers in the place of the one. Every call on the one's mining (deposit, withdraw, extend, change_delegate, slash, or a call of others who delegate to it) is two calls in the other history, one for each of the two, right after each other at the same time, of the same kind, with the same lockup and dates, and with amounts that add up to those of the one call; the two claim whenever the one claims; all other calls on the pool are the same; the histories begin alike. Then the pools stay alike (total stake, schedule, budget, index and history), the two hold together at every date what the one holds, and at any time the tokens that the two were paid and can claim are together never more than what the one was paid and can claim. They are less at most by one token for each call on the mining, each deposit or extension, each date on the schedule at the beginning, and the last claim. The rounding is real: where one small staker who claims daily gets 19 tokens, two who share the same stake get nothing. The claims must be at the same times: two who wait get more than one who claims every day. The two may not delegate to each other (see C67).", "quantifier": "all pairs of reachable histories of any lengths, in the second of which every call on the mining is divided in two; all times of the comparison", "why_tests_cant": "Histories of any lengths, amounts divided in any way; tests do not compare different populations of stakers over whole histories.", "anchors": ["programs/rewards/src/state/mining.rs", "programs/rewards/src/state/reward_pool.rs", "programs/rewards/src/instructions/deposit_mining.rs", "programs/rewards/src/instructions/claim.rs"]}
{"id": "C93", "title": "The unit in which stakes are counted makes no difference but for rounding", "statement": "Take two histories with the same kinds of calls on a pool at the same times, with the same budgets filled in, where in the second every amount of stake (deposits, withdrawals, extensions, changes of delegate, slashes, decreases) is c times that of the first, for an integer c >= 1, as are the stakes at the beginning. Then at the end budgets, end dates and the dates of schedules and distributions are the same, and every stake, own, delegated and of the whole pool, at every date is exactly c times as large. What a mining was paid and credited in the second history is never more than in the first. In units of 10^-16 token it is less at most by its largest stake (own and delegated) times c-1 for every recorded distribution, and by less than a token for each call on the mining, each deposit or extension, and each date on its schedule at the beginning. A pool and minings without stake and without distributions are such a beginning for every c. It is not always exactly the same: who stakes 100 alone gets the 10 tokens there are, who stakes 300 alone gets 9.", "quantifier": "all pairs of reachable histories of any lengths that differ by the factor c, for all integers c >= 1", "why_tests_cant": "Histories of any lengths and all factors; tests run with one choice of units.", "anchors": ["programs/rewards/src/state/mining.rs", "programs/rewards/src/state/reward_pool.rs", "programs/rewards/src/instructions/distribute_rewards.rs", "programs/rewards/src/instructions/claim.rs"]}
{"id": "C94", "title": "Payments are in proportion to the rewards but for rounding", "statement": "Take two histories, with whatever past, from a time on at which the mining has been credited all that was distributed so far (it may be nothing) and the second budget and unclaimed rewards are c times the first; from then on there are the same kinds of calls at the same times and the same stakes, and in the second every fill of the vault brings c times the rewards, for an integer c >= 1. Then at the end the stakes at every date, the end dates and the days of distributions are the same, and the budget not yet handed out in the second history is at most c times that in the first, and less by at most c-1 for every call of DistributeRewards. What a mining was paid and credited in the second history is c times that in the first, more or less: with S the largest stake of the mining (own and delegated), T the least stake of the pool, N the calls of DistributeRewards, and K the calls on the mining, deposits and extensions and dates on its schedule, it is more by at most S/T (c-1) N + S c N / 10^16 + c K tokens and less by at most S/T (c-1) N + S N / 10^16 + K. It is not always exactly c times as much: of one token for two days nothing is handed out on the first, of thirty tokens 15, of which the staker gets 10. What was distributed but not yet credited to the mining before does not grow with the rewards that come later.", "quantifier": "all pairs of reachable histories of any lengths that differ by the factor c in the rewards, for all integers c >= 1", "why_tests_cant": "Histories of any lengths and all factors; tests run with one choice of rewards, and the rests of the daily parts move from day to day.", "anchors": ["programs/rewards/src/state/reward_pool.rs", "programs/rewards/src/state/mining.rs", "programs/rewards/src/instructions/fill_vault.rs", "programs/rewards/src/instructions/distribute_rewards.rs", "programs/rewards/src/instructions/claim.rs"]}
{"id": "C95", "title": "All stakers can leave, one after the other and in any order", "statement": "In a pool whose history kept the stated rules, any number of stakers to whom nobody delegates can leave one after the other, in any order, each by a claim, a withdrawal of unlocked stake (taken back from a delegate who stays, if delegated) and closing the mining: every call succeeds, each staker gets exactly the rewards that were due when the first began to leave, whoever left before, the vault falls by exactly the sum, the chosen accounts get the lamports of the minings, and the pool's weighted stake falls by exactly what was withdrawn. If all leave with everything after their bonuses have expired (and the history kept the stricter rules), no mining and no weighted stake is left in the pool, and the vault still holds the whole undistributed budget. Somebody to whom others still delegate cannot leave.", "quantifier": "every pool with an orderly history, every list of leaving stakers in every order, every time", "why_tests_cant": "all histories, any number of stakers and all orders", "anchors": ["programs/rewards/src/instructions/claim.rs", "programs/rewards/src/instructions/withdraw_mining.rs", "programs/rewards/src/instructions/close_mining.rs"]}
{"id": "C96", "title": "Rewards of two histories add up but for rounding", "statement": "Take three histories, with whatever past, from a time on at which the mining has been credited all that was distributed so far (it may be nothing) and the third budget and unclaimed rewards are those of the first and the second together; from then on there are the same kinds of calls at the same times and the same stakes, and every fill of the vault in the third brings in as much as the fills of the first and of the second together, with the same end dates. Then at the end the stakes at every date, the end dates and the days of distributions of all three are the same, and the budget not yet handed out in the third is at most that of the first and the second together, and less by at most one token for every call of DistributeRewards. What a mining was paid and credited in the third history is the sum of what it was in the first and in the second, more or less: with S the largest stake of the mining (own and delegated), T the least stake of the pool, N the calls of DistributeRewards, and K the calls on the mining, deposits and extensions and dates on its schedule, it is more by at most S/T N + 2 S N / 10^16 + 2 K tokens and less by at most S/T N + S N / 10^16 + K. It is not always exactly the sum: of 29 tokens and of one token a staker gets 9 and none, of 30 tokens 10.", "quantifier": "all triples of reachable histories of any lengths whose fills add up", "why_tests_cant": "Histories of any lengths and all ways to divide the rewards; tests run with one choice of rewards.", "anchors": ["programs/rewards/src/state/reward_pool.rs", "programs/rewards/src/state/mining.rs", "programs/rewards/src/instructions/fill_vault.rs", "programs/rewards/src/instructions/distribute_rewards.rs", "programs/rewards/src/instructions/claim.rs"]}
{"id": "C97", "title": "Delegates can leave after those who delegate to them", "statement": "In a pool whose history kept the stated rules, any number of stakers can leave one after the other, each by a claim, a withdrawal of unlocked stake (taken back from the delegate, if delegated) and closing the mining, in any order in which a delegate comes after those who delegate to it: every call succeeds, the vault falls by exactly the sum of the rewards, the chosen accounts get the lamports, and the pool's weighted stake falls by exactly what was withdrawn, own and delegated. Who had no delegators gets exactly the rewards due when the first began to leave. A delegate gets exactly the rewards due then if reckoned without the delegation that is first taken back; whatever is taken back later makes no further difference. If all leave with everything after their bonuses have expired (and the history kept the stricter rules), no mining and no weighted stake is left in the pool, and the vault still holds the whole undistributed budget. A delegate need not get all that was due when the first began to leave.", "quantifier": "every pool with an orderly history, every list of leaving stakers in every such order, every time", "why_tests_cant": "all histories, any number of stakers and delegations, and all orders", "anchors": ["programs/rewards/src/instructions/claim.rs", "programs/rewards/src/instructions/withdraw_mining.rs", "programs/rewards/src/instructions/close_mining.rs", "programs/rewards/src/state/mining.rs"]}
{"id": "C98", "title": "The budget runs its own course, and earlier end dates and more distribution days leave no more of it", "statement": "What is left of a pool's budget, its end date and the days on which something was distributed depend only on the fills and on the times of the distributions: whatever else happens with the pool, and whoever has whatever stake in it, two pools with the same fills and distributions end with the same budget, date and days. If the fills of one pool are no larger and for no longer than those of another, and it distributes on all days on which the other does, at the same time of the day or later, and perhaps on further days, then no more is left in its budget, as long as the other's history of distributions has room. A further distribution earlier on the same day, though, can leave more in the budget; and once a pool's history of distributions is full, a second distribution of the same day hands out another part, so that less is left than in an equal pool with room.", "quantifier": "every two histories of pools from any start, all amounts, dates, times and stakes", "why_tests_cant": "all pairs of histories, with any number of fills, distributions and other calls", "anchors": ["programs/rewards/src/state/reward_pool.rs", "programs/rewards/src/instructions/fill_vault.rs", "programs/rewards/src/instructions/distribute_rewards.rs"]}
