# Rocq model of mplx-rewards: design and trusted base

The code under study is the Solana program in `/repo/programs/rewards/src`
(Rust). It is modelled by hand in Gallina, function by function; every
definition cites the file and lines it transcribes.

## 1. Model

| file | what it holds |
|------|----------------|
| `Base.v`    | result monad, error codes (`error.rs`), checked arithmetic (`utils.rs` 294-346) on `Z` with explicit bounds |
| `OMap.v`    | the sokoban red-black map as a sorted, capacity-bounded association list |
| `Bst.v`     | `find_max_value_limited_by_key` on an arbitrary binary tree |
| `State.v`   | `LockupPeriod`, `Mining`, `RewardPool` and all of their methods |
| `Ledger.v`  | accounts, account metas, `AccountLoader`, the CPIs used (SPL token transfer / initialize_account, system create_account), post-execution checks of the runtime |
| `Program.v` | the twelve `process_*` functions, `process_instruction`, atomic execution |
| `Overlay.v` | the three calls that read a longer account as a mining (Claim, CloseMining, ChangeDelegate) |
| `Spl.v` | the calls that use the token program, with the token program in full: freezing, allowances, wrapped lamports, multisig authorities |
| `Helpers.v` | the assertion helpers and loaders no instruction calls |
| `Codec.v`   | Borsh encoding of instructions and of account headers |
| `Clients.v` | the crate's instruction builders and the generated clients' builders |
| `Idl.v` | the documented account tables and the Rust and JavaScript request builders generated from them |
| `Views.v` | how the generated clients read accounts, search for them and look up errors |
| `RepoTests.v` | the repository's own tests, replayed on the model |
| `Core.v`    | a single pool with its minings and vault as a state machine; its histories |
| `History.v` | histories of the whole ledger: instructions and what other programs may do |
| `Tx.v` | raw transactions: calls with arbitrary data, all or nothing, and chains of them |
| `LedgerView.v` | the part of a ledger that belongs to one pool, seen as a state of `Core.v`; orderly histories |
| `Spec.v`, `EffectSpec.v`, `LedgerSpec.v`, `ClientSpec.v`, `SuccessSpec.v`, `DustSpec.v`, `LossView.v`, `ErrorSpec.v`, `IdlSpec.v`, `ViewSpec.v`, `CommuteSpec.v`, `FairSpec.v`, `FairView.v`, `PowerSpec.v`, `PlainSpec.v`, `WorthSpec.v`, `SplitSpec.v`, `OverlaySpec.v`, `BackSpec.v`, `MoveSpec.v`, `ContainSpec.v`, `DoubleSpec.v`, `CompleteSpec.v`, `SplSpec.v`, `ChoiceSpec.v`, `BookSpec.v`, `GapSpec.v`, `FreezeSpec.v`, `CapSpec.v`, `RaidSpec.v`, `DebtSpec.v`, `IncomeSpec.v`, `StrikeSpec.v`, `DiarySpec.v`, `LogSpec.v`, `CompareSpec.v`, `LongerSpec.v`, `OwnSpec.v`, `OwnLongSpec.v`, `OrderLogSpec.v`, `OftenSpec.v`, `DaysSpec.v`, `PartsSpec.v`, `ScaleSpec.v`, `RichSpec.v`, `WindUpSpec.v`, `TogetherSpec.v`, `PartingSpec.v` | the vocabulary of the statements, written without the model's helpers |
| `Props*.v`  | the property theorems, each with `Print Assumptions` and a concrete instance |
| `Scenario.v`, `Attacks.v`, `Witness.v`, `EffectExamples.v`, `LedgerOrderly.v`, `CommuteExamples.v`, `PowerExamples.v`, `OverlayExamples.v`, `ContainExamples.v` | concrete environment and histories used as instances and witnesses |
| `ResLemmas`, `TreeLemmas`, `AccrualLemmas`, `RefreshLemmas`, `MapSum`, `FrameLemmas`, `LedgerLemmas`, `CodecLemmas`, `BstLemmas`, `WfLemmas`, `HistoryLemmas`, `AccessLemmas`, `ConserveLemmas`, `ClientLemmas`, `EffectLemmas`, `SuccessLemmas`, `ErrorLemmas`, `IdlLemmas`, `ViewLemmas` | lemmas about one layer each |
| `CoreInv`, `CoreSteps`, `CoreThms`, `CoreRun`, `CoreLive`, `CoreMore` | the invariant of the one-pool machine, its preservation and consequences |
| `HistoryThms`, `ReachThms`, `Changes`, `EffectMethods`, `EffectThms`, `EffectMore`, `EffectCompare`, `Horizon`, `LedgerCore`, `LedgerCoreThms`, `SuccessMethods`, `SuccessThms`, `Blocked`, `Dust`, `DustRun`, `LedgerDust`, `ErrorThms`, `ErrorExact`, `Leave`, `Determined`, `Commute`, `Fair`, `LedgerFair`, `Powers`, `TxLemmas`, `Plain`, `Worth`, `Split`, `SplitThms`, `OverlayThms`, `OverlayMore`, `TakenBack`, `Move`, `MoveProcess`, `Local`, `Contain`, `Double`, `Complete`, `SplThms`, `Flash`, `Rent`, `Choice`, `Book`, `Gap`, `Freeze`, `Anybody`, `Cap`, `Raid`, `Debt`, `DebtLedger`, `Income`, `Strike`, `Erase` | the proofs of the theorems about instructions and ledgers |

Numbers are `Z`; every arithmetic operation that is checked in Rust
(`safe_*`, or plain `+`/`-` under `overflow-checks = true`) is an explicit range
test in the model and returns an error. Public keys are `Z`. Errors roll the
whole instruction back (runtime semantics), so panics are errors too.

Program-derived addresses are functions of an environment record
(`find_mining`, `cpa_mining`, `find_vault`, `cpa_vault`). Where a theorem needs collision
resistance, it is an explicit hypothesis of the theorem (a record of
injectivity facts), and an example environment satisfying it is given.

## 2. Trusted base

* The Coq 8.16.1 kernel (and `coqchk`).
* `Print Assumptions` of each property theorem: printed in the build log by
  the `Props*.v` files; the expected output is `Closed under the global
  context` for all of them (no axioms are added). stdpp is used for finite maps.
  `coqchk` on the whole library lists seven constants of `Coq.ssr.ssrunder`
  (the sealed `Under_rel`), loaded with stdpp; no theorem here uses them.
* The correspondence between the Rust text and the Gallina text (by hand).
  It was checked against the repository's own expectations: `RepoTests.v`
  translates its 42 active tests call by call, and the kernel evaluates all of
  them to success from four start times. Started in the first second of a day,
  twelve of them fail on the model: a distribution is stored under the start of
  its day, and in that very second a claim looks only at earlier entries.
* The behaviour of what is *not* in `/repo`, as modelled in `OMap.v` and `Ledger.v`:
  sokoban's red-black tree (ordered map; inserting a new key in a full tree
  is ignored, an existing key is overwritten; iteration in key order), Borsh,
  the Solana runtime (rollback, signer/writable flags, read-only and
  double-borrow checks), the SPL token program (`Transfer`, `InitializeAccount`,
  in `Ledger.v` without freezing, SPL delegates, wrapped SOL or multisig authorities; `Spl.v`
  adds these and C69 says what they change), the
  system program (`CreateAccount`), rent, `Clock`.
  The capacity of a tree is its number of nodes (50, 365, 1095): read off the compiled
  program that the repository keeps as a test fixture, whose instructions were read,
  not run. Rebuilt with 49, 364 and 1094, all proofs go through except where a theorem
  names the number, which is then one less (`Horizon.v` for C36 and the room for two
  entries of C55).
* From the same reading: sokoban's `load_bytes` and `load_mut_bytes` take the first bytes
  of what they are given; too few stop the program, more are accepted. Account data and
  the offsets used are multiples of eight, so the error for misaligned data (code 11)
  never occurs. On chain u128 is aligned to eight bytes, so the history takes
  1095 slots of 40 bytes and a pool uses 55720 of its 64480 bytes.

### Longer accounts

Because a prefix is read, a pool can stand where a mining is expected and is not
compared with a derived address. `exec` (`Program.v`) answers such calls with the marker
`EWide`; `wide_exec` (`Overlay.v`) carries them out. All properties except C62, C66 and C69 are about `exec`:
they hold for every history in which no such call occurs (`C62_plain_histories`), and
C62 says what such calls need and do. Where addresses are compared, no account longer
than a mining can stand, because only the program can create accounts at its derived addresses
and creates none that are longer. Accounts of the program that are neither pool nor
mining (other lengths, handed over zeroed) hold zero keys for ever; as a pool
they would need the signature of the zero key, which is the system program's id, so
they are not modelled as pools.

### Not modelled

Compute budget, stack/heap limits, logging text, executable accounts, rent
collection, CPI depth, the staking program that holds the deposit authority,
JavaScript client beyond requests, account readers, filters and errors, `build.rs`/IDL generation.
`DecodeError::type_of` (a constant string) is not modelled.
Bits 1..6 of the `data` arrays of the account headers (never read or written
by the code) are modelled only in the layout codec.

## 3. Properties

(`C..` ids refer to `properties.jsonl`.)

| id | modelled by | proof idea |
|----|-------------|-----------|
| C01, C02 | `Codec.v` byte lists | round trip + canonical by structural inversion of the parser |
| C03, C04, C25 | `Program.v` | inversion of each `process_*` |
| C05 | `Program.v`, `Ledger.v` | frame lemma per instruction, conclusion on `exec` |
| C06 | `Program.v`, address invariant of ledgers | frame lemma + injectivity of derived addresses; the two holes by concrete ledgers |
| C07, C08 | histories of ledger events | invariant by induction on histories |
| C09 | pool/mining functions and histories | induction |
| C10, C11, C12, C14 | `State.v` | arithmetic and list reasoning |
| C13 | iterated distribution | induction on the days left |
| C15, C16, C17, C41 | `State.v` against `Spec.v` | induction on the schedule; sums over the index history |
| C18, C19, C20, C21, C22 | `Core.v` | invariant: for every day d >= today, sum of effective stakes <= pool's net total; vault*10^16 >= budget*10^16 + sum of everything owed |
| C23, C31(second half), C36(second half), C42 | concrete histories, evaluated by the kernel, and general lemmas where possible | `vm_compute` witnesses |
| C24, C26, C33 | `Program.v` | inversion |
| C27-C30, C32 | `State.v`, lifted to `Program.v` | inversion, list lemmas |
| C34 | `State.v` | arithmetic |
| C35 | `Bst.v` | induction on trees |
| C36 | `Core.v` | pigeonhole on day-aligned dates in (today, today+365] |
| C37 | `Clients.v` + `Program.v` | which flags each instruction needs; inversion / evaluation |
| C38 | `Codec.v` | little-endian codec lemmas |
| C39, C53 | range and date predicates on ledgers | invariant |
| C40 | `Ledger.v` | sums over finite maps |
| C43, C44 | `Core.v`, lifted to ledgers | invariant + arithmetic bounds |
| C45 | a concrete history of two pools | `vm_compute` witness |
| C46, C47 | `Ledger.v`, histories | lamports at an address only go down by a signature, a close or another program |
| C48 | `SuccessSpec.v` | each step of each method succeeds exactly on a condition; composed per instruction |
| C49 | `Core.v`, `DustSpec.v`; ledgers: `LossView.v` | the invariant of C18-C22 read as an equation: what each event can lose at most, summed over the history |
| C50 | `Program.v`, `ErrorSpec.v` | inversion of every failing branch; the loaders as a table of what each position has to be; forward computation for the certain codes |
| C51 | `Idl.v`, `IdlSpec.v` | tables compared entry by entry; the flags lemma of C37 |
| C52 | `Views.v`, `ViewSpec.v` | the codec lemmas of C38, field by field; tables by cases |
| C54 | ledgers, `LedgerView.v`, `SuccessSpec.v` | C21, C22 and C48 composed through the effects C24, C28, C33 |
| C55 | ledgers, `CommuteSpec.v` | what a call writes is determined by the accounts it may change and the pool's history (`Determined.v`); effects on a pool commute (`Commute.v`) |
| C56 | `Core.v`, ledgers, `FairSpec.v`, `FairView.v` | what a mining has coming (paid, unclaimed and unseen) moves with its share of every distribution, step by step (`Fair.v`); ledgers through `LedgerView.v` |
| C57 | ledgers, `PowerSpec.v` | per instruction: what it does to each kind of account (`Changes.v`, C03, C06), then histories (`Powers.v`); the exception is the hole of C06, with C06's witness |
| C58 | `Tx.v` | decoding is canonical (C02); a failed transaction is an idle external event; then induction (`TxLemmas.v`) |
| C59 | orderly ledgers, `PlainSpec.v` | each condition of C48 either follows from the invariant of `CoreInv.v` or stays (`Plain.v`); one undisciplined history shows that the discipline is needed |
| C60 | reachable ledgers, `WorthSpec.v`; histories: orderly ledgers | every stake method first refreshes, so it leaves the mining up to date with exactly the tokens it stood for; an entry dated today or later, or more time, only adds (`Worth.v`); two concrete calls show the exceptions are real |
| C61 | reachable ledgers, `SplitSpec.v` | a second refresh at the same time changes nothing, amounts add up in each method (`Split.v`), and each processor is the method between the same checks and the same writes (`SplitThms.v`); three concrete calls show conditions that cannot be dropped |
| C62 | `Overlay.v`, `OverlaySpec.v` | inversion of the three processors with the pool's header read as a mining's; what the bytes hold beyond the header is a parameter; one invariant over histories for the deposit authorities; three concrete histories for the refutations |
| C63 | reachable ledgers, `BackSpec.v` | the effects C24, C28, C33 composed twice; a second refresh at the same time changes nothing; the delegate is refreshed after its delegated stake has changed, and tokens are linear in it up to rounding; one concrete history |
| C64 | reachable ledgers, `MoveSpec.v` | every tree operation, method, loader and processor commutes with adding whole days to all dates; the answer is an equation, so errors are the same too |
| C65 | any ledger, `MoveSpec.v` | the same proofs with keys replaced by an injective map that fixes the system program, and the derivation of addresses carried along |
| C66 | histories with longer accounts (`OverlaySpec.v`), `ContainSpec.v` | every processor commutes with restricting the ledger to the accounts named; a history is then followed by one of `History.v` that agrees with it outside the set of accounts hit, a call that touches the set being replaced by an external change |
| C67 | ledger histories (`History.v`), `DoubleSpec.v`; the comparison of parts over orderly histories | the same deposit with and without a delegate from one ledger; distributions keep the two pools apart by the amount in the total share, with an index history that grows more slowly |
| C68 | reachable ledgers, `SuccessSpec.v`, `CompleteSpec.v` | the effects C07, C08, C14 and C24-C33 with exact frames, each description shown to have one result, and C48 with the writable flags that the token and system programs ask for; histories by induction |
| C69 | `Spl.v`, `SplSpec.v` | each processor is a part before the transfer and the transfer; renaming the source to the authority commutes with the first part and turns the second into the plain transfer; a call is then a plain call between two external changes, and histories follow by induction |
| C70 | `Program.v`, orderly histories | composition of the effects of the four calls; the flex entry has amount 0 and lies after today, so the claim sees one segment with the new index |
| C71 | histories of ledger events | invariant: only creation makes a mining initialised, and it pays the minimum; only closing takes lamports |
| C72 | `Helpers.v` | case analysis; C71 for the rent assertion |
| C73 | `ChoiceSpec.v`, `Choice.v`, `PropsChoice.v` | the three effects compared; schedules are functions of what is scheduled |
| C74 | same | stake on a day after lowering and scheduling; accrual is monotone in the stake |
| C75 | same | the effects of the two ways compared; a mining that has seen everything refreshes to itself |
| C76 | `BookSpec.v`, `Book.v`, `PropsBook.v` | the books are a simulation of the pool: an invariant relates each entry to the mining, and with it every check on the books gives the condition of the discipline; induction over histories of instructions and outside changes |
| C77 | `GapSpec.v`, `Gap.v`, `PropsGap.v` | from the full effect of each instruction (C68) the change of the sum over the pool's minings is computed account by account and compared with the change of the pool; induction over histories |
| C78 | `FreezeSpec.v`, `Freeze.v`, `Anybody.v`, `PropsFreeze.v` | refusal from the exact conditions of success (C48); one event leaves a blocked mining alone (C05, C06); the history before a past day never changes, so a passed expiry blocks for good; induction over histories; six calls run one by one through their exact conditions and effects (C48, C68) |
| C79 | `CapSpec.v`, `Cap.v`, `PropsCap.v` | a refresh credits at most the stake before it times the rise of the index, because drops are not negative and the history grows; per instruction from the full effect (C68); induction over histories |
| C80 | `RaidSpec.v`, `Raid.v`, `PropsRaid.v` | each of the four calls is shown to be allowed (C48) in the state that the effect of the one before (C68) leaves; the deposit and the withdrawal cancel out by C63 |
| C81 | `DebtSpec.v`, `Debt.v`, `DebtLedger.v`, `PropsDebt.v` | the debt is a sum over the minings; per event of `Core.v` its change is computed from the effects, every refresh losing only a rounding; carried to ledgers with the simulation of `LedgerCore.v`, induction over histories that add up what each event adds |
| C82 | `IncomeSpec.v`, `Income.v`, `PropsIncome.v` | per instruction, from the complete effects of C68: a refresh keeps `owed` up to a rounding, each change of stake adds its part; another pool's call reaches a mining only as old delegate (C45) and then its accrual is split at that pool's index; induction over the history |
| C83 | `StrikeSpec.v`, `Strike.v`, `Erase.v`, `PropsStrike.v` | the part of C82 that a foreign change of delegate adds, bounded by the stakes of the days on which the other history rose; the three calls of the stranger are shown to succeed with the exact conditions of success (C48) |
| C84 | `DiarySpec.v`, `Diary.v`, `PropsDiary.v` | from the complete effects of calls (C68): what each line of the diary does to a mining is a function of the mining and the line, and does not look at pool, owner or bump |
| C85 | `LogSpec.v`, `Log.v`, `PropsLog.v` | as C84, for the pool and for pool and mining together; the history shown in a diary is replaced by that of the pool worked out so far |
| C86 | `CompareSpec.v`, `Compare.v`, `PropsCompare.v` | the steps of C85 kept in order: the two schedules keep the same dates, the own stake at each date is ordered, and the tokens earned are compared segment by segment; the index distances are compared against the final histories, of which the histories seen are beginnings |
| C87 | `LongerSpec.v`, `Longer.v`, `PropsLonger.v` | the steps of C85 again; the dates of the two schedules may differ, so the exact accruals are compared over the same index history, and the roundings are counted: one for every call on the mining and one for every date taken out of its schedule |
| C88 | `OwnSpec.v`, `Own.v`, `PropsOwn.v` | the steps of C85 again, for two pools that differ by the staker's own part: the share `mine / total` grows with `mine` when the rest does not, so each distribution adds no less but for the rounding of the index times the stake; the roundings of the mining are counted as in C87 |
| C89 | `OwnLongSpec.v`, `OwnLong.v`, `PropsOwnLong.v` | the steps of C88 without the equality of the dates: a longer lockup counts for no less at any date (as in C87) if the second mining's schedule has a place for its own, and the rest of the pool gains no more if the first pool's has; the 51st date of a mining is the witness that the place is needed |
| C88, C89 | `OrderLogSpec.v`, `OrderLog.v`, `PropsOrderLog.v` | in orderly histories (those of C19) what C88 and C89 ask for at the distributions follows: the history passes through a ledger with the same log before each distribution, where C19 bounds the mining's stake by the pool's, and by C85 the log determines both |
| C90 | `OftenSpec.v`, `Often.v`, `PropsOften.v` | both histories are compared with a staker who never claims: being brought up to date once more leaves the same stake, schedule and index (as in C16) and splits one segment, which loses at most one token; the staker's other calls bring the mining up to date first, so they act on the same stake |
| C91 | `DaysSpec.v`, `Days.v`, `PropsDays.v` | an invariant of the walk through the log: the pool's stake, the mining's stake and all schedules stay as they are until the time of the comparison, so every distribution gives the mining its part of what leaves the budget up to the rounding of the index, whatever the day |
| C92 | `PartsSpec.v`, `Parts.v`, `PropsParts.v` | three logs are walked through at once: the pool after the two calls is the pool after the one (schedules with the same dates add up, also when they are full), and each segment of what is credited is additive up to one token |
| C93 | `ScaleSpec.v`, `Scale.v`, `PropsScale.v` | two logs are walked through at once: stakes and schedules are multiples of each other, each rise of the index is c times the other and a rest below c, and the index of a mining is that of an entry of the history (its place), by which the rests are counted |
| C94 | `RichSpec.v`, `Rich.v`, `PropsRich.v` | two logs are walked through at once: the gap between the second budget and c times the first is never negative and rises by less than c, so the handed-out amounts differ in both directions by less than c for every distribution; rises of the index since the start are summed from above and from below |
| C95 | `WindUpSpec.v`, `WindUp.v`, `PropsWindUp.v` | the three calls of one staker who leaves (C54) change nothing of the others' accounts but what a delegate who stays gives back; induction over the list of those who leave |
| C96 | `TogetherSpec.v`, `Together.v`, `PropsTogether.v` | three logs are walked through at once, as two are for C94: the histories of distributions of the first two are added up entry by entry and compared with that of the third |
| C97 | `PartingSpec.v`, `Parting.v`, `PropsParting.v` | induction as for C95, where a delegate who leaves later has been brought up to date by the first withdrawal and lost only delegated stake since; the sums of delegations are exchanged (by delegate, by staker) for the exact stake of the pool |
| C98 | `PaceSpec.v`, `Pace.v`, `PropsPace.v` | the walk through a pool's log (C86) is reduced to budget, end date and days of distribution, which no other call touches; two such walks are compared move by move, the key fact being that what is left of a budget after a daily part grows with the budget, the end date and the time before it |

### How the one-pool theorems reach the ledger

C18-C23, C43, C44, C49, C59, C60 and C81 (histories) are proved for `Core.v` and carried to ledgers for pools
with an *orderly* history (`LedgerView.v`): the pool was created on this chain,
derived addresses do not collide (`env_inj`), rent for a mining is positive, the
system id signs nothing, other programs do not touch the vault except by adding
tokens, nobody names a mining of the pool as the old delegate in another pool (finding C45)
and the stake instructions are disciplined (the deposit authority, a program
that is not in `/repo`, asks only for what the staker has; C76 shows that records of
its own calls are enough for that). Every one of these
is an explicit hypothesis, and `LedgerOrderly.v` has a history meeting them all.

Where the code does not satisfy the natural statement, the theorem proved is
the negation with a concrete witness (`..._refuted` or `finding_...`), next
to the strongest true variant.
