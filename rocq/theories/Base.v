(** Errors, the result monad and checked machine arithmetic.
    Numbers are [Z]; every range check of the Rust code is explicit. *)
From Coq Require Export ZArith List Bool Lia.
Export ListNotations.
Open Scope Z_scope.

(** 32-byte public keys, as little-endian numbers.
    /repo: solana_program::pubkey::Pubkey (dependency). *)
Definition pubkey := Z.

(** Errors. [ECustom n] is MplxRewardsError number n
    (/repo/programs/rewards/src/error.rs 13-94).  The others are
    ProgramError values, panics (which abort the program in the same way),
    and errors of the callees and of the runtime.  [EWide] is no error of the
    program: it marks the calls that are modelled in Overlay.v and not here
    (see [load_mining] in Ledger.v). *)
Inductive err :=
| ECustom (n : Z)
| EInvalidArgument
| EMissingSignature
| ENotEnoughKeys
| EAlreadyInit
| EPanic
| EBorsh
| EPda
| EToken
| ESystem
| EBorrow
| EPrivilege
| EReadonly
| EWide.

(** error.rs 14-17 *) Definition InvalidAccountOwner := ECustom 0.
(** error.rs 19-22 *) Definition MathOverflow := ECustom 1.
(** error.rs 24-27 *) Definition RewardsNoDeposits := ECustom 2.
(** error.rs 29-32 *) Definition InvalidLockupPeriod := ECustom 3.
(** error.rs 34-37 *) Definition DistributionInThePast := ECustom 4.
(** error.rs 39-42 *) Definition InvalidPrimitiveTypesConversion := ECustom 5.
(** error.rs 44-47 *) Definition RewardsMustBeClaimed := ECustom 6.
(** error.rs 49-52 *) Definition RewardsMustBeGreaterThanZero := ECustom 7.
(** error.rs 54-57 *) Definition StakeFromOthersMustBeZero := ECustom 8.
(** error.rs 59-62 *) Definition NoWeightedStakeModifiersAtADate := ECustom 9.
(** error.rs 64-67 *) Definition DelegatesAreTheSame := ECustom 10.
(** error.rs 69-72 *) Definition RetreivingZeroCopyAccountFailire := ECustom 11.
(** error.rs 74-77 *) Definition AlreadyInitialized := ECustom 12.
(** error.rs 79-82 *) Definition InvalidMining := ECustom 13.
(** error.rs 84-87 *) Definition DerivationError := ECustom 14.
(** error.rs 89-93 *) Definition DecreaseRewardsTooBig := ECustom 15.

(** Rust's [Result<_, ProgramError>]. *)
Inductive res (A : Type) :=
| Ok (a : A)
| Err (e : err).
Arguments Ok {A} a.
Arguments Err {A} e.

(** The [?] operator. *)
Definition rbind {A B} (x : res A) (f : A -> res B) : res B :=
  match x with Ok a => f a | Err e => Err e end.

Notation "'let?' p ':=' x 'in' k" := (rbind x (fun p => k))
  (at level 200, p pattern, x at level 100, k at level 200, right associativity,
   format "'[v' 'let?'  p  ':='  x  'in' '/' k ']'").

(** [if !b { return Err(e) }]. *)
Definition ensure (b : bool) (e : err) : res unit := if b then Ok tt else Err e.

Notation "'check?' b 'else' e 'in' k" := (rbind (ensure b e) (fun _ => k))
  (at level 200, b at level 100, e at level 100, k at level 200, right associativity,
   format "'[v' 'check?'  b  'else'  e  'in' '/' k ']'").

(** Machine ranges: 2^64 and 2^128. *)
Definition U64 : Z := 18446744073709551616.
(** 2^128 *)
Definition U128 : Z := 340282366920938463463374607431768211456.

(** /repo/programs/rewards/src/state/mod.rs 17 *)
Definition PRECISION : Z := 10000000000000000.
(** solana_program::clock::SECONDS_PER_DAY (dependency) *)
Definition DAY : Z := 86400.
(** state/mod.rs 13 *)
Definition MINING_CAP : Z := 50.
(** state/mod.rs 14 *)
Definition POOL_CAP : Z := 365.
(** state/mod.rs 15 *)
Definition HISTORY_CAP : Z := 1095.

(** utils.rs 305-308 (u64) and 327-330 (u128): checked_sub of unsigned numbers. *)
Definition safe_sub (a b : Z) : res Z :=
  if b <=? a then Ok (a - b) else Err MathOverflow.
(** utils.rs 310-313 *)
Definition safe_add64 (a b : Z) : res Z :=
  if a + b <? U64 then Ok (a + b) else Err MathOverflow.
(** utils.rs 332-335 *)
Definition safe_add128 (a b : Z) : res Z :=
  if a + b <? U128 then Ok (a + b) else Err MathOverflow.
(** utils.rs 315-318 *)
Definition safe_mul64 (a b : Z) : res Z :=
  if a * b <? U64 then Ok (a * b) else Err MathOverflow.
(** utils.rs 337-340 *)
Definition safe_mul128 (a b : Z) : res Z :=
  if a * b <? U128 then Ok (a * b) else Err MathOverflow.
(** utils.rs 320-323 and 342-345 *)
Definition safe_div (a b : Z) : res Z :=
  if b =? 0 then Err MathOverflow else Ok (a / b).
(** [u64::try_from(x).map_err(|_| InvalidPrimitiveTypesConversion)],
    mining.rs 218-224, reward_pool.rs 496-502 *)
Definition try_u64 (a : Z) : res Z :=
  if a <? U64 then Ok a else Err InvalidPrimitiveTypesConversion.
(** Plain u64 [+]: panics on overflow because Cargo.toml sets
    overflow-checks = true for the release profile. *)
Definition plain_add64 (a b : Z) : res Z :=
  if a + b <? U64 then Ok (a + b) else Err EPanic.
(** [u64::saturating_sub] *)
Definition saturating_sub (a b : Z) : Z := if b <=? a then a - b else 0.

(** [x - (x % SECONDS_PER_DAY)], used in mining.rs 58, reward_pool.rs 140, 278,
    307-308, utils.rs 263, fill_vault.rs 50-53.  It cannot overflow. *)
Definition bod (ts : Z) : Z := ts - ts mod DAY.

(** Range predicates. *)
Definition is_u8 (a : Z) : Prop := 0 <= a < 256.
(** Rust u64, the type of most fields (mining.rs 113-141, reward_pool.rs 424-456) *)
Definition is_u64 (a : Z) : Prop := 0 <= a < U64.
(** Rust u128, index_with_precision (mining.rs 126, reward_pool.rs 440) *)
Definition is_u128 (a : Z) : Prop := 0 <= a < U128.
