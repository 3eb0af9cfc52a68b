(** How the generated clients read accounts: clients/rust/src/generated/accounts/*.rs and
    clients/js/src/generated/accounts/*.ts. *)
From Coq Require Import String List.
From Verif Require Import Base OMap State Ledger Program Codec.

(** reading [n] raw bytes, as for [u8; n] (dependency borsh) *)
Definition take (n : nat) (l : bytes) : option (bytes * bytes) :=
  if (length l <? n)%nat then None else Some (firstn n l, skipn n l).

(** pub struct Mining, clients/rust/src/generated/accounts/mining.rs 14-36; the JavaScript
    type MiningAccountData, clients/js/src/generated/accounts/mining.ts 34-44, has the same fields *)
Record cmining := CMining {
  cm_pool : pubkey; cm_owner : pubkey; cm_mint : pubkey; cm_index : Z; cm_share : Z;
  cm_unclaimed : Z; cm_sfo : Z; cm_bump : Z; cm_data : bytes
}.

(** Mining::from_bytes, mining.rs 41-45: Borsh, the rest of the slice is ignored; the
    JavaScript serializer (mining.ts 58-80) reads the same fields in the same order *)
Definition client_mining (l : bytes) : option cmining :=
  let* (p, r) := dec_key l in let* (o, r) := dec_key r in let* (mi, r) := dec_key r in
  let* (i, r) := dec_u128 r in let* (s, r) := dec_u64 r in let* (u, r) := dec_u64 r in
  let* (f, r) := dec_u64 r in let* (b, r) := dec_u8 r in let* (d, r) := take 7 r in
  Some (CMining p o mi i s u f b d).

(** pub struct RewardPool, accounts/reward_pool.rs 14-41; rewardPool.ts 34-45 *)
Record cpool := CPool {
  cp_deposit_auth : pubkey; cp_distribute_auth : pubkey; cp_fill_auth : pubkey; cp_mint : pubkey;
  cp_index : Z; cp_total : Z; cp_ends_at : Z; cp_avail : Z; cp_bump : Z; cp_data : bytes
}.

(** RewardPool::from_bytes, reward_pool.rs 46-50; rewardPool.ts 60-83 *)
Definition client_pool (l : bytes) : option cpool :=
  let* (a, r) := dec_key l in let* (b, r) := dec_key r in let* (c, r) := dec_key r in
  let* (m, r) := dec_key r in let* (i, r) := dec_u128 r in let* (t, r) := dec_u64 r in
  let* (e, r) := dec_u64 r in let* (v, r) := dec_u64 r in let* (bu, r) := dec_u8 r in
  let* (d, r) := take 7 r in
  Some (CPool a b c m i t e v bu d).

(** Mining::LEN (mining.rs 39), getMiningSize (mining.ts 168-170), RewardPool::LEN
    (reward_pool.rs 44), getRewardPoolSize (rewardPool.ts 173-175) *)
Definition client_mining_size : Z := 144.
(** reward_pool.rs 44, rewardPool.ts 173-175 *)
Definition client_pool_size : Z := 176.

(** the memcmp filter of getProgramAccounts (dependency): the bytes at an offset are these *)
Definition memcmp (off : nat) (v l : bytes) : bool :=
  if list_eq_dec Z.eq_dec (firstn (length v) (skipn off l)) v then true else false.

(** getMiningGpaBuilder, mining.ts 136-166: whereField with each field registered *)
Inductive mining_filter :=
| ByPool (k : pubkey) | ByOwner (k : pubkey) | ByMint (k : pubkey) | ByIndex (x : Z)
| ByShare (x : Z) | ByUnclaimed (x : Z) | ByOthers (x : Z) | ByBump (x : Z) | ByData (v : bytes).
(** mining.ts 155-163: the offset and the serializer of each field *)
Definition mining_matches (f : mining_filter) (l : bytes) : bool :=
  match f with
  | ByPool k => memcmp 0 (enc_key k) l
  | ByOwner k => memcmp 32 (enc_key k) l
  | ByMint k => memcmp 64 (enc_key k) l
  | ByIndex x => memcmp 96 (enc_u128 x) l
  | ByShare x => memcmp 112 (enc_u64 x) l
  | ByUnclaimed x => memcmp 120 (enc_u64 x) l
  | ByOthers x => memcmp 128 (enc_u64 x) l
  | ByBump x => memcmp 136 (enc_u8 x) l
  | ByData v => memcmp 137 v l
  end.
(** getRewardPoolGpaBuilder, rewardPool.ts 139-171 *)
Inductive pool_filter :=
| PByDepositAuth (k : pubkey) | PByDistributeAuth (k : pubkey) | PByFillAuth (k : pubkey)
| PByMint (k : pubkey) | PByIndex (x : Z) | PByTotal (x : Z) | PByEndsAt (x : Z)
| PByAvail (x : Z) | PByBump (x : Z) | PByData (v : bytes).
(** rewardPool.ts 159-168 *)
Definition pool_matches (f : pool_filter) (l : bytes) : bool :=
  match f with
  | PByDepositAuth k => memcmp 0 (enc_key k) l
  | PByDistributeAuth k => memcmp 32 (enc_key k) l
  | PByFillAuth k => memcmp 64 (enc_key k) l
  | PByMint k => memcmp 96 (enc_key k) l
  | PByIndex x => memcmp 128 (enc_u128 x) l
  | PByTotal x => memcmp 144 (enc_u64 x) l
  | PByEndsAt x => memcmp 152 (enc_u64 x) l
  | PByAvail x => memcmp 160 (enc_u64 x) l
  | PByBump x => memcmp 168 (enc_u8 x) l
  | PByData v => memcmp 169 v l
  end.

(** MplxRewardsError, programs/rewards/src/error.rs 13-94: the variants in order with their
    messages; From<MplxRewardsError> for ProgramError, error.rs 102-106, makes the place in the
    enum the code *)
Definition program_errors : list (string * string) :=
  [("InvalidAccountOwner", "Input account owner");
   ("MathOverflow", "Math operation overflow");
   ("RewardsNoDeposits", "Rewards: No deposits");
   ("InvalidLockupPeriod", "Rewards: lockup period invalid");
   ("DistributionInThePast", "Rewards: distribution_ends_at date is lower than current date");
   ("InvalidPrimitiveTypesConversion", "Rewards: distribution_ends_at date is lower than current date");
   ("RewardsMustBeClaimed", "Rewards: unclaimed rewards must be claimed");
   ("RewardsMustBeGreaterThanZero", "Rewards: rewards amount must be positive");
   ("StakeFromOthersMustBeZero", "Rewards: Stake from others must be zero");
   ("NoWeightedStakeModifiersAtADate", "No changes at the date in weighted stake modifiers while they're expected");
   ("DelegatesAreTheSame", "Passed delegates are the same");
   ("RetreivingZeroCopyAccountFailire", "Getting pointer to the data of the zero-copy account has failed");
   ("AlreadyInitialized", "Account is already initialized");
   ("InvalidMining", "Invalid mining");
   ("DerivationError", "Failed to derive PDA");
   ("DecreaseRewardsTooBig", "Rewards: Penalty is not apliable becase it's bigger than the mining's weighted stake")]%string.
(** MplxRewardsError of the generated Rust client, clients/rust/src/generated/errors/mplx_rewards.rs 12-63 *)
Definition rust_errors : list (string * string) :=
  [("InvalidAccountOwner", "Input account owner");
   ("MathOverflow", "Math operation overflow");
   ("RewardsNoDeposits", "Rewards: No deposits");
   ("InvalidLockupPeriod", "Rewards: lockup period invalid");
   ("DistributionInThePast", "Rewards: distribution_ends_at date is lower than current date");
   ("InvalidPrimitiveTypesConversion", "Rewards: distribution_ends_at date is lower than current date");
   ("RewardsMustBeClaimed", "Rewards: unclaimed rewards must be claimed");
   ("RewardsMustBeGreaterThanZero", "Rewards: rewards amount must be positive");
   ("StakeFromOthersMustBeZero", "Rewards: Stake from others must be zero");
   ("NoWeightedStakeModifiersAtADate", "No changes at the date in weighted stake modifiers while they're expected");
   ("DelegatesAreTheSame", "Passed delegates are the same");
   ("RetreivingZeroCopyAccountFailire", "Getting pointer to the data of the zero-copy account has failed");
   ("AlreadyInitialized", "Account is already initialized");
   ("InvalidMining", "Invalid mining");
   ("DerivationError", "Failed to derive PDA");
   ("DecreaseRewardsTooBig", "Rewards: Penalty is not apliable becase it's bigger than the mining's weighted stake")]%string.
(** "errors" of idls/mplx_rewards.json 852-933 *)
Definition idl_errors : list (Z * (string * string)) :=
  [(0, ("InvalidAccountOwner", "Input account owner"));
   (1, ("MathOverflow", "Math operation overflow"));
   (2, ("RewardsNoDeposits", "Rewards: No deposits"));
   (3, ("InvalidLockupPeriod", "Rewards: lockup period invalid"));
   (4, ("DistributionInThePast", "Rewards: distribution_ends_at date is lower than current date"));
   (5, ("InvalidPrimitiveTypesConversion", "Rewards: distribution_ends_at date is lower than current date"));
   (6, ("RewardsMustBeClaimed", "Rewards: unclaimed rewards must be claimed"));
   (7, ("RewardsMustBeGreaterThanZero", "Rewards: rewards amount must be positive"));
   (8, ("StakeFromOthersMustBeZero", "Rewards: Stake from others must be zero"));
   (9, ("NoWeightedStakeModifiersAtADate", "No changes at the date in weighted stake modifiers while they're expected"));
   (10, ("DelegatesAreTheSame", "Passed delegates are the same"));
   (11, ("RetreivingZeroCopyAccountFailire", "Getting pointer to the data of the zero-copy account has failed"));
   (12, ("AlreadyInitialized", "Account is already initialized"));
   (13, ("InvalidMining", "Invalid mining"));
   (14, ("DerivationError", "Failed to derive PDA"));
   (15, ("DecreaseRewardsTooBig", "Rewards: Penalty is not apliable becase it's bigger than the mining's weighted stake"))]%string.
(** codeToErrorMap, clients/js/src/generated/errors/mplxRewards.ts 15-256, name and message *)
Definition error_table : list (Z * (string * string)) :=
  [(0, ("InvalidAccountOwner", "Input account owner"));
   (1, ("MathOverflow", "Math operation overflow"));
   (2, ("RewardsNoDeposits", "Rewards: No deposits"));
   (3, ("InvalidLockupPeriod", "Rewards: lockup period invalid"));
   (4, ("DistributionInThePast", "Rewards: distribution_ends_at date is lower than current date"));
   (5, ("InvalidPrimitiveTypesConversion", "Rewards: distribution_ends_at date is lower than current date"));
   (6, ("RewardsMustBeClaimed", "Rewards: unclaimed rewards must be claimed"));
   (7, ("RewardsMustBeGreaterThanZero", "Rewards: rewards amount must be positive"));
   (8, ("StakeFromOthersMustBeZero", "Rewards: Stake from others must be zero"));
   (9, ("NoWeightedStakeModifiersAtADate", "No changes at the date in weighted stake modifiers while they're expected"));
   (10, ("DelegatesAreTheSame", "Passed delegates are the same"));
   (11, ("RetreivingZeroCopyAccountFailire", "Getting pointer to the data of the zero-copy account has failed"));
   (12, ("AlreadyInitialized", "Account is already initialized"));
   (13, ("InvalidMining", "Invalid mining"));
   (14, ("DerivationError", "Failed to derive PDA"));
   (15, ("DecreaseRewardsTooBig", "Rewards: Penalty is not apliable becase it's bigger than the mining's weighted stake"))]%string.
(** getMplxRewardsErrorFromCode, mplxRewards.ts 262-269; None is null *)
Definition error_from_code (n : Z) : option (string * string) :=
  option_map snd (List.find (fun c => fst c =? n) error_table).
(** getMplxRewardsErrorFromName, mplxRewards.ts 275-282 *)
Definition error_from_name (s : string) : option Z :=
  option_map fst (List.find (fun c => String.eqb (fst (snd c)) s) error_table).
