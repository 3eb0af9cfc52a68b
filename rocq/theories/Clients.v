(** The instruction builders of the crate (programs/rewards/src/instruction.rs 173-508)
    and of the generated clients (clients/rust/src/generated/instructions/*.rs; the
    JavaScript ones in clients/js/src/generated/instructions/*.ts have the same
    accounts and flags). *)
From Verif Require Import Base OMap State Ledger Program Codec.

(** AccountMeta::new (k, signer), AccountMeta::new_readonly (k, signer) (dependency) *)
Definition mw (k : pubkey) (signer : bool) : meta := Meta k signer true.
(** AccountMeta::new_readonly (dependency) *)
Definition mr (k : pubkey) (signer : bool) : meta := Meta k signer false.

(** ** The crate's builders: accounts and instruction *)

(** instruction.rs 173-202 *)
Definition b_initialize_pool (e : env) (pool mint vault payer auth fill dist : pubkey) : list meta * ix :=
  ([mw pool false; mr mint false; mw vault false; mw payer true; mr auth true;
    mr (rent_id e) false; mr (spl_token_id e) false; mr system_id false],
   InitializePool fill dist).

(** instruction.rs 206-233 *)
Definition b_fill_vault (e : env) (pool mint vault auth from : pubkey) (rewards ends_at : Z) : list meta * ix :=
  ([mw pool false; mr mint false; mw vault false; mr auth true; mw from false;
    mr (spl_token_id e) false],
   FillVault rewards ends_at).

(** instruction.rs 236-257 *)
Definition b_initialize_mining (pool mining payer owner : pubkey) : list meta * ix :=
  ([mw pool false; mw mining false; mw payer true; mr system_id false], InitializeMining owner).

(** instruction.rs 261-289 *)
Definition b_deposit (pool mining auth dm : pubkey) (amount : Z) (p : lockup) (owner delegate : pubkey)
  : list meta * ix :=
  ([mw pool false; mw mining false; mr auth true; mw dm false], DepositMining amount p owner delegate).

(** instruction.rs 293-319 *)
Definition b_withdraw (pool mining auth dm : pubkey) (amount : Z) (owner delegate : pubkey)
  : list meta * ix :=
  ([mw pool false; mw mining false; mr auth true; mw dm false], WithdrawMining amount owner delegate).

(** instruction.rs 323-345 *)
Definition b_claim (e : env) (pool mint vault mining owner auth dest : pubkey) : list meta * ix :=
  ([mr pool false; mr mint false; mw vault false; mw mining false; mr owner true; mr auth true;
    mw dest false; mr (spl_token_id e) false], Claim).

(** instruction.rs 349-383 *)
Definition b_extend (pool mining auth dm : pubkey) (op np : lockup) (start base add : Z)
    (owner delegate : pubkey) : list meta * ix :=
  ([mw pool false; mw mining false; mr auth true; mw dm false],
   ExtendStake op np start base add owner delegate).

(** instruction.rs 387-402 *)
Definition b_distribute (pool auth : pubkey) : list meta * ix :=
  ([mw pool false; mr auth true], DistributeRewards).

(** instruction.rs 406-423 *)
Definition b_close (mining owner target auth pool : pubkey) : list meta * ix :=
  ([mw mining false; mr owner true; mw target false; mr auth true; mr pool false], CloseMining).

(** instruction.rs 427-455 *)
Definition b_change (pool mining auth owner old_dm new_dm : pubkey) (new_delegate : pubkey) (amount : Z)
  : list meta * ix :=
  ([mw pool false; mw mining false; mr auth true; mr owner true; mw old_dm false; mw new_dm false],
   ChangeDelegate amount new_delegate).

(** instruction.rs 458-484 *)
Definition b_slash (auth pool mining owner : pubkey) (native weighted : Z) (date : option Z)
  : list meta * ix :=
  ([mr auth true; mw pool false; mw mining false], Slash owner native weighted date).

(** instruction.rs 486-508 *)
Definition b_decrease (auth pool mining owner : pubkey) (n : Z) : list meta * ix :=
  ([mr auth true; mw pool false; mw mining false], DecreaseRewards owner n).

(** ** The generated builders that differ from the crate's *)

(** clients/rust/src/generated/instructions/deposit_mining.rs 38-55 *)
Definition g_deposit (pool mining auth dm : pubkey) (amount : Z) (p : lockup) (owner delegate : pubkey)
  : list meta * ix :=
  ([mw pool false; mw mining false; mr auth true; mr dm false], DepositMining amount p owner delegate).

(** clients/rust/src/generated/instructions/withdraw_mining.rs 37-54 *)
Definition g_withdraw (pool mining auth dm : pubkey) (amount : Z) (owner delegate : pubkey)
  : list meta * ix :=
  ([mw pool false; mw mining false; mr auth true; mr dm false], WithdrawMining amount owner delegate).

(** clients/rust/src/generated/instructions/extend_stake.rs 40-61: one account more *)
Definition g_extend (pool mining mint auth dm : pubkey) (op np : lockup) (start base add : Z)
    (owner delegate : pubkey) : list meta * ix :=
  ([mw pool false; mw mining false; mr mint false; mr auth true; mr dm false],
   ExtendStake op np start base add owner delegate).

(** clients/rust/src/generated/instructions/close_mining.rs 34-55 *)
Definition g_close (mining owner target auth pool : pubkey) : list meta * ix :=
  ([mr mining false; mr owner true; mw target false; mr auth true; mw pool false], CloseMining).

(** ** The generated clients' data: one byte (the discriminator of each file, "Self {
    discriminator: n }"), then the args struct in Borsh.  Field orders: initialize_pool.rs
    101-104, fill_vault.rs 90-93, initialize_mining.rs 79-81, deposit_mining.rs 81-86,
    withdraw_mining.rs 80-84, extend_stake.rs 87-95, change_delegate.rs 92-95, slash.rs
    74-79, decrease_rewards.rs 74-77; LockupPeriod: types/lockup_period.rs 16-22. *)
Definition g_lockup (p : lockup) : bytes :=
  [match p with LNone => 0 | LFlex => 1 | L3M => 2 | L6M => 3 | L1Y => 4 end].
(** Option<u64> of slash.rs 74-79 *)
Definition g_opt (o : option Z) : bytes :=
  match o with None => [0] | Some x => 1 :: le 8 x end.
(** the files listed above, one constructor each *)
Definition g_data (i : ix) : bytes :=
  match i with
  | InitializePool f d => 0 :: le 32 f ++ le 32 d
  | FillVault r x => 1 :: le 8 r ++ le 8 x
  | InitializeMining o => 2 :: le 32 o
  | DepositMining a p o d => 3 :: le 8 a ++ g_lockup p ++ le 32 o ++ le 32 d
  | WithdrawMining a o d => 4 :: le 8 a ++ le 32 o ++ le 32 d
  | Claim => [5]
  | ExtendStake op np s b a o d =>
      6 :: g_lockup op ++ g_lockup np ++ le 8 s ++ le 8 b ++ le 8 a ++ le 32 o ++ le 32 d
  | DistributeRewards => [7]
  | CloseMining => [8]
  | ChangeDelegate a n => 9 :: le 8 a ++ le 32 n
  | Slash o n w dt => 10 :: le 32 o ++ le 8 n ++ le 8 w ++ g_opt dt
  | DecreaseRewards o n => 11 :: le 32 o ++ le 8 n
  end.
