(** Vocabulary for statements about instructions and their accounts, from the documented
    account lists of the API (programs/rewards/src/instruction.rs 13-169). *)
From stdpp Require Import gmap.
From Verif Require Import Base State Ledger Program LedgerLemmas.

(** where the instruction lists its pool *)
Definition pool_position (i : ix) : nat :=
  match i with
  | Slash _ _ _ _ | DecreaseRewards _ _ => 1
  | CloseMining => 4
  | _ => 0
  end.

(** where it lists the mining it is about, if any *)
Definition mining_position (i : ix) : option nat :=
  match i with
  | InitializePool _ _ | FillVault _ _ | DistributeRewards => None
  | Claim => Some 3%nat
  | CloseMining => Some 0%nat
  | Slash _ _ _ _ | DecreaseRewards _ _ => Some 2%nat
  | _ => Some 1%nat
  end.

(** the accounts it may change, by position *)
Definition may_change (i : ix) : list nat :=
  match i with
  | InitializePool _ _ => [0; 2; 3]        (* pool, vault, payer *)
  | FillVault _ _ => [0; 2; 4]             (* pool, vault, source *)
  | InitializeMining _ => [1; 2]           (* mining, payer *)
  | DepositMining _ _ _ _ | WithdrawMining _ _ _ | ExtendStake _ _ _ _ _ _ _ =>
      [0; 1; 3]                            (* pool, mining, delegate's mining *)
  | Claim => [2; 3; 6]                     (* vault, mining, destination *)
  | DistributeRewards => [0]               (* pool *)
  | CloseMining => [0; 2]                  (* mining, target *)
  | ChangeDelegate _ _ => [0; 1; 4; 5]     (* pool, mining, both delegates *)
  | Slash _ _ _ _ => [1; 2]                (* pool, mining *)
  | DecreaseRewards _ _ => [2]             (* mining *)
  end%nat.

(** the account at a position is [k] *)
Definition account_at (ms : list meta) (n : nat) (k : pubkey) : Prop :=
  nth_error (map mt_key ms) n = Some k.

(** the authority an instruction needs *)
Inductive role := DepositAuthority | FillAuthority | DistributeAuthority.
Definition role_of (i : ix) : option role :=
  match i with
  | InitializePool _ _ | InitializeMining _ => None
  | FillVault _ _ => Some FillAuthority
  | DistributeRewards => Some DistributeAuthority
  | _ => Some DepositAuthority
  end.
Definition holder (w : wpool) (r : role) : pubkey :=
  match r with
  | DepositAuthority => p_deposit_auth (wp w)
  | FillAuthority => p_fill_auth (wp w)
  | DistributeAuthority => p_distribute_auth (wp w)
  end.

(** a program account that reads as a pool / a mining *)
Definition is_pool (e : env) (L : ledger) (k : pubkey) (w : wpool) : Prop :=
  owner_of L k = program_id e /\ data_of L k = DPool w.
Definition is_mining (e : env) (L : ledger) (k : pubkey) (m : wmining) : Prop :=
  owner_of L k = program_id e /\ data_of L k = DMining m.

(** instructions that need the mining owner's signature *)
Definition needs_owner (i : ix) : bool :=
  match i with Claim | CloseMining | ChangeDelegate _ _ => true | _ => false end.

(** the wallet a stake instruction is about: its argument, or for ChangeDelegate the
    account at position 3 *)
Definition staker (ms : list meta) (i : ix) (k : pubkey) : Prop :=
  match i with
  | DepositMining _ _ o _ | WithdrawMining _ o _ | ExtendStake _ _ _ _ _ o _
  | Slash o _ _ _ | DecreaseRewards o _ => k = o
  | ChangeDelegate _ _ => account_at ms 3 k
  | _ => False
  end.

(** the checked delegate of an instruction: position of its mining, and wallet *)
Definition delegate_of (i : ix) : option (nat * pubkey) :=
  match i with
  | DepositMining _ _ _ d | WithdrawMining _ _ d | ExtendStake _ _ _ _ _ _ d => Some (3%nat, d)
  | ChangeDelegate _ d => Some (5%nat, d)
  | _ => None
  end.
