(** What an instruction's list of accounts has to look like. *)
From Verif Require Import Base OMap State Ledger Program LedgerLemmas LedgerSpec Clients.

(** the positions that have to sign, after the account comments of instruction.rs 16-170 *)
Definition must_sign (i : ix) : list nat :=
  match i with
  | InitializePool _ _ => [3; 4]           (* payer, deposit authority *)
  | FillVault _ _ => [3]                   (* fill authority *)
  | InitializeMining _ => [2]              (* payer *)
  | DepositMining _ _ _ _ | WithdrawMining _ _ _ | ExtendStake _ _ _ _ _ _ _ => [2]
  | Claim => [4; 5]                        (* mining owner, deposit authority *)
  | DistributeRewards => [1]               (* distribute authority *)
  | CloseMining => [1; 3]                  (* mining owner, deposit authority *)
  | ChangeDelegate _ _ => [2; 3]           (* deposit authority, mining owner *)
  | Slash _ _ _ _ | DecreaseRewards _ _ => [0]
  end%nat.

(** how many accounts are read, after the same comments *)
Definition arity (i : ix) : nat :=
  match i with
  | InitializePool _ _ | Claim => 8
  | FillVault _ _ | ChangeDelegate _ _ => 6
  | InitializeMining _ | DepositMining _ _ _ _ | WithdrawMining _ _ _ | ExtendStake _ _ _ _ _ _ _ => 4
  | DistributeRewards => 2
  | CloseMining => 5
  | Slash _ _ _ _ | DecreaseRewards _ _ => 3
  end.

(** the accounts [ms] presents carry every flag the instruction needs *)
Definition flags_suffice (i : ix) (ms : list meta) : Prop :=
  (forall n k, In n (must_sign i) -> account_at ms n k -> signed ms k) /\
  (forall n k, In n (may_change i) -> account_at ms n k -> writable ms k).

(** both lists present the same accounts in the positions the instruction reads *)
Definition same_accounts (i : ix) (ms ms' : list meta) : Prop :=
  forall n k, (n < arity i)%nat -> account_at ms n k -> account_at ms' n k.

(** the crate's builders: instruction.rs 173-508 *)
Inductive built (e : env) : list meta -> ix -> Prop :=
| built_initialize_pool pool mint vault payer auth f d :
    built e (fst (b_initialize_pool e pool mint vault payer auth f d)) (InitializePool f d)
| built_fill_vault pool mint vault auth from r x :
    built e (fst (b_fill_vault e pool mint vault auth from r x)) (FillVault r x)
| built_initialize_mining pool mining payer o :
    built e (fst (b_initialize_mining pool mining payer o)) (InitializeMining o)
| built_deposit pool mining auth dm a p o d :
    built e (fst (b_deposit pool mining auth dm a p o d)) (DepositMining a p o d)
| built_withdraw pool mining auth dm a o d :
    built e (fst (b_withdraw pool mining auth dm a o d)) (WithdrawMining a o d)
| built_claim pool mint vault mining owner auth dest :
    built e (fst (b_claim e pool mint vault mining owner auth dest)) Claim
| built_extend pool mining auth dm op np s b a o d :
    built e (fst (b_extend pool mining auth dm op np s b a o d)) (ExtendStake op np s b a o d)
| built_distribute pool auth :
    built e (fst (b_distribute pool auth)) DistributeRewards
| built_close mining owner target auth pool :
    built e (fst (b_close mining owner target auth pool)) CloseMining
| built_change pool mining auth owner old_dm new_dm n a :
    built e (fst (b_change pool mining auth owner old_dm new_dm n a)) (ChangeDelegate a n)
| built_slash auth pool mining o n w d :
    built e (fst (b_slash auth pool mining o n w d)) (Slash o n w d)
| built_decrease auth pool mining o n :
    built e (fst (b_decrease auth pool mining o n)) (DecreaseRewards o n).

