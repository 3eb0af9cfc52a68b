(** The documented account tables (the #[account(..)] attributes on the instruction enum,
    programs/rewards/src/instruction.rs 17-170; idls/mplx_rewards.json has the same tables)
    and the request builders generated from them (clients/rust, clients/js). *)
From Verif Require Import Base OMap State Ledger Program Codec Clients.

(** the account names used in the attributes, instruction.rs 17-170 *)
Inductive arole :=
| RPool | RMint | RVault | RPayer | RDepositAuthority | RFillAuthority | RDistributeAuthority
| RSource | RRent | RTokenProgram | RSystemProgram | RMining | RDelegateMining | ROwner
| ROwnerToken | RTarget | ROldDelegateMining | RNewDelegateMining.

(** one #[account(n, writable?, signer?, name)] attribute; n is the place in the list *)
Record doc := Doc { d_role : arole; d_writable : bool; d_signer : bool }.

(** instruction.rs 17-170; idls/mplx_rewards.json 4-703 *)
Definition documented (i : ix) : list doc :=
  match i with
  | InitializePool _ _ =>               (* 18-25 *)
      [Doc RPool true false; Doc RMint false false; Doc RVault true false;
       Doc RPayer true true; Doc RDepositAuthority false true; Doc RRent false false;
       Doc RTokenProgram false false; Doc RSystemProgram false false]
  | FillVault _ _ =>                    (* 33-38 *)
      [Doc RPool true false; Doc RMint false false; Doc RVault true false;
       Doc RFillAuthority false true; Doc RSource true false; Doc RTokenProgram false false]
  | InitializeMining _ =>               (* 47-50 *)
      [Doc RPool true false; Doc RMining true false; Doc RPayer true true;
       Doc RSystemProgram false false]
  | DepositMining _ _ _ _ =>            (* 57-60 *)
      [Doc RPool true false; Doc RMining true false; Doc RDepositAuthority false true;
       Doc RDelegateMining false false]
  | WithdrawMining _ _ _ =>             (* 72-75 *)
      [Doc RPool true false; Doc RMining true false; Doc RDepositAuthority false true;
       Doc RDelegateMining false false]
  | Claim =>                            (* 85-92 *)
      [Doc RPool false false; Doc RMint false false; Doc RVault true false;
       Doc RMining true false; Doc ROwner false true; Doc RDepositAuthority false true;
       Doc ROwnerToken true false; Doc RTokenProgram false false]
  | ExtendStake _ _ _ _ _ _ _ =>        (* 96-100 *)
      [Doc RPool true false; Doc RMining true false; Doc RMint false false;
       Doc RDepositAuthority false true; Doc RDelegateMining false false]
  | DistributeRewards =>                (* 123-124 *)
      [Doc RPool true false; Doc RDistributeAuthority false true]
  | CloseMining =>                      (* 128-132 *)
      [Doc RMining false false; Doc ROwner false true; Doc RTarget true false;
       Doc RDepositAuthority false true; Doc RPool true false]
  | ChangeDelegate _ _ =>               (* 136-141 *)
      [Doc RPool true false; Doc RMining true false; Doc RDepositAuthority false true;
       Doc ROwner false true; Doc ROldDelegateMining true false; Doc RNewDelegateMining true false]
  | Slash _ _ _ _ =>                    (* 148-150 *)
      [Doc RDepositAuthority false true; Doc RPool true false; Doc RMining true false]
  | DecreaseRewards _ _ =>              (* 161-163 *)
      [Doc RDepositAuthority false true; Doc RPool true false; Doc RMining true false]
  end.

(** ** The crate's builders under the names of their parameters (instruction.rs 173-508).
    The rent sysvar, the token program and the system program are filled in by the
    builder.  Pubkey arguments that end up in the data are taken from [i]. *)
Definition crate_request (e : env) (who : arole -> pubkey) (i : ix) : list meta * ix :=
  match i with
  | InitializePool f d =>
      b_initialize_pool e (who RPool) (who RMint) (who RVault) (who RPayer)
        (who RDepositAuthority) f d
  | FillVault r x =>
      b_fill_vault e (who RPool) (who RMint) (who RVault) (who RFillAuthority) (who RSource) r x
  | InitializeMining o => b_initialize_mining (who RPool) (who RMining) (who RPayer) o
  | DepositMining a p o d =>
      b_deposit (who RPool) (who RMining) (who RDepositAuthority) (who RDelegateMining) a p o d
  | WithdrawMining a o d =>
      b_withdraw (who RPool) (who RMining) (who RDepositAuthority) (who RDelegateMining) a o d
  | Claim =>
      b_claim e (who RPool) (who RMint) (who RVault) (who RMining) (who ROwner)
        (who RDepositAuthority) (who ROwnerToken)
  | ExtendStake op np s b a o d =>
      b_extend (who RPool) (who RMining) (who RDepositAuthority) (who RDelegateMining)
        op np s b a o d
  | DistributeRewards => b_distribute (who RPool) (who RDistributeAuthority)
  | CloseMining =>
      b_close (who RMining) (who ROwner) (who RTarget) (who RDepositAuthority) (who RPool)
  | ChangeDelegate a n =>
      b_change (who RPool) (who RMining) (who RDepositAuthority) (who ROwner)
        (who ROldDelegateMining) (who RNewDelegateMining) n a
  | Slash o n w d => b_slash (who RDepositAuthority) (who RPool) (who RMining) o n w d
  | DecreaseRewards o n => b_decrease (who RDepositAuthority) (who RPool) (who RMining) o n
  end.

(** ** The generated Rust client *)

(** clients/rust/src/generated/instructions/*.rs, fn instruction_with_remaining_accounts
    (initialize_pool.rs 40-75, fill_vault.rs 35-64, initialize_mining.rs 32-53,
    deposit_mining.rs 33-55, withdraw_mining.rs 32-54, claim.rs 36-72, extend_stake.rs 35-61,
    distribute_rewards.rs 24-37, close_mining.rs 30-55, change_delegate.rs 36-66,
    slash.rs 30-48, decrease_rewards.rs 30-48); the Cpi structs build the same list.
    [who] are the fields of the accounts struct, [rest] the remaining accounts. *)
Definition rust_accounts (who : arole -> pubkey) (rest : list meta) (i : ix) : list meta :=
  match i with
  | InitializePool _ _ =>
      [mw (who RPool) false; mr (who RMint) false; mw (who RVault) false; mw (who RPayer) true;
       mr (who RDepositAuthority) true; mr (who RRent) false; mr (who RTokenProgram) false;
       mr (who RSystemProgram) false]
  | FillVault _ _ =>
      [mw (who RPool) false; mr (who RMint) false; mw (who RVault) false;
       mr (who RFillAuthority) true; mw (who RSource) false; mr (who RTokenProgram) false]
  | InitializeMining _ =>
      [mw (who RPool) false; mw (who RMining) false; mw (who RPayer) true;
       mr (who RSystemProgram) false]
  | DepositMining a p o d =>
      fst (g_deposit (who RPool) (who RMining) (who RDepositAuthority) (who RDelegateMining) a p o d)
  | WithdrawMining a o d =>
      fst (g_withdraw (who RPool) (who RMining) (who RDepositAuthority) (who RDelegateMining) a o d)
  | Claim =>
      [mr (who RPool) false; mr (who RMint) false; mw (who RVault) false; mw (who RMining) false;
       mr (who ROwner) true; mr (who RDepositAuthority) true; mw (who ROwnerToken) false;
       mr (who RTokenProgram) false]
  | ExtendStake op np s b a o d =>
      fst (g_extend (who RPool) (who RMining) (who RMint) (who RDepositAuthority)
             (who RDelegateMining) op np s b a o d)
  | DistributeRewards => [mw (who RPool) false; mr (who RDistributeAuthority) true]
  | CloseMining =>
      fst (g_close (who RMining) (who ROwner) (who RTarget) (who RDepositAuthority) (who RPool))
  | ChangeDelegate _ _ =>
      [mw (who RPool) false; mw (who RMining) false; mr (who RDepositAuthority) true;
       mr (who ROwner) true; mw (who ROldDelegateMining) false; mw (who RNewDelegateMining) false]
  | Slash _ _ _ _ | DecreaseRewards _ _ =>
      [mr (who RDepositAuthority) true; mw (who RPool) false; mw (who RMining) false]
  end ++ rest.

(** the defaults of the builders: initialize_pool.rs 228-235, fill_vault.rs 200-202,
    initialize_mining.rs 158-160, claim.rs 210-212 *)
Definition rust_default (e : env) (r : arole) : option pubkey :=
  match r with
  | RRent => Some (rent_id e)
  | RTokenProgram => Some (spl_token_id e)
  | RSystemProgram => Some system_id
  | _ => None
  end.

(** a field of a builder: .unwrap_or(default), or .expect("... is not set") *)
Definition rust_field (e : env) (set : arole -> option pubkey) (r : arole) : option pubkey :=
  match set r with Some k => Some k | None => rust_default e r end.

(** the accounts a builder has fields for *)
Definition rust_fields (i : ix) : list arole :=
  match i with
  | InitializePool _ _ =>   (* initialize_pool.rs 220-238 *)
      [RPool; RMint; RVault; RPayer; RDepositAuthority; RRent; RTokenProgram; RSystemProgram]
  | FillVault _ _ =>        (* fill_vault.rs 192-203 *)
      [RPool; RMint; RVault; RFillAuthority; RSource; RTokenProgram]
  | InitializeMining _ => [RPool; RMining; RPayer; RSystemProgram]
  | DepositMining _ _ _ _ | WithdrawMining _ _ _ =>
      [RPool; RMining; RDepositAuthority; RDelegateMining]
  | Claim =>
      [RPool; RMint; RVault; RMining; ROwner; RDepositAuthority; ROwnerToken; RTokenProgram]
  | ExtendStake _ _ _ _ _ _ _ => [RPool; RMining; RMint; RDepositAuthority; RDelegateMining]
  | DistributeRewards => [RPool; RDistributeAuthority]
  | CloseMining => [RMining; ROwner; RTarget; RDepositAuthority; RPool]
  | ChangeDelegate _ _ =>
      [RPool; RMining; RDepositAuthority; ROwner; ROldDelegateMining; RNewDelegateMining]
  | Slash _ _ _ _ | DecreaseRewards _ _ => [RDepositAuthority; RPool; RMining]
  end.

(** the fn instruction of each builder (initialize_pool.rs 219-251, ...); None is the panic
    of expect.  The arguments of [i] are taken as set. *)
Definition rust_builder (e : env) (set : arole -> option pubkey) (rest : list meta) (i : ix)
  : option (list meta) :=
  if forallb (fun r => match rust_field e set r with Some _ => true | None => false end)
       (rust_fields i)
  then Some (rust_accounts
               (fun r => match rust_field e set r with Some k => k | None => 0 end) rest i)
  else None.

(** ** The generated JavaScript client *)

(** PublicKey | Pda, Signer, or null: clients/js/src/generated/shared/index.ts 65-68 *)
Inductive jsval := JKey (k : pubkey) | JSigner (k : pubkey) | JNull.

(** getAccountMetasAndSigners with the strategy 'programId', shared/index.ts 88-115; the list
    of signers it returns as well is the keys with isSigner set *)
Definition js_meta (e : env) (a : jsval * bool) : meta :=
  match fst a with
  | JKey k => Meta k false (snd a)
  | JSigner k => Meta k true (snd a)
  | JNull => Meta (program_id e) false false
  end.

(** resolvedAccounts of each function, in index order: initializePool.ts 101-138,
    fillVault.ts 94-125, initializeMining.ts 88-109, depositMining.ts 105-126,
    withdrawMining.ts 97-118, claim.ts 78-119, extendStake.ts 113-139,
    distributeRewards.ts 73-84, closeMining.ts 75-101, changeDelegate.ts 98-129,
    slash.ts 94-110, decreaseRewards.ts 92-108: the account and its isWritable *)
Definition js_resolved (i : ix) : list (arole * bool) :=
  match i with
  | InitializePool _ _ =>
      [(RPool, true); (RMint, false); (RVault, true); (RPayer, true); (RDepositAuthority, false);
       (RRent, false); (RTokenProgram, false); (RSystemProgram, false)]
  | FillVault _ _ =>
      [(RPool, true); (RMint, false); (RVault, true); (RFillAuthority, false); (RSource, true);
       (RTokenProgram, false)]
  | InitializeMining _ => [(RPool, true); (RMining, true); (RPayer, true); (RSystemProgram, false)]
  | DepositMining _ _ _ _ | WithdrawMining _ _ _ =>
      [(RPool, true); (RMining, true); (RDepositAuthority, false); (RDelegateMining, false)]
  | Claim =>
      [(RPool, false); (RMint, false); (RVault, true); (RMining, true); (ROwner, false);
       (RDepositAuthority, false); (ROwnerToken, true); (RTokenProgram, false)]
  | ExtendStake _ _ _ _ _ _ _ =>
      [(RPool, true); (RMining, true); (RMint, false); (RDepositAuthority, false);
       (RDelegateMining, false)]
  | DistributeRewards => [(RPool, true); (RDistributeAuthority, false)]
  | CloseMining =>
      [(RMining, false); (ROwner, false); (RTarget, true); (RDepositAuthority, false);
       (RPool, true)]
  | ChangeDelegate _ _ =>
      [(RPool, true); (RMining, true); (RDepositAuthority, false); (ROwner, false);
       (ROldDelegateMining, true); (RNewDelegateMining, true)]
  | Slash _ _ _ _ | DecreaseRewards _ _ =>
      [(RDepositAuthority, false); (RPool, true); (RMining, true)]
  end.

(** the default values: initializePool.ts 143-166, fillVault.ts 130-138,
    initializeMining.ts 114-125, claim.ts 121-129.  [payer] is context.payer;
    context.programs is taken to know the usual token and system programs. *)
Definition js_value (e : env) (payer : pubkey) (input : arole -> jsval) (r : arole) : jsval :=
  match input r with
  | JNull =>
      match r with
      | RPayer => JSigner payer
      | RRent => JKey (rent_id e)
      | RTokenProgram => JKey (spl_token_id e)
      | RSystemProgram => JKey system_id
      | _ => JNull
      end
  | v => v
  end.

(** the keys of the instruction, same files *)
Definition js_accounts (e : env) (payer : pubkey) (input : arole -> jsval) (i : ix) : list meta :=
  map (fun x => js_meta e (js_value e payer input (fst x), snd x)) (js_resolved i).
