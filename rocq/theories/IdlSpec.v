(** What the documented tables promise (independent of the builders). *)
From Verif Require Import Base OMap State Ledger Program LedgerSpec Codec Clients ClientSpec Idl.

(** the documented list of accounts, filled in *)
Definition documented_metas (who : arole -> pubkey) (i : ix) : list meta :=
  map (fun d => Meta (who (d_role d)) (d_signer d) (d_writable d)) (documented i).

(** the three accounts every client fills in are the real ones *)
Definition standard (e : env) (who : arole -> pubkey) : Prop :=
  who RRent = rent_id e /\ who RTokenProgram = spl_token_id e /\ who RSystemProgram = system_id.

(** the instructions whose documented table is not what the program needs: deposit and
    withdraw (the delegate's mining is shown read-only), extend (a mint the program does not
    read stands third), close (the mining is shown read-only, the pool writable) *)
Definition table_wrong (i : ix) : bool :=
  match i with
  | DepositMining _ _ _ _ | WithdrawMining _ _ _ | ExtendStake _ _ _ _ _ _ _ | CloseMining => true
  | _ => false
  end.

(** whose account stands where: as documented, without the mint of extend *)
Definition wanted_roles (i : ix) : list arole :=
  match i with
  | ExtendStake _ _ _ _ _ _ _ => [RPool; RMining; RDepositAuthority; RDelegateMining]
  | _ => map d_role (documented i)
  end.

(** the input the TypeScript types ask for: signers where the table says signer, plain keys
    elsewhere; [payer], [rent] and the two programs may be left out *)
Definition typed (input : arole -> jsval) (i : ix) : Prop :=
  forall d, In d (documented i) ->
    match input (d_role d) with
    | JKey _ => d_signer d = false
    | JSigner _ => d_signer d = true
    | JNull => In (d_role d) [RPayer; RRent; RTokenProgram; RSystemProgram]
    end.

(** the address an input stands for *)
Definition address (e : env) (payer : pubkey) (input : arole -> jsval) (r : arole) : pubkey :=
  match input r with
  | JKey k | JSigner k => k
  | JNull =>
      match r with
      | RPayer => payer
      | RRent => rent_id e
      | RTokenProgram => spl_token_id e
      | _ => system_id
      end
  end.

(** flags a crate request carries although the instruction does not need them *)
Definition spare_writable (i : ix) : list nat :=
  match i with
  | InitializeMining _ => [0]          (* the pool *)
  | DecreaseRewards _ _ => [1]         (* the pool *)
  | _ => []
  end%nat.
