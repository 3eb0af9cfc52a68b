(** What the events of a ledger may lose of a pool's rewards: the dust of DustSpec.v, event by event. *)
From stdpp Require Import gmap.
From Verif Require Import Base OMap State Spec Core DustSpec Ledger Program LedgerLemmas LedgerSpec CodecLemmas
  History LedgerView.

(** the vault of the pool at [P], once there is a pool (address: utils.rs 37-50) *)
Definition vault_at (e : env) (L : ledger) (P : pubkey) : option pubkey :=
  match data_of L P with
  | DPool w =>
      if (owner_of L P =? program_id e) && (p_type (wp w) =? 1)
      then cpa_vault e P (p_mint (wp w)) (p_bump (wp w)) else None
  | _ => None
  end.

(** what a claim pays back into the vault [V] (accounts: instruction.rs 85-93; the amount is
    the return data, claim.rs 79-81) *)
Definition given_back (V : pubkey) (ms : list meta) (i : ix) (r : option Z) : Z :=
  match i, map mt_key ms, r with
  | Claim, _ :: _ :: _ :: _ :: _ :: _ :: d :: _, Some a => if d =? V then a else 0
  | _, _, _ => 0
  end.

(** in units of 10^-16 token: an instruction for [P] loses the dust of its event and what a
    claim gives back; whatever else adds to the vault gives tokens to nobody *)
Definition ix_loss (e : env) (P : pubkey) (now ts : Z) (ms : list meta) (i : ix) (L L' : ledger) (r : option Z) : Z :=
  match vault_at e L P with
  | None => 0
  | Some V =>
      match op_of e P ms i with
      | Some o => dust ts o (core_of e P V now L) + 10000000000000000 * given_back V ms i r
      | None => 10000000000000000 * (balance L' V - balance L V)
      end
  end.
Definition ext_loss (e : env) (P : pubkey) (L L' : ledger) : Z :=
  match vault_at e L P with
  | None => 0
  | Some V => 10000000000000000 * (balance L' V - balance L V)
  end.

(** the runs of LedgerView.v, with the sum of the losses *)
Inductive losing_run (e : env) (P : pubkey) (D : Z -> op -> core -> Prop)
  : Z -> ledger -> Z -> ledger -> Z -> Prop :=
| lr_nil now L : losing_run e P D now L now L 0
| lr_ix now L ts ms i L1 r now' L' x :
    now <= ts -> is_u64 ts -> ix_in_range i -> exec e ts ms i L = Ok (L1, r) ->
    orderly_ix e P D now ts ms i L ->
    losing_run e P D ts L1 now' L' x ->
    losing_run e P D now L now' L' (ix_loss e P now ts ms i L L1 r + x)
| lr_ext now L ts L1 now' L' x :
    now <= ts -> is_u64 ts -> external e L L1 -> orderly_ext e P L L1 ->
    losing_run e P D ts L1 now' L' x ->
    losing_run e P D now L now' L' (ext_loss e P L L1 + x).
Definition losing (e : env) (P : pubkey) (D : Z -> op -> core -> Prop) (now : Z) (L : ledger) (x : Z) : Prop :=
  exists L0, genesis e L0 /\ (forall k, derived e k -> owner_of L0 k = system_id) /\
    losing_run e P D 0 L0 now L x.
