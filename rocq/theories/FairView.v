(** What the minings of a pool get and should get in a history of a ledger: FairSpec.v, event by event. *)
From stdpp Require Import gmap.
From Verif Require Import Base OMap State Spec Core DustSpec FairSpec Ledger Program LedgerLemmas LedgerSpec CodecLemmas
  History LedgerView LossView.

(** what a claim for the mining [k] returns (accounts: instruction.rs 85-93; return data: claim.rs 79-81) *)
Definition claimed (ms : list meta) (i : ix) (r : option Z) (k : pubkey) : Z :=
  match i, map mt_key ms, r with
  | Claim, _ :: _ :: _ :: m :: _, Some a => if m =? k then a else 0
  | _, _, _ => 0
  end.

(** an instruction for [P] adds to the tally of the mining [k] *)
Definition ix_tally (e : env) (P : pubkey) (now ts : Z) (ms : list meta) (i : ix) (L L' : ledger) (r : option Z)
    (k : pubkey) (x : tally) : tally :=
  match vault_at e L P with
  | None => x
  | Some V =>
      match op_of e P ms i with
      | Some o =>
          Tally (t_paid x + claimed ms i r k)
            (t_fair x + fair_share ts o (core_of e P V now L) (core_of e P V ts L') k)
            (t_lost x + rounding ts o (core_of e P V now L) k)
      | None => x
      end
  end.

(** the runs of LedgerView.v, with a tally for every address *)
Inductive earning_run (e : env) (P : pubkey) (D : Z -> op -> core -> Prop)
  : Z -> ledger -> (pubkey -> tally) -> Z -> ledger -> (pubkey -> tally) -> Prop :=
| er_nil now L x : earning_run e P D now L x now L x
| er_ix now L x ts ms i L1 r now' L' x' :
    now <= ts -> is_u64 ts -> ix_in_range i -> exec e ts ms i L = Ok (L1, r) ->
    orderly_ix e P D now ts ms i L ->
    earning_run e P D ts L1 (fun k => ix_tally e P now ts ms i L L1 r k (x k)) now' L' x' ->
    earning_run e P D now L x now' L' x'
| er_ext now L x ts L1 now' L' x' :
    now <= ts -> is_u64 ts -> external e L L1 -> orderly_ext e P L L1 ->
    earning_run e P D ts L1 x now' L' x' ->
    earning_run e P D now L x now' L' x'.
Definition earning (e : env) (P : pubkey) (D : Z -> op -> core -> Prop) (now : Z) (L : ledger) (x : pubkey -> tally) : Prop :=
  exists L0, genesis e L0 /\ (forall k, derived e k -> owner_of L0 k = system_id) /\
    earning_run e P D 0 L0 (fun _ => no_tally) now L x.
