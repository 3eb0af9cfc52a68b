(** Vocabulary for what calls that give a longer account can have damaged. *)
From stdpp Require Import gmap.
From Verif Require Import Base OMap State Ledger Program LedgerLemmas LedgerSpec History Overlay OverlaySpec.

(** the call names the account *)
Definition names (ms : list meta) (k : pubkey) : Prop := In k (map mt_key ms).
(** it names no account of the set, and gives an ordinary account where a mining is expected *)
Definition clean_call (T : pubkey -> bool) (L : ledger) (ms : list meta) (i : ix) : Prop :=
  (forall k, names ms k -> T k = false) /\ (forall k, gives ms i k -> ordinary L k).
(** an account of the program (before or after) that a call changed which is not so *)
Definition hit (e : env) (L : ledger) (T : pubkey -> bool) (ev : event) (L1 : ledger) (k : pubkey) : Prop :=
  match ev with
  | EvIx _ ms i => ~ clean_call T L ms i /\ acc L1 k <> acc L k /\
      (owner_of L k = program_id e \/ owner_of L1 k = program_id e)
  | EvExt _ => False
  end.
(** histories (as [wide_run]) with the set of the accounts hit so far *)
Inductive spread (e : env) : Z -> ledger -> (pubkey -> bool) -> list event -> Z -> ledger -> (pubkey -> bool) -> Prop :=
| spread_nil now L T : spread e now L T [] now L T
| spread_cons now L T ev L1 T1 evs now' L' T' :
    wide_step e now L ev L1 ->
    (forall k, T1 k = true <-> T k = true \/ hit e L T ev L1 k) ->
    spread e (time_of ev) L1 T1 evs now' L' T' ->
    spread e now L T (ev :: evs) now' L' T'.
(** the same accounts outside the set *)
Definition same_outside (T : pubkey -> bool) (L M : ledger) : Prop :=
  forall k, T k = false -> acc L k = acc M k.
(** the empty set *)
Definition nobody : pubkey -> bool := fun _ => false.
