(** Who can do what: the vocabulary of C57. *)
From stdpp Require Import gmap.
From Verif Require Import Base State Ledger Program LedgerLemmas LedgerSpec History.

(** [k] signs no instruction of this program in the event *)
Definition silent (k : pubkey) (ev : event) : Prop :=
  match ev with EvIx _ ms _ => ~ signed ms k | EvExt _ => True end.

(** the event names [k] where the program does not check which pool it belongs to: as the
    old delegate (change_delegate.rs 50) or as the mining to close (close_mining.rs 17-33) *)
Definition unchecked (k : pubkey) (ev : event) : Prop :=
  match ev with
  | EvIx _ ms (ChangeDelegate _ _) => account_at ms 4 k
  | EvIx _ ms CloseMining => account_at ms 0 k
  | _ => False
  end.
