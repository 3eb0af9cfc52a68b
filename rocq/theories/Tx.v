(** Transactions as the chain carries them: calls of this program with raw data, in any
    order and number, with anything else in between, all or nothing.  Models the runtime
    (dependency solana-program / solana-runtime) around entrypoint.rs 8-21. *)
From stdpp Require Import gmap.
From Verif Require Import Base OMap State Ledger Program Codec CodecLemmas History.

(** one part of a transaction: a call of this program (entrypoint.rs 9-13: accounts and
    data), directly or from another program, or anything else *)
Inductive item :=
| Call (ms : list meta) (data : bytes)
| Other.

(** the parts of a transaction succeed one after the other, all at one clock time
    (utils.rs 288-292).  Instruction data are bytes. *)
Inductive performs (e : env) (ts : Z) : ledger -> list item -> ledger -> Prop :=
| pf_nil L : performs e ts L [] L
| pf_call ms data L L1 r rest L' :
    Forall byte data -> exec_bytes e ts ms data L = Ok (L1, r) -> performs e ts L1 rest L' ->
    performs e ts L (Call ms data :: rest) L'
| pf_other L L1 rest L' :
    external e L L1 -> performs e ts L1 rest L' -> performs e ts L (Other :: rest) L'.

(** a transaction at a time *)
Definition tx := (Z * list item)%type.

(** either every part succeeds, or nothing changes.  Any transaction may also fail, for
    reasons of the runtime's own (the compute budget, a fee). *)
Inductive settles (e : env) (now : Z) (L : ledger) : tx -> ledger -> Prop :=
| st_done ts items L' : now <= ts -> is_u64 ts -> performs e ts L items L' -> settles e now L (ts, items) L'
| st_failed ts items : now <= ts -> is_u64 ts -> settles e now L (ts, items) L.

(** the chain *)
Inductive chain (e : env) : Z -> ledger -> list tx -> Z -> ledger -> Prop :=
| ch_nil now L : chain e now L [] now L
| ch_cons now L t L1 txs now' L' :
    settles e now L t L1 -> chain e (fst t) L1 txs now' L' -> chain e now L (t :: txs) now' L'.

(** [k] signs no call of this program in the transaction *)
Definition tx_silent (k : pubkey) (t : tx) : Prop :=
  forall ms data, In (Call ms data) (snd t) -> ~ exists m, In m ms /\ mt_key m = k /\ mt_signer m = true.
