(** Vocabulary for calls that give a pool account where a mining is expected.
    The positions are those of the account lists in instruction.rs 13-169. *)
From stdpp Require Import gmap.
From Verif Require Import Base OMap State Spec Ledger Program CodecLemmas WfLemmas History LedgerLemmas LedgerSpec Overlay.

(** where a mining is expected that is not compared with its derived address *)
Definition open_position (i : ix) : option nat :=
  match i with
  | Claim => Some 3%nat
  | CloseMining => Some 0%nat
  | ChangeDelegate _ _ => Some 4%nat     (* the old delegate *)
  | _ => None
  end.
(** the call gives the account [k] there *)
Definition gives (ms : list meta) (i : ix) (k : pubkey) : Prop :=
  exists p, open_position i = Some p /\ account_at ms p k.
(** an account that is a mining, or too short to be read as one *)
Definition ordinary (L : ledger) (k : pubkey) : Prop :=
  (exists m, data_of L k = DMining m) \/ data_len (data_of L k) < 1776.

(** how much of the stake of the delegators such a call takes away *)
Definition taken (i : ix) : Z := match i with ChangeDelegate a _ => a | _ => 0 end.

(** the authorities of a pool *)
Definition same_authorities (w w' : wpool) : Prop :=
  p_deposit_auth (wp w') = p_deposit_auth (wp w) /\
  p_distribute_auth (wp w') = p_distribute_auth (wp w) /\ p_fill_auth (wp w') = p_fill_auth (wp w).
(** everything that comes after the index in the account *)
Definition same_rest (w w' : wpool) : Prop :=
  p_total (wp w') = p_total (wp w) /\ p_ends_at (wp w') = p_ends_at (wp w) /\
  p_avail (wp w') = p_avail (wp w) /\ p_bump (wp w') = p_bump (wp w) /\ p_type (wp w') = p_type (wp w) /\
  wp_diffs w' = wp_diffs w.

(** histories (as [step] and [run] of History.v) in which such calls occur as well *)
Inductive wide_step (e : env) (now : Z) (L : ledger) : event -> ledger -> Prop :=
| wide_ix j ts ms i L' r :
    now <= ts -> is_u64 ts -> ix_in_range i -> wide_exec j e ts ms i L = Ok (L', r) ->
    wide_step e now L (EvIx ts ms i) L'
| wide_ext ts L' :
    now <= ts -> is_u64 ts -> external e L L' -> wide_step e now L (EvExt ts) L'.
Inductive wide_run (e : env) : Z -> ledger -> list event -> Z -> ledger -> Prop :=
| wide_nil now L : wide_run e now L [] now L
| wide_cons now L ev L1 evs now' L' :
    wide_step e now L ev L1 -> wide_run e (time_of ev) L1 evs now' L' ->
    wide_run e now L (ev :: evs) now' L'.
(** a history without them *)
Inductive plain_run (e : env) : Z -> ledger -> list event -> Z -> ledger -> Prop :=
| plain_nil now L : plain_run e now L [] now L
| plain_cons now L ev L1 evs now' L' :
    wide_step e now L ev L1 ->
    (forall ts ms i k, ev = EvIx ts ms i -> gives ms i k -> ordinary L k) ->
    plain_run e (time_of ev) L1 evs now' L' ->
    plain_run e now L (ev :: evs) now' L'.

(** who is named deposit authority of a new pool in a history (fifth account of InitializePool) *)
Definition made_authority (evs : list event) (a : pubkey) : Prop :=
  exists ts ms f d, In (EvIx ts ms (InitializePool f d)) evs /\ account_at ms 4 a.
