(** What a mining takes over a history: the vocabulary of C79. *)
From stdpp Require Import gmap.
From Verif Require Import Base State Spec EffectSpec Ledger Program LedgerLemmas LedgerSpec CodecLemmas History.

(** what a successful call that returns [r] pays for the mining [k] *)
Definition takes (k : pubkey) (ms : list meta) (i : ix) (r : option Z) : Z :=
  match i, nth_error (map mt_key ms) 3, r with
  | Claim, Some q, Some x => if q =? k then x else 0
  | _, _, _ => 0
  end.

(** [k] is an initialised mining with at most [s] weighted stake of its own and at most [d]
    delegated to it *)
Definition within (e : env) (s d : Z) (k : pubkey) (L : ledger) : Prop :=
  exists m, is_mining e L k m /\ m_type (wm m) = TYPE_MINING /\ m_share (wm m) <= s /\ m_sfo (wm m) <= d.

(** histories in which that holds all along, with the tokens paid for [k] in them *)
Inductive taken (e : env) (s d : Z) (k : pubkey) : Z -> ledger -> list event -> Z -> ledger -> Z -> Prop :=
| tk_nil now L : within e s d k L -> taken e s d k now L [] now L 0
| tk_ix now L ts ms i L1 r evs now' L' x :
    within e s d k L -> now <= ts -> is_u64 ts -> ix_in_range i -> exec e ts ms i L = Ok (L1, r) ->
    taken e s d k ts L1 evs now' L' x ->
    taken e s d k now L (EvIx ts ms i :: evs) now' L' (takes k ms i r + x)
| tk_ext now L ts L1 evs now' L' x :
    within e s d k L -> now <= ts -> is_u64 ts -> external e L L1 ->
    taken e s d k ts L1 evs now' L' x ->
    taken e s d k now L (EvExt ts :: evs) now' L' x.

(** [x] tokens or less go to [m], counting what is kept for it, on its way to [m'] *)
Definition capped (s d : Z) (m : wmining) (x : Z) (m' : wmining) : Prop :=
  m_index (wm m) <= m_index (wm m') /\
  10000000000000000 * (x + m_unclaimed (wm m') - m_unclaimed (wm m)) <= (s + d) * (m_index (wm m') - m_index (wm m)).
