(** Distributions one after the other, and comparing two pools: the vocabulary of C67. *)
From stdpp Require Import gmap.
From Verif Require Import Base State Spec Ledger Program LedgerSpec CodecLemmas History.

(** [n] distributions of the pool [P] and nothing else, at the times [l] *)
Inductive distributions (e : env) (P : pubkey) : Z -> ledger -> list Z -> ledger -> Prop :=
| ds_nil now L : distributions e P now L [] L
| ds_cons now L ts ms L1 r l L' :
    now <= ts -> is_u64 ts -> account_at ms 0 P -> exec e ts ms DistributeRewards L = Ok (L1, r) ->
    distributions e P ts L1 l L' -> distributions e P now L (ts :: l) L'.

(** the pool's total weighted stake on day [d], net of the expiries by then *)
Definition weight_on (w : wpool) (d : Z) : Z := p_total (wp w) - due d (wp_diffs w).
