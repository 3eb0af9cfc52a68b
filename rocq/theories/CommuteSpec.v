(** Vocabulary for the order of calls (claim C55). *)
From Verif Require Import Base State Spec Ledger Program LedgerSpec.

(** the instruction leaves alone the rewards handed out by its pool so far and the set-up of
    the pool: every instruction except InitializePool and DistributeRewards *)
Definition no_payout (i : ix) : Prop :=
  match i with InitializePool _ _ | DistributeRewards => False | _ => True end.

(** Two calls do not meddle with each other: an account both may change can only be the pool
    of both, and if they name the same pool then neither sets it up or hands out rewards. *)
Definition unrelated (ms : list meta) (i : ix) (ms' : list meta) (j : ix) : Prop :=
  (forall n n' k, In n (may_change i) -> account_at ms n k -> In n' (may_change j) -> account_at ms' n' k ->
     n = pool_position i /\ n' = pool_position j) /\
  (forall P, account_at ms (pool_position i) P -> account_at ms' (pool_position j) P ->
     no_payout i /\ no_payout j).

(** the pool has room for two more expiry dates *)
Definition room_for_two (e : env) (L : ledger) (P : pubkey) : Prop :=
  forall w, is_pool e L P w -> Z.of_nat (length (wp_diffs w)) <= 363.
