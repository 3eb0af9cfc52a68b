(** What a mining can claim: the vocabulary of C60. *)
From stdpp Require Import gmap.
From Verif Require Import Base State Spec Ledger Program LedgerLemmas LedgerSpec History CodecLemmas SuccessSpec Core LedgerView.

(** At the time [ts] the mining at [k] stands for [x] tokens: it can be brought up to date
    with the history of its pool, and would then hold [x]. *)
Definition worth (e : env) (ts : Z) (L : ledger) (k : pubkey) (x : Z) : Prop :=
  exists w m, is_mining e L k m /\ m_type (wm m) = TYPE_MINING /\
    is_pool e L (m_pool (wm m)) w /\ p_type (wp w) = TYPE_POOL /\
    can_refresh ts (wp_ci w) m /\ x = tokens_at ts (wp_ci w) m.

(** The instruction does not pay out, close or penalise [k], and takes no delegated stake
    from it: [k] is not the delegate of a withdrawal or an extension and not the old
    delegate of a change (naming a mining as its own delegate means having none). *)
Definition spares (k : pubkey) (ms : list meta) (i : ix) : Prop :=
  match i with
  | Claim => ~ account_at ms 3 k
  | CloseMining => ~ account_at ms 0 k
  | DecreaseRewards _ _ => ~ account_at ms 2 k
  | WithdrawMining _ _ _ | ExtendStake _ _ _ _ _ _ _ => account_at ms 3 k -> account_at ms 1 k
  | ChangeDelegate _ _ => account_at ms 4 k -> account_at ms 1 k
  | _ => True
  end.

(** moreover nothing is distributed, and [k] is not given delegated stake *)
Definition leaves_alone (k : pubkey) (ms : list meta) (i : ix) : Prop :=
  spares k ms i /\
  match i with
  | DistributeRewards => False
  | DepositMining _ _ _ _ => account_at ms 3 k -> account_at ms 1 k
  | ChangeDelegate _ _ => account_at ms 5 k -> account_at ms 1 k
  | _ => True
  end.

(** orderly histories all of whose instructions spare [k] *)
Inductive sparing (e : env) (P : pubkey) (D : Z -> op -> core -> Prop) (k : pubkey)
  : Z -> ledger -> Z -> ledger -> Prop :=
| sp_nil now L : sparing e P D k now L now L
| sp_ix now L ts ms i L1 r now' L' :
    now <= ts -> is_u64 ts -> ix_in_range i -> exec e ts ms i L = Ok (L1, r) ->
    orderly_ix e P D now ts ms i L -> spares k ms i ->
    sparing e P D k ts L1 now' L' -> sparing e P D k now L now' L'
| sp_ext now L ts L1 now' L' :
    now <= ts -> is_u64 ts -> external e L L1 -> orderly_ext e P L L1 ->
    sparing e P D k ts L1 now' L' -> sparing e P D k now L now' L'.
