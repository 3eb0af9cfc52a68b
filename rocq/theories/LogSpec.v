(** Claim C85: the log of a pool, from which it and its minings can be worked out. *)
From stdpp Require Import gmap.
From Verif Require Import Base State Spec EffectSpec Ledger Program LedgerLemmas LedgerSpec CodecLemmas History HistoryThms FreezeSpec CapSpec IncomeSpec DiarySpec.

(** does the instruction change the pool it names? *)
Definition writes_pool (i : ix) : bool :=
  match i with
  | FillVault _ _ | DepositMining _ _ _ _ | WithdrawMining _ _ _ | ExtendStake _ _ _ _ _ _ _ | DistributeRewards
  | ChangeDelegate _ _ | Slash _ _ _ _ => true
  | InitializePool _ _ | InitializeMining _ | Claim | CloseMining | DecreaseRewards _ _ => false
  end.
(** is the account at place [n] another than the mining at place 1, and so a delegate? *)
Definition aside (ms : list meta) (n : nat) : bool :=
  match nth_error (map mt_key ms) 1, nth_error (map mt_key ms) n with
  | Some q, Some d => negb (q =? d)
  | _, _ => false
  end.
Definition delegates (ms : list meta) (i : ix) : list bool :=
  match i with
  | DepositMining _ _ _ _ | WithdrawMining _ _ _ | ExtendStake _ _ _ _ _ _ _ => [aside ms 3]
  | ChangeDelegate _ _ => [aside ms 4; aside ms 5]
  | _ => []
  end.

(** An entry of a pool's log: time, instruction and amounts, and whether delegates take part.
    Nothing that is stored on the chain. *)
Definition entry : Type := Z * ix * list bool.
Definition logged (P : pubkey) (ts : Z) (ms : list meta) (i : ix) : list entry :=
  if writes_pool i && names ms (pool_position i) P then [(ts, gist i, delegates ms i)] else [].

Definition running (e : env) (P : pubkey) (L : ledger) : Prop := exists w, is_pool e L P w /\ p_type (wp w) = 1.

(** histories during which the pool [P] is initialised, with its log *)
Inductive pool_log (e : env) (P : pubkey) : Z -> ledger -> Z -> ledger -> list entry -> Prop :=
| pl_nil now L : running e P L -> pool_log e P now L now L []
| pl_ix now L ts ms i L1 r now' L' b :
    running e P L -> now <= ts -> is_u64 ts -> ix_in_range i -> exec e ts ms i L = Ok (L1, r) ->
    pool_log e P ts L1 now' L' b -> pool_log e P now L now' L' (logged P ts ms i ++ b)
| pl_ext now L ts L1 now' L' b :
    running e P L -> now <= ts -> is_u64 ts -> external e L L1 ->
    pool_log e P ts L1 now' L' b -> pool_log e P now L now' L' b.

(** pools that differ at most in authorities, mint, bump and account type *)
Definition pools_alike (v w : wpool) : Prop :=
  p_index (wp v) = p_index (wp w) /\ p_total (wp v) = p_total (wp w) /\ p_ends_at (wp v) = p_ends_at (wp w) /\
  p_avail (wp v) = p_avail (wp w) /\ wp_diffs v = wp_diffs w /\ wp_ci v = wp_ci w.

(** The log of a pool [P] with one of its minings [k]: every entry also tells the places of [k]. *)
Definition full_entry : Type := Z * ix * list bool * list nat.
Definition logged_with (P k : pubkey) (ts : Z) (ms : list meta) (i : ix) : list full_entry :=
  if names ms (pool_position i) P then
    match writes_pool i, places k ms i with
    | false, [] => []
    | _, l => [(ts, gist i, delegates ms i, l)]
    end
  else [].
Inductive full_log (e : env) (P k : pubkey) : Z -> ledger -> Z -> ledger -> list full_entry -> Z -> Prop :=
| fl_nil now L : running e P L -> open e k L -> full_log e P k now L now L [] 0
| fl_ix now L ts ms i L1 r now' L' b x :
    running e P L -> open e k L -> now <= ts -> is_u64 ts -> ix_in_range i -> exec e ts ms i L = Ok (L1, r) ->
    (* no other pool's call works on [k] *)
    (places k ms i = [] \/ names ms (pool_position i) P = true) ->
    full_log e P k ts L1 now' L' b x -> full_log e P k now L now' L' (logged_with P k ts ms i ++ b) (takes k ms i r + x)
| fl_ext now L ts L1 now' L' b x :
    running e P L -> open e k L -> now <= ts -> is_u64 ts -> external e L L1 ->
    full_log e P k ts L1 now' L' b x -> full_log e P k now L now' L' b x.
