(** Claim C82: one mining's account.  What it has been paid and can still get, and what every
    instruction adds to that, in units of 10^-16 token.  In the vocabulary of Spec.v and
    EffectSpec.v; from the documented effects (programs/rewards/src/instruction.rs 13-169). *)
From stdpp Require Import gmap.
From Verif Require Import Base State Spec EffectSpec DustSpec SuccessSpec Ledger Program LedgerLemmas LedgerSpec CodecLemmas History CapSpec DebtSpec.

(** the [n]-th account of a call is [k] *)
Definition names (ms : list meta) (n : nat) (k : pubkey) : bool :=
  match nth_error (map mt_key ms) n with Some q => q =? k | None => false end.

(** The rise of the index by one distribution of [w], and the part of it above [j]. *)
Definition rise (ts : Z) (w : wpool) : Z :=
  if recorded ts w then 0
  else if unfilled w then 10000000000000000 * part ts w / net ts w else 0.
Definition rise_above (j ts : Z) (w : wpool) : Z :=
  let i := last_from 0 (wp_ci w) in Z.max (i + rise ts w) j - Z.max i j.

(** What a call for pool [P] (with data [w]) adds to the account of its mining [k] (with data [m]). *)
Definition adds_to (ts : Z) (w : wpool) (m : wmining) (k : pubkey) (ms : list meta) (i : ix) : Z :=
  let lt := late ts (wp_ci w) in let behind := seen ts (wp_ci w) - m_index (wm m) in
  match i with
  | DepositMining a p _ _ =>
      if names ms 1 k then a * weight_of p * lt else if names ms 3 k then a * behind else 0
  | WithdrawMining a _ _ =>
      if names ms 1 k then - (a * lt) else if names ms 3 k then - (a * behind) else 0
  | ExtendStake op np start b a _ _ =>
      if names ms 1 k then ((b + a) * weight_of np - counted op start ts b) * lt
      else if names ms 3 k then (b + a) * lt - b * behind else 0
  | ChangeDelegate a _ =>
      if names ms 1 k then 0 else if names ms 4 k then - (a * behind)
      else if names ms 5 k then a * behind else 0
  | Slash _ _ x _ => if names ms 2 k then - (x * lt) else 0
  | DecreaseRewards _ n =>
      if names ms 2 k then
        accrual (m_index (wm m))
          (fun d => Z.min n (total (wm_diffs m)) - Z.min n (total (after d (wm_diffs m))) - n) (wp_ci w)
      else 0
  | DistributeRewards => rise_above (m_index (wm m)) ts w * eff m (day_start ts)
  | _ => 0
  end.

(** A call for another pool that names [k] as the old delegate (finding C45): [k] gets, on
    stake lowered by [a], what the other pool's history [cq] gives for the time until now and
    what [k]'s own history [ci] has above the other's index, instead of what its own has. *)
Definition strike_adds (ts a : Z) (cq ci : sched) (m : wmining) : Z :=
  accrual (m_index (wm m)) (fun d => eff m d - a) (before ts cq)
  + accrual (visible ts cq) (fun d => eff m (Z.max d (day_start ts)) - a) ci
  - accrual (m_index (wm m)) (eff m) ci.

(** what any call adds to the account of the mining [k] of [P] *)
Definition call_adds (e : env) (P k : pubkey) (ts : Z) (ms : list meta) (i : ix) (L : ledger) : Z :=
  match data_of L P, data_of L k with
  | DPool w, DMining m =>
      if names ms (pool_position i) P then adds_to ts w m k ms i
      else match i, nth_error (map mt_key ms) 0 with
           | ChangeDelegate a _, Some Q =>
               match data_of L Q with
               | DPool wq => if names ms 4 k then strike_adds ts a (wp_ci wq) (wp_ci w) m else 0
               | _ => 0
               end
           | _, _ => 0
           end
  | _, _ => 0
  end.

(** the call brings [k] up to date *)
Definition refreshes (k : pubkey) (ms : list meta) (i : ix) : bool :=
  match i with
  | DepositMining _ _ _ _ | WithdrawMining _ _ _ | ExtendStake _ _ _ _ _ _ _ => names ms 1 k || names ms 3 k
  | ChangeDelegate _ _ => names ms 1 k || names ms 4 k || names ms 5 k
  | Slash _ _ _ _ => names ms 2 k
  | Claim => names ms 3 k
  | _ => false
  end.
(** what it may round away: less than a token for every expiry it applies and less than one more *)
Definition call_slack (k : pubkey) (ts : Z) (ms : list meta) (i : ix) (L : ledger) : Z :=
  match data_of L k with
  | DMining m =>
      if refreshes k ms i then (10000000000000000 - 1) * (1 + count_due (day_start ts) (wm_diffs m)) else 0
  | _ => 0
  end.

(** [k] is an open mining of the initialised pool [P] *)
Definition open_in (e : env) (P k : pubkey) (L : ledger) (w : wpool) (m : wmining) : Prop :=
  is_pool e L P w /\ p_type (wp w) = 1 /\ is_mining e L k m /\ m_type (wm m) = 2 /\ m_pool (wm m) = P.

(** histories during which it is, with the tokens paid for [k], and the sums of what the calls
    add and of what they may round away *)
Inductive income (e : env) (P k : pubkey) : Z -> ledger -> Z -> ledger -> Z -> Z -> Z -> Prop :=
| in_nil now L w m : open_in e P k L w m -> income e P k now L now L 0 0 0
| in_ix now L ts ms i L1 r now' L' x y z w m :
    open_in e P k L w m -> now <= ts -> is_u64 ts -> ix_in_range i -> exec e ts ms i L = Ok (L1, r) ->
    income e P k ts L1 now' L' x y z ->
    income e P k now L now' L' (takes k ms i r + x) (call_adds e P k ts ms i L + y) (call_slack k ts ms i L + z)
| in_ext now L ts L1 now' L' x y z w m :
    open_in e P k L w m -> now <= ts -> is_u64 ts -> external e L L1 ->
    income e P k ts L1 now' L' x y z -> income e P k now L now' L' x y z.
