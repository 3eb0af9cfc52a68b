(** Claim C88: more stake of one's own in the same pool. *)
From stdpp Require Import gmap.
From Verif Require Import Base State Spec EffectSpec Ledger Program LedgerLemmas LedgerSpec CodecLemmas History HistoryThms FreezeSpec CapSpec IncomeSpec DiarySpec LogSpec CompareSpec LongerSpec.

(** The staker's own calls: the first brings no less stake and takes no more.  Where a delegate gets
    stake as well ([b]), the amounts are the same.  The mining is not somebody else's delegate. *)
Definition own_more (b : list bool) (l : list nat) (i j : ix) : Prop :=
  match i, j with
  | DepositMining x p _ _, DepositMining y q _ _ => In 1%nat l /\ p = q /\ y <= x /\ (In true b -> x = y)
  | WithdrawMining x _ _, WithdrawMining y _ _ => In 1%nat l /\ x <= y /\ (In true b -> x = y)
  | ExtendStake op np start base x _ _, ExtendStake oq nq begin bulk y _ _ =>
      In 1%nat l /\ op = oq /\ np = nq /\ start = begin /\ base = bulk /\ y <= x /\ (In true b -> x = y)
  | ChangeDelegate x _, ChangeDelegate y _ => In 1%nat l /\ x = y
  | Slash _ n w d, Slash _ o v c => d = c /\ n <= o /\ w <= v
  | Claim, Claim => True
  | _, _ => False
  end.
(** Entries at the same time: calls of others are the same; one's own are not in the first second of a
    day, when a distribution of that day may not be accounted for. *)
Definition staking_more (x y : full_entry) : Prop :=
  let '(ts, i, b, l) := x in let '(t', j, c, k) := y in
  ts = t' /\ b = c /\ l = k /\ match l with [] => i = j | _ => day_start ts < ts /\ own_more b l i j end.

(** the same with one's own calls at any time of the day *)
Definition staking_more_anytime (x y : full_entry) : Prop :=
  let '(ts, i, b, l) := x in let '(t', j, c, k) := y in
  ts = t' /\ b = c /\ l = k /\ match l with [] => i = j | _ => own_more b l i j end.

(** the same with other amounts also where a delegate gets stake *)
Definition staking_more_delegated (x y : full_entry) : Prop :=
  let '(ts, i, b, l) := x in let '(t', j, c, k) := y in
  ts = t' /\ b = c /\ l = k /\ match l with [] => i = j | _ => day_start ts < ts /\ own_more [] l i j end.

(** calls that write a date in the pool's schedule, and distributions *)
Definition dates_pool (x : full_entry) : bool :=
  let '(_, i, _, _) := x in match i with DepositMining _ _ _ _ | ExtendStake _ _ _ _ _ _ _ => true | _ => false end.
Definition distributes (x : full_entry) : bool :=
  let '(_, i, _, _) := x in match i with DistributeRewards => true | _ => false end.

(** [Q] holds of the pool and the mining whenever there is a distribution in the log [b] *)
Definition whenever (e : env) (P k : pubkey) (now : Z) (L : ledger) (b : list full_entry) (Q : Z -> wpool -> wmining -> Prop) : Prop :=
  forall b1 ts bs l b2 now1 L1 x w m, b = b1 ++ (ts, DistributeRewards, bs, l) :: b2 ->
    full_log e P k now L now1 L1 b1 x -> is_pool e L1 P w -> is_mining e L1 k m -> Q ts w m.

(** the beginnings: the first mining has no less stake, the rest of its pool no more than that of the
    second from day [t] on, and no less is owed to it *)
Record stakes_more (t : Z) (v w : wpool) (m n : wmining) : Prop := {
  sm_dates : map fst (wm_diffs m) = map fst (wm_diffs n);
  sm_own : forall d, own n d <= own m d;
  sm_sfo : m_sfo (wm n) <= m_sfo (wm m);
  sm_rest : forall d, t <= d -> all v d - eff m d <= all w d - eff n d;
  sm_pool_dates : map fst (wp_diffs v) = map fst (wp_diffs w);
  sm_avail : p_avail (wp v) = p_avail (wp w);
  sm_ends : p_ends_at (wp v) = p_ends_at (wp w);
  sm_days : map fst (wp_ci v) = map fst (wp_ci w);
  sm_index : m_index (wm m) <= last_from 0 (wp_ci v);
  sm_index' : m_index (wm n) <= last_from 0 (wp_ci w);
  sm_owed : owed (wp_ci w) n <= owed (wp_ci v) m }.
