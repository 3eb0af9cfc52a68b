(** Vocabulary for the effects of instructions (claims C10-C17, C24-C34, C36, C41, C42),
    in terms of Spec.v only. *)
From Verif Require Import Base State Spec.

(** entries dated on or before [d]; entries strictly before the instant [d] *)
Definition upto (d : Z) (t : sched) : sched := filter (fun kv => fst kv <=? d) t.
Definition before (d : Z) (t : sched) : sched := filter (fun kv => fst kv <? d) t.

(** an entry is recorded for the date *)
Definition has_date (d : Z) (t : sched) : Prop := exists v, In (d, v) t.

(** the same mining account: pool, owner, mint, bump and account type *)
Definition same_mining (m m' : wmining) : Prop :=
  m_pool (wm m') = m_pool (wm m) /\ m_owner (wm m') = m_owner (wm m) /\
  m_mint (wm m') = m_mint (wm m) /\ m_bump (wm m') = m_bump (wm m) /\
  m_type (wm m') = m_type (wm m).

(** expiry segments crossed by a refresh at [ts]: one per due entry, and the rest *)
Definition segments (ts : Z) (m : wmining) : Z :=
  1 + Z.of_nat (length (upto (day_start ts) (wm_diffs m))).

(** whole tokens earned by a weighted stake [s] above index [j] until [ts], when the drops
    [l] happen in between: each segment is rounded down *)
Fixpoint earned (ci : sched) (s j : Z) (l : sched) (ts : Z) : Z :=
  match l with
  | [] => (visible ts ci - j) * s / 10000000000000000
  | (d, v) :: r =>
      (visible d ci - j) * s / 10000000000000000 + earned ci (s - v) (visible d ci) r ts
  end.

(** [m'] is the mining [m] brought up to date at [ts] with the history [ci] *)
Record refreshed (ts : Z) (ci : sched) (m m' : wmining) : Prop := {
  rf_same : same_mining m m';
  rf_sfo : m_sfo (wm m') = m_sfo (wm m);
  rf_diffs : wm_diffs m' = after (day_start ts) (wm_diffs m);
  rf_share : m_share (wm m') = m_share (wm m) - due (day_start ts) (wm_diffs m);
  rf_index : m_index (wm m') = visible ts ci;
  rf_index_le : m_index (wm m) <= visible ts ci;
  rf_first : forall d v, In (d, v) (wm_diffs m) -> d <= day_start ts -> m_index (wm m) <= visible d ci;
  rf_unclaimed : m_unclaimed (wm m') = m_unclaimed (wm m) +
    earned ci (m_share (wm m) + m_sfo (wm m)) (m_index (wm m)) (upto (day_start ts) (wm_diffs m)) ts;
  rf_credit :
    0 <= accrual (m_index (wm m)) (eff m) (before ts ci)
         - 10000000000000000 * (m_unclaimed (wm m') - m_unclaimed (wm m))
      <= (10000000000000000 - 1) * segments ts m }.

(** a mining with another amount of delegated-in stake *)
Definition with_delegated (m : wmining) (x : Z) : wmining :=
  WMining (Mining (m_pool (wm m)) (m_owner (wm m)) (m_mint (wm m)) (m_index (wm m)) (m_share (wm m))
             (m_unclaimed (wm m)) x (m_bump (wm m)) (m_type (wm m))) (wm_diffs m).

(** only the weighted stake and the schedule of a mining differ *)
Definition only_stake (m m' : wmining) : Prop :=
  same_mining m m' /\ m_index (wm m') = m_index (wm m) /\ m_unclaimed (wm m') = m_unclaimed (wm m) /\
  m_sfo (wm m') = m_sfo (wm m).

(** the fields of a pool that stake operations never touch: everything except the total
    share and the schedule *)
Definition only_total (w w' : wpool) : Prop :=
  p_deposit_auth (wp w') = p_deposit_auth (wp w) /\
  p_distribute_auth (wp w') = p_distribute_auth (wp w) /\
  p_fill_auth (wp w') = p_fill_auth (wp w) /\ p_mint (wp w') = p_mint (wp w) /\
  p_index (wp w') = p_index (wp w) /\ p_ends_at (wp w') = p_ends_at (wp w) /\
  p_avail (wp w') = p_avail (wp w) /\ p_bump (wp w') = p_bump (wp w) /\
  p_type (wp w') = p_type (wp w) /\ wp_ci w' = wp_ci w.

(** the schedule [t'] is [t] with [x] more at date [d], if there is room for the date
    among [cap] dates; otherwise it is unchanged *)
Definition scheduled (cap d x : Z) (t t' : sched) : Prop :=
  (has_date d t \/ Z.of_nat (length t) < cap ->
   (forall k, at_date k t' = at_date k t + (if k =? d then x else 0)) /\
   (forall k, has_date k t' <-> has_date k t \/ k = d)) /\
  (~ has_date d t -> cap <= Z.of_nat (length t) -> t' = t).

(** the schedule [t'] is [t] with [x] less at the recorded date [d] *)
Definition lowered (d x : Z) (t t' : sched) : Prop :=
  has_date d t /\ x <= at_date d t /\ map fst t' = map fst t /\
  forall k, at_date k t' = at_date k t - (if k =? d then x else 0).

(** tokens of one distribution: an equal share of the budget for each whole day left, or
    all of it *)
Definition daily_part (budget ends_at ts : Z) : Z :=
  let days := Z.max 0 (ends_at - ts) / 86400 in
  if days =? 0 then budget else budget / days.

(** stake that is not going to expire *)
Definition unlocked_stake (m : wmining) : Z := m_share (wm m) - total (wm_diffs m).

(** a locked stake that started at [start] and has not reached its expiry at [ts] *)
Definition unexpired (p : lockup) (start ts : Z) : bool :=
  match p with LFlex => false | _ => ts <? expiry p start end.

(** everything but index, history, total share, schedule and budget *)
Definition only_distribution (w w' : wpool) : Prop :=
  p_deposit_auth (wp w') = p_deposit_auth (wp w) /\
  p_distribute_auth (wp w') = p_distribute_auth (wp w) /\
  p_fill_auth (wp w') = p_fill_auth (wp w) /\ p_mint (wp w') = p_mint (wp w) /\
  p_ends_at (wp w') = p_ends_at (wp w) /\ p_bump (wp w') = p_bump (wp w) /\
  p_type (wp w') = p_type (wp w).

(** entry-wise sum of two schedules with the same dates *)
Fixpoint merged (l1 l2 l : sched) : Prop :=
  match l1, l2, l with
  | [], [], [] => True
  | (d1, x1) :: r1, (d2, x2) :: r2, (d, x) :: r => d1 = d /\ d2 = d /\ x = x1 + x2 /\ merged r1 r2 r
  | _, _, _ => False
  end.

(** [n] whole days remain at [ts] until [x] *)
Definition whole_days_left (x ts n : Z) : Prop := 0 <= n /\ n * 86400 <= x - ts < (n + 1) * 86400.

(** tokens credited by the refresh from [m] to [m'] *)
Definition credited (m m' : wmining) : Z := m_unclaimed (wm m') - m_unclaimed (wm m).
