(** Claim C86: two histories compared, entry by entry. *)
From stdpp Require Import gmap.
From Verif Require Import Base State Spec EffectSpec Ledger Program LedgerLemmas LedgerSpec CodecLemmas History HistoryThms FreezeSpec CapSpec IncomeSpec DiarySpec LogSpec.

(** Distributions on the same days, of which the first rise by at least as much as the second. *)
Fixpoint steeper_from (a b : Z) (s t : sched) : Prop :=
  match s, t with
  | [], [] => True
  | (d, i) :: r, (c, j) :: q => d = c /\ j - b <= i - a /\ steeper_from i j r q
  | _, _ => False
  end.
Definition steeper (s t : sched) : Prop := steeper_from 0 0 s t.

(** A mining at the places [l] of two calls is no worse off by the first: no less stake comes,
    no more goes. *)
Definition no_worse (l : list nat) (i j : ix) : Prop :=
  match i, j with
  | DepositMining a p _ _, DepositMining b q _ _ => p = q /\ b <= a
  | WithdrawMining a _ _, WithdrawMining b _ _ => a <= b
  | ExtendStake op np start base x _ _, ExtendStake oq nq begin bulk y _ _ =>
      op = oq /\ np = nq /\ start = begin /\ base = bulk /\ y <= x
  | ChangeDelegate a _, ChangeDelegate b _ =>
      ~ In 1%nat l -> (In 4%nat l -> a <= b) /\ (~ In 4%nat l -> b <= a)
  | Slash _ n w d, Slash _ o v c => d = c /\ n <= o /\ w <= v
  | DecreaseRewards _ n, DecreaseRewards _ o => n <= o
  | Claim, Claim => True
  | _, _ => False
  end.
(** Entries of two logs at the same time.  Where the mining has no place the calls may be any,
    but the distributions are the same days. *)
Definition better (x y : full_entry) : Prop :=
  let '(ts, i, _, l) := x in let '(t', j, _, k) := y in
  ts = t' /\ l = k /\ (l = [] -> (i = DistributeRewards <-> j = DistributeRewards)) /\ (l <> [] -> no_worse l i j).

(** The first call leaves no more stake and no smaller budget in the pool than the second. *)
Definition leaves_less (b : list bool) (i j : ix) : Prop :=
  match i, j with
  | FillVault x d, FillVault y c => d = c /\ y <= x
  | DepositMining x p _ _, DepositMining y q _ _ => p = q /\ x <= y
  | WithdrawMining x _ _, WithdrawMining y _ _ => y <= x
  | ExtendStake op np start base x _ _, ExtendStake oq nq begin bulk y _ _ =>
      op = oq /\ np = nq /\ start = begin /\ base = bulk /\ x <= y
  | ChangeDelegate x _, ChangeDelegate y _ =>
      match b with [true; false] => y <= x | [false; true] => x <= y | _ => True end
  | Slash _ n w d, Slash _ o v c => d = c /\ o <= n /\ v <= w
  | DistributeRewards, DistributeRewards | Claim, Claim | DecreaseRewards _ _, DecreaseRewards _ _ => True
  | _, _ => False
  end.
Definition lighter (x y : entry) : Prop :=
  let '(ts, i, b) := x in let '(t', j, c) := y in ts = t' /\ b = c /\ leaves_less b i j.
(** an entry without the places of the mining *)
Definition without_places (x : full_entry) : entry := let '(ts, i, b, _) := x in (ts, i, b).

(** own weighted stake at a date, and stake of the whole pool *)
Definition own (m : wmining) (d : Z) : Z := m_share (wm m) - due d (wm_diffs m).
Definition all (w : wpool) (d : Z) : Z := p_total (wp w) - due d (wp_diffs w).

(** the first mining starts with no less stake at any date, and no less to claim *)
Record not_less (m n : wmining) : Prop := {
  nl_dates : map fst (wm_diffs m) = map fst (wm_diffs n);
  nl_own : forall d, own n d <= own m d;
  nl_sfo : m_sfo (wm n) <= m_sfo (wm m);
  nl_index : m_index (wm m) = m_index (wm n);
  nl_unclaimed : m_unclaimed (wm n) <= m_unclaimed (wm m) }.

(** the first pool holds less stake and more budget than the second, and its index rose more *)
Record under (v w : wpool) : Prop := {
  un_dates : map fst (wp_diffs v) = map fst (wp_diffs w);
  un_all : forall d, all v d <= all w d;
  un_avail : p_avail (wp w) <= p_avail (wp v);
  un_ends : p_ends_at (wp v) = p_ends_at (wp w);
  un_ci : steeper (wp_ci v) (wp_ci w);
  un_index : p_index (wp w) - last_from 0 (wp_ci w) <= p_index (wp v) - last_from 0 (wp_ci v) }.
