(** Claim C93: the same history with all stakes counted in a smaller unit. *)
From stdpp Require Import gmap.
From Verif Require Import Base State Spec EffectSpec Ledger Program LedgerLemmas LedgerSpec CodecLemmas History HistoryThms FreezeSpec CapSpec IncomeSpec DiarySpec LogSpec CompareSpec.

(** The second call does the same as the first with [c] times the stake.  Rewards are the same. *)
Definition times (c : Z) (i j : ix) : Prop :=
  match i, j with
  | FillVault x d, FillVault y e => x = y /\ d = e
  | DepositMining a p _ _, DepositMining b q _ _ => p = q /\ b = c * a
  | WithdrawMining a _ _, WithdrawMining b _ _ => b = c * a
  | ExtendStake op np start base a _ _, ExtendStake oq nq begin bulk b _ _ =>
      op = oq /\ np = nq /\ start = begin /\ bulk = c * base /\ b = c * a
  | ChangeDelegate a _, ChangeDelegate b _ => b = c * a
  | Slash _ n w d, Slash _ o v u => d = u /\ o = c * n /\ v = c * w
  | DecreaseRewards _ n, DecreaseRewards _ o => o = c * n
  | DistributeRewards, DistributeRewards | Claim, Claim => True
  | _, _ => False
  end.
Definition scaled (c : Z) (x y : full_entry) : Prop :=
  let '(ts, i, b, l) := x in let '(t', j, b', k) := y in ts = t' /\ b = b' /\ l = k /\ times c i j.

(** Distributions on the same days.  Each rise of the first index is [c] times that of the second and a
    rest of less than [c]. *)
Fixpoint finer_from (c a b : Z) (s t : sched) : Prop :=
  match s, t with
  | [], [] => True
  | (d, i) :: r, (d', j) :: q => d = d' /\ 0 <= j - b /\ 0 <= (i - a) - c * (j - b) <= c - 1 /\ finer_from c i j r q
  | _, _ => False
  end.
Definition finer (c : Z) (s t : sched) : Prop := finer_from c 0 0 s t.

(** pools with the same rewards and [c] times the stake at every date *)
Record pool_times (c : Z) (v w : wpool) : Prop := {
  pt_dates : map fst (wp_diffs v) = map fst (wp_diffs w);
  pt_all : forall d, all w d = c * all v d;
  pt_avail : p_avail (wp v) = p_avail (wp w);
  pt_ends : p_ends_at (wp v) = p_ends_at (wp w);
  pt_ci : finer c (wp_ci v) (wp_ci w) }.
(** minings with [c] times the stake at every date *)
Record mining_times (c : Z) (m n : wmining) : Prop := {
  mt_dates : map fst (wm_diffs m) = map fst (wm_diffs n);
  mt_own : forall d, own n d = c * own m d;
  mt_sfo : m_sfo (wm n) = c * m_sfo (wm m) }.
(** both have been credited up to the same distribution *)
Definition same_place (v w : wpool) (m n : wmining) : Prop :=
  exists k : nat, (k <= length (wp_ci v))%nat /\
    m_index (wm m) = last_from 0 (firstn k (wp_ci v)) /\ m_index (wm n) = last_from 0 (firstn k (wp_ci w)).

(** the mining is as [Q] says all along the log [b] *)
Definition always (e : env) (P k : pubkey) (now : Z) (L : ledger) (b : list full_entry) (Q : wmining -> Prop) : Prop :=
  forall b1 b2 now1 L1 x m, b = b1 ++ b2 -> full_log e P k now L now1 L1 b1 x -> is_mining e L1 k m -> Q m.
