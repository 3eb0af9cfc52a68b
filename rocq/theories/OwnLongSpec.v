(** Claim C89: longer lockups of one's own in the same pool. *)
From stdpp Require Import gmap.
From Verif Require Import Base State Spec EffectSpec Ledger Program LedgerLemmas LedgerSpec CodecLemmas History HistoryThms FreezeSpec CapSpec IncomeSpec DiarySpec LogSpec CompareSpec LongerSpec OwnSpec.

(** As [own_more], but new stake may also be locked for longer. *)
Definition own_longer (b : list bool) (l : list nat) (i j : ix) : Prop :=
  match i, j with
  | DepositMining x p _ _, DepositMining y q _ _ => In 1%nat l /\ no_shorter p q /\ y <= x /\ (In true b -> x = y)
  | ExtendStake op np start base x _ _, ExtendStake oq nq begin bulk y _ _ =>
      In 1%nat l /\ op = oq /\ no_shorter np nq /\ start = begin /\ base = bulk /\ y <= x /\ (In true b -> x = y)
  | _, _ => own_more b l i j
  end.
Definition staking_longer (x y : full_entry) : Prop :=
  let '(ts, i, b, l) := x in let '(t', j, c, k) := y in
  ts = t' /\ b = c /\ l = k /\ match l with [] => i = j | _ => day_start ts < ts /\ own_longer b l i j end.

(** as [stakes_more], with schedules of any dates *)
Record holds_more (t : Z) (v w : wpool) (m n : wmining) : Prop := {
  hm_own : forall d, own n d <= own m d;
  hm_sfo : m_sfo (wm n) <= m_sfo (wm m);
  hm_rest : forall d, t <= d -> all v d - eff m d <= all w d - eff n d;
  hm_avail : p_avail (wp v) = p_avail (wp w);
  hm_ends : p_ends_at (wp v) = p_ends_at (wp w);
  hm_days : map fst (wp_ci v) = map fst (wp_ci w);
  hm_index : m_index (wm m) <= last_from 0 (wp_ci v);
  hm_index' : m_index (wm n) <= last_from 0 (wp_ci w);
  hm_owed : owed (wp_ci w) n <= owed (wp_ci v) m }.
