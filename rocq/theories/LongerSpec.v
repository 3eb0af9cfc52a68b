(** Claim C87: longer lockups compared. *)
From stdpp Require Import gmap.
From Verif Require Import Base State Spec EffectSpec Ledger Program LedgerLemmas LedgerSpec CodecLemmas History HistoryThms FreezeSpec CapSpec IncomeSpec DiarySpec LogSpec CompareSpec.

(** lockups with a stake at all; the program refuses the others *)
Definition no_shorter (p q : lockup) : Prop := 0 < weight_of q <= weight_of p /\ days_of q <= days_of p.
(** as [no_worse], but stake may be locked for longer *)
Definition no_worse_locked (l : list nat) (i j : ix) : Prop :=
  match i, j with
  | DepositMining a p _ _, DepositMining b q _ _ => no_shorter p q /\ b <= a
  | ExtendStake op np start base x _ _, ExtendStake oq nq begin bulk y _ _ =>
      op = oq /\ start = begin /\ base = bulk /\ no_shorter np nq /\ y <= x
  | _, _ => no_worse l i j
  end.
Definition longer (x y : full_entry) : Prop :=
  let '(ts, i, _, l) := x in let '(t', j, _, k) := y in
  ts = t' /\ l = k /\ (l = [] -> (i = DistributeRewards <-> j = DistributeRewards)) /\ (l <> [] -> no_worse_locked l i j).

(** calls that work on the mining, and those that write a date in its schedule *)
Definition works (x : full_entry) : bool := match snd x with [] => false | _ => true end.
Definition opens (x : full_entry) : bool :=
  let '(_, i, _, l) := x in
  match i with
  | DepositMining _ _ _ _ | ExtendStake _ _ _ _ _ _ _ => existsb (Nat.eqb 1) l
  | _ => false
  end.
Definition how_many (f : full_entry -> bool) (b : list full_entry) : Z := Z.of_nat (length (filter f b)).

(** the first mining starts with no less stake at any date, and no less to claim; the schedules may
    have different dates *)
Record no_less (m n : wmining) : Prop := {
  ns_own : forall d, own n d <= own m d;
  ns_sfo : m_sfo (wm n) <= m_sfo (wm m);
  ns_index : m_index (wm m) = m_index (wm n);
  ns_unclaimed : m_unclaimed (wm n) <= m_unclaimed (wm m) }.
