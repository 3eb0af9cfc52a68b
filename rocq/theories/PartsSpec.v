(** Claim C92: one staker, or two who share the same stake. *)
From stdpp Require Import gmap.
From Verif Require Import Base State Spec EffectSpec Ledger Program LedgerLemmas LedgerSpec CodecLemmas History HistoryThms FreezeSpec CapSpec IncomeSpec DiarySpec LogSpec.

(** the amounts of the first call are those of the other two together *)
Definition sums (i j h : ix) : Prop :=
  match i, j, h with
  | DepositMining a p _ _, DepositMining b q _ _, DepositMining c r _ _ => p = q /\ p = r /\ a = b + c
  | WithdrawMining a _ _, WithdrawMining b _ _, WithdrawMining c _ _ => a = b + c
  | ExtendStake op np start base a _ _, ExtendStake oq nq begin1 bulk b _ _, ExtendStake or nr begin2 mass c _ _ =>
      op = oq /\ op = or /\ np = nq /\ np = nr /\ start = begin1 /\ start = begin2 /\ base = bulk + mass /\ a = b + c
  | ChangeDelegate a _, ChangeDelegate b _, ChangeDelegate c _ => a = b + c
  | Slash _ n w d, Slash _ n1 w1 d1, Slash _ n2 w2 d2 => d = d1 /\ d = d2 /\ n = n1 + n2 /\ w = w1 + w2
  | _, _, _ => False
  end.

(** The log [b] of a mining, and the logs [c] and [d] of two minings in one other history.  Every call on
    the one mining is two calls there, one on each of the two, right after each other at the same time and
    with the same amounts together.  They claim at the same times.  All other calls are the same. *)
Inductive shared : list full_entry -> list full_entry -> list full_entry -> Prop :=
| sh_nil : shared [] [] []
| sh_same ts i bs b c d : shared b c d -> shared ((ts, i, bs, []) :: b) ((ts, i, bs, []) :: c) ((ts, i, bs, []) :: d)
| sh_split ts i j h bs l b c d : l <> [] -> sums i j h -> shared b c d ->
    shared ((ts, i, bs, l) :: b) ((ts, j, bs, l) :: (ts, h, bs, []) :: c) ((ts, j, bs, []) :: (ts, h, bs, l) :: d)
| sh_claim ts bs l b c d : l <> [] -> shared b c d ->
    shared ((ts, Claim, bs, l) :: b) ((ts, Claim, bs, l) :: c) ((ts, Claim, bs, l) :: d).

(** the first mining holds what the other two hold together, due at the same dates *)
Record parted (m n o : wmining) : Prop := {
  pd_dates1 : map fst (wm_diffs m) = map fst (wm_diffs n);
  pd_dates2 : map fst (wm_diffs m) = map fst (wm_diffs o);
  pd_amounts : forall d, at_date d (wm_diffs m) = at_date d (wm_diffs n) + at_date d (wm_diffs o);
  pd_share : m_share (wm m) = m_share (wm n) + m_share (wm o);
  pd_sfo : m_sfo (wm m) = m_sfo (wm n) + m_sfo (wm o);
  pd_index1 : m_index (wm m) = m_index (wm n);
  pd_index2 : m_index (wm m) = m_index (wm o) }.

(** entries that work on the mining, and those that put a date on its schedule *)
Definition works (x : full_entry) : bool := let '(_, _, _, l) := x in match l with [] => false | _ => true end.
Definition plans (x : full_entry) : bool :=
  let '(_, i, _, l) := x in
  match l, i with _ :: _, (DepositMining _ _ _ _ | ExtendStake _ _ _ _ _ _ _) => true | _, _ => false end.
