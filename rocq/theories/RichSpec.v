(** Claim C94: the same history with other amounts of rewards. *)
From stdpp Require Import gmap.
From Verif Require Import Base State Spec EffectSpec Ledger Program LedgerLemmas LedgerSpec CodecLemmas History HistoryThms FreezeSpec CapSpec IncomeSpec DiarySpec LogSpec CompareSpec ScaleSpec.

(** The second call does the same with the same stakes, and fills in [c] times the rewards. *)
Definition endowed (c : Z) (i j : ix) : Prop :=
  match i, j with
  | FillVault x d, FillVault y e => y = c * x /\ d = e
  | _, _ => times 1 i j
  end.
Definition enriched (c : Z) (x y : full_entry) : Prop :=
  let '(ts, i, b, l) := x in let '(t', j, b', k) := y in ts = t' /\ b = b' /\ l = k /\ endowed c i j.

(** pools with the same stake at every date and distributions on the same days *)
Record same_stakes (v w : wpool) : Prop := {
  ss_dates : map fst (wp_diffs v) = map fst (wp_diffs w);
  ss_all : forall d, all w d = all v d;
  ss_ends : p_ends_at (wp v) = p_ends_at (wp w);
  ss_days : map fst (wp_ci v) = map fst (wp_ci w) }.

(** the mining has been credited everything up to the last distribution *)
Definition credited (w : wpool) (m : wmining) : Prop := m_index (wm m) = last_from 0 (wp_ci w).

(** the pool and the mining are as [Q] says all along the log [b] *)
Definition throughout (e : env) (P k : pubkey) (now : Z) (L : ledger) (b : list full_entry) (Q : wpool -> wmining -> Prop) : Prop :=
  forall b1 b2 now1 L1 x w m, b = b1 ++ b2 -> full_log e P k now L now1 L1 b1 x -> is_pool e L1 P w -> is_mining e L1 k m -> Q w m.

(** distributions *)
Definition hands_out (x : full_entry) : bool := let '(_, i, _, _) := x in match i with DistributeRewards => true | _ => false end.
