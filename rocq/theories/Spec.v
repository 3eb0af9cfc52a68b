(** Specification vocabulary, independent of the program's own helpers. *)
From Verif Require Import Base State.

(** A schedule or history is a list of (date, value). *)
Definition sched := list (Z * Z).

(** strictly increasing dates *)
Fixpoint ascending (t : sched) : Prop :=
  match t with
  | [] => True
  | (k, _) :: r => (forall k' v', In (k', v') r -> k < k') /\ ascending r
  end.

(** sum of all values *)
Fixpoint total (t : sched) : Z :=
  match t with [] => 0 | (_, v) :: r => v + total r end.

(** sum of the values dated on or before [d] *)
Fixpoint due (d : Z) (t : sched) : Z :=
  match t with
  | [] => 0
  | (k, v) :: r => (if k <=? d then v else 0) + due d r
  end.

(** entries dated after [d] *)
Definition after (d : Z) (t : sched) : sched := filter (fun kv => d <? fst kv) t.

(** value at a date, 0 when there is none *)
Fixpoint at_date (d : Z) (t : sched) : Z :=
  match t with
  | [] => 0
  | (k, v) :: r => if k =? d then v else at_date d r
  end.

(** all values satisfy a predicate *)
Definition values (P : Z -> Prop) (t : sched) : Prop := forall k v, In (k, v) t -> P v.
Definition dates (P : Z -> Prop) (t : sched) : Prop := forall k v, In (k, v) t -> P k.

(** The cumulative index visible at time [d]: that of the latest entry strictly
    before [d], starting from [prev] when there is none.  [t] is ascending. *)
Fixpoint visible_from (prev d : Z) (t : sched) : Z :=
  match t with
  | [] => prev
  | (k, i) :: r => if k <? d then visible_from i d r else prev
  end.
Definition visible (d : Z) (t : sched) : Z := visible_from 0 d t.

(** index of the last entry *)
Fixpoint last_from (prev : Z) (t : sched) : Z :=
  match t with [] => prev | (_, i) :: r => last_from i r end.

(** A cumulative history: values never decrease, starting from [prev]. *)
Fixpoint growing (prev : Z) (t : sched) : Prop :=
  match t with [] => True | (_, i) :: r => prev <= i /\ growing i r end.

(** Exact accrual, scaled by 10^16, of a stake [w] (a function of the day) over
    the part of history [t] above index [j]: each entry contributes its index
    increment above [j] times the stake on its day. *)
Fixpoint accrual_from (j : Z) (w : Z -> Z) (prev : Z) (t : sched) : Z :=
  match t with
  | [] => 0
  | (k, i) :: r => (Z.max i j - Z.max prev j) * w k + accrual_from j w i r
  end.
Definition accrual (j : Z) (w : Z -> Z) (t : sched) : Z := accrual_from j w 0 t.

(** Lockup table: weight per token, and days until expiry (the enum itself is
    the API's LockupPeriod). *)
Definition weight_of (p : lockup) : Z :=
  match p with LNone => 0 | LFlex => 1 | L3M => 2 | L6M => 4 | L1Y => 6 end.
Definition days_of (p : lockup) : Z :=
  match p with LNone => 0 | LFlex => 5 | L3M => 90 | L6M => 180 | L1Y => 365 end.

(** start of the UTC day of a time *)
Definition day_start (t : Z) : Z := (t / 86400) * 86400.

(** expiry of a stake opened at [t] *)
Definition expiry (p : lockup) (t : Z) : Z := day_start t + 86400 * days_of p.

(** weighted stake of a mining (own and delegated-in) on day [k] *)
Definition eff (w : wmining) (k : Z) : Z :=
  m_share (wm w) + m_sfo (wm w) - due k (wm_diffs w).

(** everything a mining can still get from the history, scaled by 10^16 *)
Definition owed (ci : sched) (w : wmining) : Z :=
  PRECISION * m_unclaimed (wm w) + accrual (m_index (wm w)) (eff w) ci.
