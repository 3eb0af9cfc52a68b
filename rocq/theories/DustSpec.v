(** What can be lost on the way from the vault to the stakers: the vocabulary of C49. *)
From stdpp Require Import gmap.
From Verif Require Import Base OMap State Spec Core.

(** the number of entries of a schedule dated on or before [d] *)
Definition count_due (d : Z) (t : sched) : Z := Z.of_nat (length (filter (fun kv => fst kv <=? d) t)).

(** In addition to the discipline under which the total share is exact: *)
Inductive care :=
| FreshOldDelegate  (* a delegate has accounted for every distribution also when stake is taken from it *)
| NoMidnightExit    (* stake is not lowered in the very second a distribution is dated at *)
| HistoryRoom.      (* fewer than 1095 days are recorded when rewards are distributed *)
Definition care_ok (x : care) (ts : Z) (o : op) (c : core) : Prop :=
  match x, o with
  | FreshOldDelegate, OWithdraw _ _ d => up_to_date ts c d
  | FreshOldDelegate, OExtend _ _ _ _ _ _ d => up_to_date ts c d
  | FreshOldDelegate, OChange _ d _ _ => up_to_date ts c d
  | NoMidnightExit, OWithdraw _ _ _ => no_midnight ts c
  | NoMidnightExit, OSlash _ _ _ _ => no_midnight ts c
  | HistoryRoom, ODistribute => Z.of_nat (length (wp_ci (c_pool c))) < 1095
  | _, _ => True
  end.
Definition careful (ts : Z) (o : op) (c : core) : Prop :=
  exact_disciplined ts o c /\ forall x, care_ok x ts o c.
(** all of these conditions but one *)
Definition careful_but (x : care) (ts : Z) (o : op) (c : core) : Prop :=
  exact_disciplined ts o c /\ forall y, y <> x -> care_ok y ts o c.

(** What one event may lose, in units of 10^-16 token: a refresh loses less than a token
    for every expiry it applies and less than one more; a distribution less than one unit
    per unit of weighted stake; donated tokens are given to nobody. *)
Definition refresh_dust (ts : Z) (c : core) (k : pubkey) : Z :=
  match c_min c !! k with
  | Some m => 10000000000000000 * (1 + count_due (day_start ts) (wm_diffs m))
  | None => 0
  end.
Definition dust (ts : Z) (o : op) (c : core) : Z :=
  match o with
  | ODeposit k _ _ _ | OWithdraw k _ _ | OExtend k _ _ _ _ _ _ | OChange k _ _ _
  | OSlash k _ _ _ | OClaim k | OClose k => refresh_dust ts c k
  | ODonate n => 10000000000000000 * n
  | ODistribute => p_total (wp (c_pool c)) - due (day_start ts) (wp_diffs (c_pool c))
  | ODecrease _ _ | OFill _ _ _ | OInit _ _ _ _ => 0
  end.

(** a history of events satisfying [P], with the sum of what its events may lose *)
Inductive leaky (P : Z -> op -> core -> Prop) : core -> core -> Z -> Prop :=
| l_refl c : leaky P c c 0
| l_step c c1 c2 ts o x :
    leaky P c c1 x ->
    c_now c1 <= ts -> is_u64 ts -> op_wf o -> P ts o c1 ->
    core_step ts o c1 = Ok c2 ->
    leaky P c c2 (x + dust ts o c1).
