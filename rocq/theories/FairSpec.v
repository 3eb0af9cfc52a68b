(** What each staker should get of every distribution, and does get: the vocabulary of C56. *)
From stdpp Require Import gmap.
From Verif Require Import Base OMap State Spec MapSum Core DustSpec.

(** weighted stake of the mining at [k] on [day], and of all minings *)
Definition stake (day : Z) (m : wmining) : Z := Z.max 0 (eff m day).
Definition stake_on (day : Z) (c : core) (k : pubkey) : Z :=
  match c_min c !! k with Some m => stake day m | None => 0 end.
Definition stake_of_all (day : Z) (c : core) : Z := msum (stake day) (c_min c).

(** In units of 10^-16 token, rounded down: the tokens that leave the pool's budget at [ts],
    split between the minings in proportion to their weighted stakes on that day. *)
Definition fair_share (ts : Z) (o : op) (c c' : core) (k : pubkey) : Z :=
  match o with
  | ODistribute =>
      10000000000000000 * (p_avail (wp (c_pool c)) - p_avail (wp (c_pool c'))) * stake_on (day_start ts) c k
      / stake_of_all (day_start ts) c
  | _ => 0
  end.

(** tokens the vault pays to the owner of the mining at [k] *)
Definition paid_out (o : op) (c c' : core) (k : pubkey) : Z :=
  match o with
  | OClaim x => if x =? k then c_vault c - c_vault c' else 0
  | _ => 0
  end.

(** What the mining at [k] may lose to rounding: less than a token for every expiry a
    refresh applies and less than one more; less than 10^-16 token per unit of its weighted
    stake in every distribution.  What others do costs it nothing. *)
Definition rounding (ts : Z) (o : op) (c : core) (k : pubkey) : Z :=
  match o with
  | ODeposit x _ _ _ | OWithdraw x _ _ | OExtend x _ _ _ _ _ _ | OChange x _ _ _
  | OSlash x _ _ _ | OClaim x | OClose x => if x =? k then refresh_dust ts c k else 0
  | ODistribute => stake_on (day_start ts) c k
  | ODecrease _ _ | OFill _ _ _ | ODonate _ | OInit _ _ _ _ => 0
  end.

(** sums over a history, for one mining *)
Record tally := Tally { t_paid : Z; t_fair : Z; t_lost : Z }.
Definition no_tally : tally := Tally 0 0 0.
Definition add_tally (ts : Z) (o : op) (c c' : core) (k : pubkey) (x : tally) : tally :=
  Tally (t_paid x + paid_out o c c' k) (t_fair x + fair_share ts o c c' k) (t_lost x + rounding ts o c k).

(** a history of events satisfying [P], with a tally for every mining *)
Inductive tallied (P : Z -> op -> core -> Prop) : core -> core -> (pubkey -> tally) -> Prop :=
| ta_refl c : tallied P c c (fun _ => no_tally)
| ta_step c c1 c2 ts o x :
    tallied P c c1 x ->
    c_now c1 <= ts -> is_u64 ts -> op_wf o -> P ts o c1 ->
    core_step ts o c1 = Ok c2 ->
    tallied P c c2 (fun k => add_tally ts o c1 c2 k (x k)).

(** what the mining at [k] has coming, in units of 10^-16 token *)
Definition coming (c : core) (k : pubkey) : Z :=
  match c_min c !! k with Some m => owed (wp_ci (c_pool c)) m | None => 0 end.
(** what a claim at [ts] pays it *)
Definition can_claim (ts : Z) (c : core) (k : pubkey) : Z :=
  match c_min c !! k with Some m => claimable ts c m | None => 0 end.

(** in every distribution [j]'s weighted stake is at most [k]'s *)
Definition smaller_stake (j k : pubkey) (ts : Z) (o : op) (c : core) : Prop :=
  o = ODistribute -> stake_on (day_start ts) c j <= stake_on (day_start ts) c k.
