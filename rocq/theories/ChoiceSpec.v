(** Vocabulary for what a staker chooses (claims C73-C75), in terms of Spec.v, EffectSpec.v and
    LedgerSpec.v only. *)
From Verif Require Import Base State Spec EffectSpec Ledger Program LedgerSpec.

(** the same call with another delegate *)
Inductive other_delegate : ix -> ix -> Prop :=
| od_deposit a p o d d' : other_delegate (DepositMining a p o d) (DepositMining a p o d')
| od_withdraw a o d d' : other_delegate (WithdrawMining a o d) (WithdrawMining a o d')
| od_extend op np st b a o d d' : other_delegate (ExtendStake op np st b a o d) (ExtendStake op np st b a o d').

(** tokens by which the delegate's mining grows *)
Definition handed (i : ix) : Z :=
  match i with
  | DepositMining a _ _ _ => a
  | WithdrawMining a _ _ => - a
  | ExtendStake _ _ _ _ a _ _ => a
  | _ => 0
  end.

(** [ci'] is a later history: what it records before the day of [ts] is not above the index [j] *)
Definition later_history (ts j : Z) (ci' : sched) : Prop :=
  growing 0 ci' /\ forall d i, In (d, i) ci' -> d < day_start ts -> i <= j.
