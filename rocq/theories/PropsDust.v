(** C49: nothing but dust is lost on the way from the vault to the stakers. *)
From stdpp Require Import gmap.
From Verif Require Import Base OMap State Spec MapSum Core CoreRun Witness DustSpec Dust DustRun.

Theorem C49_nothing_lost : forall w v t c x,
  fresh_pool w -> 0 <= v < 18446744073709551616 -> 0 <= t -> leaky careful (fresh_core w v t) c x ->
  10000000000000000 * c_vault c <=
  10000000000000000 * p_avail (wp (c_pool c)) + msum (owed (wp_ci (c_pool c))) (c_min c)
  + x + 10000000000000000 * v.
Proof. exact nothing_but_dust_lost. Qed.
Print Assumptions C49_nothing_lost.

Theorem C49_claimable : forall w v t c x ts,
  fresh_pool w -> 0 <= v < 18446744073709551616 -> 0 <= t -> leaky careful (fresh_core w v t) c x ->
  c_now c <= ts -> no_midnight ts c ->
  10000000000000000 * c_vault c <=
  10000000000000000 * p_avail (wp (c_pool c)) + 10000000000000000 * msum (claimable ts c) (c_min c)
  + 10000000000000000 * msum (fun m => 1 + count_due (day_start ts) (wm_diffs m)) (c_min c)
  + x + 10000000000000000 * v.
Proof. exact vault_all_claimable. Qed.
Print Assumptions C49_claimable.

(** a careful history using every kind of event but the penalty [ODecrease] *)
Definition h_careful : list (Z * op) :=
  [init 1; init 2; init 3; init 4; init 5;
   (noon 100, ODeposit 1 100 L3M None);
   (noon 100, ODeposit 2 1000 LFlex (Some 1));
   (noon 100, ODeposit 4 50 L1Y None);
   (noon 100, OFill 100000 (noon 200) false);
   (noon 100, ODonate 7);
   (noon 101, ODistribute);
   (noon 102, OClaim 1);
   (noon 102, ODistribute);
   (noon 103, OClaim 3);
   (noon 103, OClaim 1);
   (noon 103, OChange 2 (Some 1) (Some 3) 400);
   (noon 103, OWithdraw 2 300 (Some 1));
   (noon 103, OSlash 4 10 60 (Some (noon 465)));
   (noon 104, ODistribute);
   (noon 191, ODistribute);
   (noon 192, OExtend 1 L3M L6M (noon 100) 100 20 None);
   (noon 193, ODistribute);
   (noon 194, OClaim 2);
   (noon 194, OClose 5)].
Definition careful_end : core * Z :=
  match run_dust careful_b h_careful core0 0 with Ok r => r | Err _ => (core0, 0) end.

Lemma careful_end_leaky : leaky careful core0 (fst careful_end) (snd careful_end).
Proof.
  apply (run_dust_leaky careful_b careful h_careful core0 core0 0); [exact careful_b_ok|constructor|].
  vm_compute. reflexivity.
Qed.

(** 88280 tokens are left: 70678 to be distributed, 17590 that can be claimed and 12 that are
    lost, of which 7 were donated *)
Example C49_example :
  fresh_pool pool0 /\ leaky careful (fresh_core pool0 0 0) (fst careful_end) (snd careful_end) /\
  no_midnight (noon 194) (fst careful_end) /\
  c_vault (fst careful_end) = 88280 /\ p_avail (wp (c_pool (fst careful_end))) = 70678 /\
  msum (claimable (noon 194) (fst careful_end)) (c_min (fst careful_end)) = 17590 /\
  snd careful_end / 10000000000000000 = 21.
Proof.
  split; [unfold fresh_pool, pool0; eauto 10|]. split; [exact careful_end_leaky|].
  split; [|vm_compute; auto].
  intros i Hin. vm_compute in Hin.
  repeat (destruct Hin as [Hin|Hin]; [discriminate|]). exact Hin.
Qed.

(** ** Without the extra conditions rewards are lost *)
Definition lossy (c : core) (x : Z) : Prop :=
  10000000000000000 * p_avail (wp (c_pool c)) + msum (owed (wp_ci (c_pool c))) (c_min c) + x
  < 10000000000000000 * c_vault c.
Definition lossy_b (r : res (core * Z)) : bool :=
  match r with
  | Ok (c, x) =>
      10000000000000000 * p_avail (wp (c_pool c)) + msum (owed (wp_ci (c_pool c))) (c_min c) + x
      <? 10000000000000000 * c_vault c
  | Err _ => false
  end.
Lemma lossy_run y l :
  lossy_b (run_dust (careful_but_b y) l core0 0) = true ->
  exists c x, leaky (careful_but y) core0 c x /\ lossy c x.
Proof.
  intros H. destruct (run_dust (careful_but_b y) l core0 0) as [[c x]|] eqn:E; [|discriminate].
  exists c, x. split.
  - apply (run_dust_leaky (careful_but_b y) (careful_but y) l core0 core0 0);
      [exact (careful_but_b_ok y)|constructor|exact E].
  - unfold lossy. cbn in H. lia.
Qed.

(** stake is withdrawn from a delegate that has not accounted for yesterday's rewards: its
    part of them, 9090 tokens here, goes to nobody *)
Definition h_stale_withdraw : list (Z * op) :=
  [init 1; init 2;
   (noon 100, ODeposit 1 15000000 LFlex None);
   (noon 100, ODeposit 2 150000000 LFlex (Some 1));
   (noon 100, OFill 10000 (noon 101) false);
   (noon 100, ODistribute);
   (noon 101, OWithdraw 2 150000000 (Some 1))].
Theorem C49_stale_delegate_refuted :
  exists c x, leaky (careful_but FreshOldDelegate) core0 c x /\ lossy c x.
Proof. apply (lossy_run FreshOldDelegate h_stale_withdraw). vm_compute. reflexivity. Qed.
Print Assumptions C49_stale_delegate_refuted.

(** stake is withdrawn in the very second a distribution is dated at *)
Definition h_midnight_withdraw : list (Z * op) :=
  [init 1; init 2;
   (noon 100, ODeposit 1 15000000 LFlex None);
   (noon 100, OFill 10000 (noon 101) false);
   (86400 * 101, ODistribute);
   (86400 * 101, OWithdraw 1 15000000 None)].
Theorem C49_midnight_refuted :
  exists c x, leaky (careful_but NoMidnightExit) core0 c x /\ lossy c x.
Proof. apply (lossy_run NoMidnightExit h_midnight_withdraw). vm_compute. reflexivity. Qed.
Print Assumptions C49_midnight_refuted.

(** the 1096th day of distributions: its rewards are taken from the budget and given to nobody *)
Fixpoint distributions (n : nat) (day : Z) : list (Z * op) :=
  match n with O => [] | S n => (noon day, ODistribute) :: distributions n (day + 1) end.
Definition h_full_history : list (Z * op) :=
  [init 1; (noon 100, ODeposit 1 15000000 LFlex None);
   (noon 100, OFill 10000000 (noon 5000) false)] ++ distributions 1096 100.
Theorem C49_full_history_refuted :
  exists c x, leaky (careful_but HistoryRoom) core0 c x /\ lossy c x.
Proof. apply (lossy_run HistoryRoom h_full_history). vm_compute. reflexivity. Qed.
Print Assumptions C49_full_history_refuted.
