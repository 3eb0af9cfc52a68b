(** C56: every staker gets the share of every distribution that the weighted stake calls for. *)
From stdpp Require Import gmap.
From Verif Require Import Base OMap State Spec MapSum Core CoreRun Witness DustSpec DustRun PropsDust FairSpec Fair.

(** never more than the share *)
Theorem C56_never_more : forall w v t c x k ts,
  fresh_pool w -> 0 <= v < 18446744073709551616 -> 0 <= t ->
  tallied disciplined (fresh_core w v t) c x -> c_now c <= ts ->
  10000000000000000 * (t_paid (x k) + can_claim ts c k) <= t_fair (x k).
Proof. exact claims_at_most. Qed.
Print Assumptions C56_never_more.

(** less only by rounding *)
Theorem C56_hardly_less : forall w v t c x k ts,
  fresh_pool w -> 0 <= v < 18446744073709551616 -> 0 <= t ->
  tallied careful (fresh_core w v t) c x -> c_now c <= ts -> no_midnight ts c ->
  t_fair (x k) <= 10000000000000000 * (t_paid (x k) + can_claim ts c k) + t_lost (x k) + refresh_dust ts c k.
Proof. exact claims_at_least. Qed.
Print Assumptions C56_hardly_less.

(** who never has less at stake than another does not get less *)
Theorem C56_no_favours : forall w v t c x j k ts,
  fresh_pool w -> 0 <= v < 18446744073709551616 -> 0 <= t ->
  tallied (fun ts o c => careful ts o c /\ smaller_stake j k ts o c) (fresh_core w v t) c x ->
  c_now c <= ts -> no_midnight ts c ->
  10000000000000000 * (t_paid (x j) + can_claim ts c j) <=
  10000000000000000 * (t_paid (x k) + can_claim ts c k) + t_lost (x k) + refresh_dust ts c k.
Proof. exact not_less_than. Qed.
Print Assumptions C56_no_favours.

(** ** Histories with tallies *)
Fixpoint run_tally (b : Z -> op -> core -> bool) (l : list (Z * op)) (c : core) (x : pubkey -> tally)
  : res (core * (pubkey -> tally)) :=
  match l with
  | [] => Ok (c, x)
  | (ts, o) :: r =>
      if (c_now c <=? ts) && is_u64b ts && op_wf_b o && b ts o c then
        let? c' := core_step ts o c in run_tally b r c' (fun k => add_tally ts o c c' k (x k))
      else Err EInvalidArgument
  end.
Lemma run_tally_ok b (P : Z -> op -> core -> Prop) l c0 c x c' x' :
  (forall ts o c, b ts o c = true -> P ts o c) ->
  tallied P c0 c x -> run_tally b l c x = Ok (c', x') -> tallied P c0 c' x'.
Proof.
  intros Hb. revert c x. induction l as [|[ts o] r IH]; cbn [run_tally]; intros c x H0 H.
  - injection H as <- <-. assumption.
  - destruct (_ && _) eqn:E in H; [|discriminate].
    apply andb_true_iff in E as [E Hp]. apply andb_true_iff in E as [E Hwf].
    apply andb_true_iff in E as [Ht Hts].
    destruct (core_step ts o c) as [c1|] eqn:Hs; cbn [rbind] in H; [|discriminate].
    eapply IH; [|exact H]. apply (ta_step _ _ c); auto.
    + lia.
    + apply is_u64b_ok; assumption.
    + apply op_wf_b_ok; assumption.
Qed.

(** in the careful history of C49 *)
Definition careful_tally : core * (pubkey -> tally) :=
  match run_tally careful_b h_careful core0 (fun _ => no_tally) with Ok r => r | Err _ => (core0, fun _ => no_tally) end.
Lemma careful_tallied : tallied careful core0 (fst careful_tally) (snd careful_tally).
Proof.
  apply (run_tally_ok careful_b careful h_careful core0 core0 (fun _ => no_tally)); [exact careful_b_ok|constructor|].
  assert (E : match run_tally careful_b h_careful core0 (fun _ => no_tally) with Ok _ => true | Err _ => false end = true)
    by (vm_compute; reflexivity).
  unfold careful_tally. destruct (run_tally careful_b h_careful core0 (fun _ => no_tally)) as [[c x]|]; [reflexivity|discriminate].
Qed.
Definition share (k : pubkey) : Z * Z * Z * Z :=
  let c := fst careful_tally in let x := snd careful_tally k in
  (t_paid x, can_claim (noon 194) c k, t_fair x / 10000000000000000, (t_lost x + refresh_dust (noon 194) c k) / 10000000000000000).
(** paid, claimable, share, and what rounding may take: in whole tokens *)
Example C56_example :
  fresh_pool pool0 /\ tallied careful (fresh_core pool0 0 0) (fst careful_tally) (snd careful_tally) /\
  tallied disciplined (fresh_core pool0 0 0) (fst careful_tally) (snd careful_tally) /\
  c_now (fst careful_tally) = noon 194 /\ no_midnight (noon 194) (fst careful_tally) /\
  map share [1; 2; 3; 4; 5] =
    [(978, 8265, 9245, 6); (10749, 0, 10749, 6); (0, 5676, 5676, 2); (0, 3649, 3650, 3); (0, 0, 0, 1)].
Proof.
  split; [unfold fresh_pool, pool0; eauto 10|]. split; [exact careful_tallied|].
  split; [exact (tallied_weaken _ _ _ _ _ careful_disciplined careful_tallied)|].
  split; [vm_compute; reflexivity|]. split; [|vm_compute; reflexivity].
  intros i Hin. vm_compute in Hin.
  repeat (destruct Hin as [Hin|Hin]; [discriminate|]). exact Hin.
Qed.

(** one staker claims every day, the other with the same stake never does: after three
    days one has got 927 tokens and the other can get 929 *)
Definition h_two : list (Z * op) :=
  [init 1; init 2; init 3;
   (noon 100, ODeposit 1 35 LFlex None);
   (noon 100, ODeposit 2 35 LFlex None);
   (noon 100, ODeposit 3 43 LFlex None);
   (noon 100, OFill 3000 (noon 104) false);
   (noon 100, ODistribute); (noon 101, OClaim 1);
   (noon 101, ODistribute); (noon 102, OClaim 1);
   (noon 102, ODistribute); (noon 103, OClaim 1)].
Definition smaller_b (j k : pubkey) (ts : Z) (o : op) (c : core) : bool :=
  match o with ODistribute => stake_on (day_start ts) c j <=? stake_on (day_start ts) c k | _ => true end.
Definition both_b (j k : pubkey) (ts : Z) (o : op) (c : core) : bool := careful_b ts o c && smaller_b j k ts o c.
Lemma both_b_ok j k ts o c : both_b j k ts o c = true -> careful ts o c /\ smaller_stake j k ts o c.
Proof.
  unfold both_b. intros H. apply andb_true_iff in H as [H1 H2]. split; [apply careful_b_ok; assumption|].
  intros ->. cbn [smaller_b] in H2. lia.
Qed.
Definition two_tally (j k : pubkey) : core * (pubkey -> tally) :=
  match run_tally (both_b j k) h_two core0 (fun _ => no_tally) with Ok r => r | Err _ => (core0, fun _ => no_tally) end.
Lemma two_tallied j k :
  match run_tally (both_b j k) h_two core0 (fun _ => no_tally) with Ok _ => true | Err _ => false end = true ->
  tallied (fun ts o c => careful ts o c /\ smaller_stake j k ts o c) core0 (fst (two_tally j k)) (snd (two_tally j k)).
Proof.
  intros E. apply (run_tally_ok (both_b j k) _ h_two core0 core0 (fun _ => no_tally)); [apply both_b_ok|constructor|].
  unfold two_tally. destruct (run_tally (both_b j k) h_two core0 (fun _ => no_tally)) as [[c x]|]; [reflexivity|discriminate].
Qed.
Definition got (r : core * (pubkey -> tally)) (k : pubkey) : Z * Z :=
  (t_paid (snd r k), can_claim (noon 103) (fst r) k).
Example C56_example_two :
  tallied (fun ts o c => careful ts o c /\ smaller_stake 1 2 ts o c) (fresh_core pool0 0 0) (fst (two_tally 1 2)) (snd (two_tally 1 2)) /\
  tallied (fun ts o c => careful ts o c /\ smaller_stake 2 1 ts o c) (fresh_core pool0 0 0) (fst (two_tally 2 1)) (snd (two_tally 2 1)) /\
  c_now (fst (two_tally 1 2)) = noon 103 /\ no_midnight (noon 103) (fst (two_tally 1 2)) /\
  got (two_tally 1 2) 1 = (927, 0) /\ got (two_tally 1 2) 2 = (0, 929) /\
  got (two_tally 2 1) 1 = (927, 0) /\ got (two_tally 2 1) 2 = (0, 929).
Proof.
  split; [apply two_tallied; vm_compute; reflexivity|]. split; [apply two_tallied; vm_compute; reflexivity|].
  split; [vm_compute; reflexivity|]. split; [|vm_compute; repeat split; reflexivity].
  intros i Hin. vm_compute in Hin.
  repeat (destruct Hin as [Hin|Hin]; [discriminate|]). exact Hin.
Qed.

(** ** Without the conditions *)
(** the mining at [k] gets more than its share *)
Definition excess (k : pubkey) (r : res (core * (pubkey -> tally))) : bool :=
  match r with
  | Ok (c, x) => t_fair (x k) <? 10000000000000000 * (t_paid (x k) + can_claim (c_now c) c k)
  | Err _ => false
  end.
Lemma excess_run y l k :
  excess k (run_tally (all_but_b y) l core0 (fun _ => no_tally)) = true ->
  exists c x, tallied (all_but y) core0 c x /\
    t_fair (x k) < 10000000000000000 * (t_paid (x k) + can_claim (c_now c) c k).
Proof.
  intros H. destruct (run_tally (all_but_b y) l core0 (fun _ => no_tally)) as [[c x]|] eqn:E; [|discriminate].
  exists c, x. split.
  - apply (run_tally_ok (all_but_b y) (all_but y) l core0 core0 (fun _ => no_tally));
      [exact (all_but_b_ok y)|constructor|exact E].
  - cbn [excess] in H. lia.
Qed.

(** the delegate of a new stake is paid for the days before *)
Theorem C56_stale_delegate_refuted :
  exists c x k, tallied (all_but FreshDelegate) core0 c x /\
    t_fair (x k) < 10000000000000000 * (t_paid (x k) + can_claim (c_now c) c k).
Proof.
  destruct (excess_run FreshDelegate h_stale_delegate 3) as (c & x & H); [vm_compute; reflexivity|]. eauto.
Qed.
Print Assumptions C56_stale_delegate_refuted.
(** after an early extension the others share more than there is *)
Theorem C56_early_extend_refuted :
  exists c x k, tallied (all_but ExpiredExtend) core0 c x /\
    t_fair (x k) < 10000000000000000 * (t_paid (x k) + can_claim (c_now c) c k).
Proof.
  destruct (excess_run ExpiredExtend h_early_extend 2) as (c & x & H); [vm_compute; reflexivity|]. eauto.
Qed.
Print Assumptions C56_early_extend_refuted.
(** so they do when the schedule of a mining overflows *)
Theorem C56_slots_refuted :
  exists c x k, tallied (all_but MiningRoom) core0 c x /\
    t_fair (x k) < 10000000000000000 * (t_paid (x k) + can_claim (c_now c) c k).
Proof.
  destruct (excess_run MiningRoom h_slots 2) as (c & x & H); [vm_compute; reflexivity|]. eauto.
Qed.
Print Assumptions C56_slots_refuted.
(** a stake made in the second a distribution is dated at is paid for it *)
Theorem C56_midnight_refuted :
  exists c x k, tallied (all_but NoMidnight) core0 c x /\
    t_fair (x k) < 10000000000000000 * (t_paid (x k) + can_claim (c_now c) c k).
Proof.
  destruct (excess_run NoMidnight h_midnight 2) as (c & x & H); [vm_compute; reflexivity|]. eauto.
Qed.
Print Assumptions C56_midnight_refuted.
(** after locked stake is withdrawn the others share more than there is *)
Theorem C56_locked_refuted :
  exists c x k, tallied (all_but OnlyUnlocked) core0 c x /\
    t_fair (x k) < 10000000000000000 * (t_paid (x k) + can_claim (c_now c) c k).
Proof.
  destruct (excess_run OnlyUnlocked h_locked 2) as (c & x & H); [vm_compute; reflexivity|]. eauto.
Qed.
Print Assumptions C56_locked_refuted.

(** the mining at [k] gets less than its share, and not by rounding *)
Definition deficit (k : pubkey) (r : res (core * (pubkey -> tally))) : bool :=
  match r with
  | Ok (c, x) =>
      10000000000000000 * (t_paid (x k) + can_claim (c_now c + 1) c k) + t_lost (x k) + refresh_dust (c_now c + 1) c k
      <? t_fair (x k)
  | Err _ => false
  end.
Lemma deficit_run y l k :
  deficit k (run_tally (careful_but_b y) l core0 (fun _ => no_tally)) = true ->
  exists c x, tallied (careful_but y) core0 c x /\
    10000000000000000 * (t_paid (x k) + can_claim (c_now c + 1) c k) + t_lost (x k) + refresh_dust (c_now c + 1) c k
    < t_fair (x k).
Proof.
  intros H. destruct (run_tally (careful_but_b y) l core0 (fun _ => no_tally)) as [[c x]|] eqn:E; [|discriminate].
  exists c, x. split.
  - apply (run_tally_ok (careful_but_b y) (careful_but y) l core0 core0 (fun _ => no_tally));
      [exact (careful_but_b_ok y)|constructor|exact E].
  - cbn [deficit] in H. lia.
Qed.

(** a delegate loses yesterday's rewards when stake is taken from it today *)
Theorem C56_abandoned_delegate_refuted :
  exists c x k, tallied (careful_but FreshOldDelegate) core0 c x /\
    10000000000000000 * (t_paid (x k) + can_claim (c_now c + 1) c k) + t_lost (x k) + refresh_dust (c_now c + 1) c k
    < t_fair (x k).
Proof.
  destruct (deficit_run FreshOldDelegate h_stale_withdraw 1) as (c & x & H); [vm_compute; reflexivity|]. eauto.
Qed.
Print Assumptions C56_abandoned_delegate_refuted.
(** who withdraws in the second a distribution is dated at gets nothing of it *)
Theorem C56_midnight_exit_refuted :
  exists c x k, tallied (careful_but NoMidnightExit) core0 c x /\
    10000000000000000 * (t_paid (x k) + can_claim (c_now c + 1) c k) + t_lost (x k) + refresh_dust (c_now c + 1) c k
    < t_fair (x k).
Proof.
  destruct (deficit_run NoMidnightExit h_midnight_withdraw 1) as (c & x & H); [vm_compute; reflexivity|]. eauto.
Qed.
Print Assumptions C56_midnight_exit_refuted.
(** from the 1096th day of distributions on nobody gets anything *)
Theorem C56_full_history_refuted :
  exists c x k, tallied (careful_but HistoryRoom) core0 c x /\
    10000000000000000 * (t_paid (x k) + can_claim (c_now c + 1) c k) + t_lost (x k) + refresh_dust (c_now c + 1) c k
    < t_fair (x k).
Proof.
  destruct (deficit_run HistoryRoom h_full_history 1) as (c & x & H); [vm_compute; reflexivity|]. eauto.
Qed.
Print Assumptions C56_full_history_refuted.
