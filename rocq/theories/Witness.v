(** Concrete histories: what happens when a condition of the discipline fails,
    and states meeting the hypotheses of the theorems. *)
From stdpp Require Import gmap.
From Verif Require Import Base OMap State Spec MapSum Core CoreThms CoreRun.

(** noon of day n *)
Definition noon (n : Z) : Z := n * 86400 + 43200.
Definition init (k : Z) : Z * op := (noon 100, OInit k 1 k 255).

(** the vault cannot cover the budget and the claims *)
Definition insolvent (c : core) : Prop :=
  c_vault c < p_avail (wp (c_pool c)) + msum (claimable (c_now c) c) (c_min c).

Definition insolvent_b (c : core) : bool :=
  c_vault c <? p_avail (wp (c_pool c)) + msum (claimable (c_now c) c) (c_min c).

Definition check (b : Z -> op -> core -> bool) (l : list (Z * op)) : bool :=
  match run b l core0 with Ok c => insolvent_b c | Err _ => false end.

Lemma check_ok b (P : Z -> op -> core -> Prop) l :
  (forall ts o c, b ts o c = true -> P ts o c) -> check b l = true ->
  exists c, reachable P c /\ insolvent c.
Proof.
  intros Hb H. unfold check in H. destruct (run b l core0) as [c|] eqn:E; [|discriminate].
  exists c. split; [eapply run_reachable; eauto|]. unfold insolvent_b in H. unfold insolvent. lia.
Qed.

(** staker 1 alone earns a distribution of 1000; a day later staker 2 delegates
    to the brand-new mining 3, whose index is still 0 *)
Definition h_new_delegate : list (Z * op) :=
  [init 1; init 2; init 3;
   (noon 100, ODeposit 1 100 LFlex None);
   (noon 100, OFill 1000 (noon 101) false);
   (noon 101, ODistribute);
   (noon 102, ODeposit 2 100 LFlex (Some 3))].

(** as before, but the delegate 3 has a stake and was up to date before the
    distribution *)
Definition h_stale_delegate : list (Z * op) :=
  [init 1; init 2; init 3;
   (noon 100, ODeposit 1 100 LFlex None);
   (noon 100, ODeposit 3 100 LFlex None);
   (noon 100, OFill 1000 (noon 110) false);
   (noon 101, ODistribute);
   (noon 102, OClaim 3);
   (noon 102, ODistribute);
   (noon 103, ODeposit 2 1000 LFlex (Some 3))].

Definition h_change_delegate : list (Z * op) :=
  [init 1; init 2; init 3;
   (noon 100, ODeposit 1 100 LFlex None);
   (noon 100, OFill 1000 (noon 101) false);
   (noon 101, ODistribute);
   (noon 102, OChange 1 None (Some 2) 100)].

(** stake 1 is extended before its expiry on day 190 *)
Definition h_early_extend : list (Z * op) :=
  [init 1; init 2;
   (noon 100, ODeposit 1 100 L3M None);
   (noon 100, ODeposit 2 400 LFlex None);
   (noon 101, OExtend 1 L3M L1Y (noon 100) 100 0 None);
   (noon 189, OFill 1000 (noon 190) false);
   (noon 190, ODistribute);
   (noon 191, OClaim 2)].

Definition h_midnight : list (Z * op) :=
  [init 1; init 2;
   (noon 100, ODeposit 1 100 LFlex None);
   (noon 100, OFill 1000 (noon 101) false);
   (101 * 86400, ODistribute);
   (101 * 86400, ODeposit 2 100 LFlex None);
   (noon 101, OClaim 1)].

Definition h_locked : list (Z * op) :=
  [init 1; init 2; 
   (noon 100, ODeposit 1 100 L3M None);
   (noon 100, ODeposit 2 400 LFlex None);
   (noon 101, OWithdraw 1 200 None);
   (noon 189, OFill 1000 (noon 190) false);
   (noon 190, ODistribute)].

Definition h_self_fill : list (Z * op) :=
  [init 1;
   (noon 100, ODeposit 1 100 LFlex None);
   (noon 100, OFill 1000 (noon 101) false);
   (noon 100, OFill 1000 (noon 101) true)].

(** 51 deposits on consecutive days *)
Definition h_slots : list (Z * op) :=
  [init 1; init 2; (noon 100, ODeposit 2 100 LFlex None)]
  ++ map (fun n => (noon (100 + Z.of_nat n), ODeposit 1 100 L1Y None)) (seq 0 51)
  ++ [(noon 600, OFill 1000000 (noon 601) false);
      (noon 601, ODistribute);
      (noon 602, OClaim 2)].

(** A disciplined history using every kind of event. *)
Definition h_good : list (Z * op) :=
  [init 1; init 2; init 3; init 4; init 5;
   (noon 100, ODeposit 1 100 L3M None);
   (noon 100, ODeposit 2 1000 LFlex (Some 1));
   (noon 100, ODeposit 4 50 L1Y None);
   (noon 100, OFill 100000 (noon 200) false);
   (noon 100, ODonate 7);
   (noon 101, ODistribute);
   (noon 102, OClaim 1);
   (noon 102, ODistribute);
   (noon 103, OClaim 3);
   (noon 103, OChange 2 (Some 1) (Some 3) 400);
   (noon 103, OWithdraw 2 300 (Some 1));
   (noon 103, OSlash 4 10 60 (Some (noon 465)));
   (noon 104, ODistribute);
   (noon 191, ODistribute);
   (noon 192, OExtend 1 L3M L6M (noon 100) 100 20 None);
   (noon 193, ODistribute);
   (noon 194, OClaim 2)].
Definition h_good_more : list (Z * op) :=
  h_good ++ [(noon 195, ODecrease 4 30); (noon 195, OClaim 4); (noon 196, OClose 4)].

Definition state_of (b : Z -> op -> core -> bool) (l : list (Z * op)) : core :=
  match run b l core0 with Ok c => c | Err _ => core0 end.
Definition good : core := state_of exact_b h_good.
Definition good_more : core := state_of disciplined_b h_good_more.

Lemma good_runs : run exact_b h_good core0 = Ok good.
Proof. vm_compute. reflexivity. Qed.
Lemma good_more_runs : run disciplined_b h_good_more core0 = Ok good_more.
Proof. vm_compute. reflexivity. Qed.
