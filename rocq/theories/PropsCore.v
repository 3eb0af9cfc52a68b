(** Theorems about one pool with its minings and vault (Core.v): C18-C23, C43, C44. *)
From stdpp Require Import gmap.
From Verif Require Import Base OMap State Spec MapSum Core CoreThms CoreRun CoreLive Witness CoreMore.

(** ** C18 *)
Theorem C18_total_share_exact : forall c d,
  reachable exact_disciplined c -> day_start (c_now c) <= d ->
  p_total (wp (c_pool c)) - due d (wp_diffs (c_pool c)) = stakes c d.
Proof. exact total_share_exact. Qed.
Print Assumptions C18_total_share_exact.

Example C18_example :
  reachable exact_disciplined good /\ p_total (wp (c_pool good)) = 2120 /\
  stakes good (c_now good) = 2120 /\ stakes good (noon 10000) = 1560.
Proof. split; [exact good_reachable|]. vm_compute. auto. Qed.

(** ** C19 *)
Theorem C19_total_share_covers : forall c d,
  reachable disciplined c -> day_start (c_now c) <= d ->
  stakes c d <= p_total (wp (c_pool c)) - due d (wp_diffs (c_pool c)).
Proof. exact total_share_covers. Qed.
Print Assumptions C19_total_share_covers.

Theorem C19_close_leaves_pool : forall c ts k m c' d,
  c_min c !! k = Some m -> core_step ts (OClose k) c = Ok c' ->
  c_pool c' = c_pool c /\ c_vault c' = c_vault c /\ stakes c' d = stakes c d - eff m d.
Proof. exact close_gap. Qed.
Print Assumptions C19_close_leaves_pool.

Theorem C19_decrease_leaves_pool : forall c ts k m n c' d,
  reachable disciplined c -> 0 <= n ->
  c_min c !! k = Some m -> core_step ts (ODecrease k n) c = Ok c' ->
  c_pool c' = c_pool c /\ c_vault c' = c_vault c /\
  stakes c d - n <= stakes c' d <= stakes c d /\
  (due d (wm_diffs m) = 0 -> stakes c' d = stakes c d - n).
Proof. exact decrease_gap. Qed.
Print Assumptions C19_decrease_leaves_pool.

Example C19_example :
  reachable disciplined good_more /\ stakes good_more (c_now good_more) = 1880 /\
  p_total (wp (c_pool good_more)) = 2120 /\
  option_map (fun m => eff m (noon 195)) (c_min good !! 4) = Some 240.
Proof. split; [exact good_more_reachable|]. vm_compute. auto. Qed.

(** ** C20 *)
Theorem C20_solvency : forall c,
  reachable disciplined c ->
  PRECISION * p_avail (wp (c_pool c)) + msum (owed (wp_ci (c_pool c))) (c_min c)
    <= PRECISION * c_vault c.
Proof. exact solvent_scaled. Qed.
Print Assumptions C20_solvency.

Theorem C20_solvency_claims : forall c ts,
  reachable disciplined c -> c_now c <= ts ->
  p_avail (wp (c_pool c)) + msum (claimable ts c) (c_min c) <= c_vault c.
Proof. exact solvent_claims. Qed.
Print Assumptions C20_solvency_claims.

Example C20_example :
  reachable disciplined good /\ c_vault good = 88769 /\ p_avail (wp (c_pool good)) = 70678 /\
  msum (claimable (noon 195) good) (c_min good) = 17916.
Proof. split; [exact good_disciplined|]. vm_compute. auto. Qed.

(** ** C21 *)
Theorem C21_claims_succeed : forall c ts k m,
  reachable disciplined c -> c_now c <= ts -> c_min c !! k = Some m ->
  exists c', core_step ts (OClaim k) c = Ok c'.
Proof. exact claim_succeeds. Qed.
Print Assumptions C21_claims_succeed.

Example C21_example : option_map (claimable (noon 300) good) (c_min good !! 1) = Some 8591.
Proof. vm_compute. reflexivity. Qed.

(** ** C22 *)
Theorem C22_unlocked_withdraws : forall c ts k m a,
  reachable disciplined c -> c_now c <= ts -> c_min c !! k = Some m ->
  0 <= a <= unlocked m ->
  exists c', core_step ts (OWithdraw k a None) c = Ok c'.
Proof. exact withdraw_succeeds. Qed.
Print Assumptions C22_unlocked_withdraws.

Theorem C22_unlocked_withdraws_delegated : forall c ts k m a x md,
  reachable disciplined c -> c_now c <= ts -> c_min c !! k = Some m ->
  c_min c !! x = Some md -> x <> k ->
  0 <= a <= unlocked m -> a <= m_sfo (wm md) ->
  exists c', core_step ts (OWithdraw k a (Some x)) c = Ok c'.
Proof. exact withdraw_delegated_succeeds. Qed.
Print Assumptions C22_unlocked_withdraws_delegated.

Example C22_example :
  option_map unlocked (c_min good !! 2) = Some 700 /\
  option_map (fun m => m_sfo (wm m)) (c_min good !! 1) = Some 300.
Proof. vm_compute. auto. Qed.

(** ** C23 *)
Theorem C23_every_condition_needed : forall x, exists c, reachable (all_but x) c /\ insolvent c.
Proof. exact every_condition_needed. Qed.
Print Assumptions C23_every_condition_needed.

Theorem C23_stale_and_changed_delegate :
  check (all_but_b FreshDelegate) h_stale_delegate = true /\
  check (all_but_b FreshDelegate) h_change_delegate = true.
Proof. exact fresh_variants. Qed.
Print Assumptions C23_stale_and_changed_delegate.

(** ** C43 *)
Theorem C43_distribution_succeeds : forall c ts,
  reachable disciplined c -> c_now c <= ts ->
  Z.of_nat (length (wp_ci (c_pool c))) < 1095 ->
  due (day_start ts) (wp_diffs (c_pool c)) < p_total (wp (c_pool c)) ->
  exists c', core_step ts ODistribute c = Ok c'.
Proof. exact distribute_succeeds. Qed.
Print Assumptions C43_distribution_succeeds.

Example C43_example :
  due (day_start (noon 10000)) (wp_diffs (c_pool good)) = 560 /\ p_total (wp (c_pool good)) = 2120 /\
  length (wp_ci (c_pool good)) = 5%nat.
Proof. vm_compute. auto. Qed.

(** ** C44 *)
Theorem C44_deposit_succeeds : forall c ts k m a p d,
  reachable disciplined c -> c_now c <= ts -> ts + 366 * 86400 < U64 ->
  disciplined ts (ODeposit k a p d) c ->
  c_min c !! k = Some m -> p <> LNone -> 0 <= a ->
  p_total (wp (c_pool c)) + a * weight_of p + (match d with Some _ => a | None => 0 end) < U64 ->
  (forall x, d = Some x -> x <> k /\ exists md, c_min c !! x = Some md /\
                           m_share (wm md) + m_sfo (wm md) + a < U64) ->
  exists c', core_step ts (ODeposit k a p d) c = Ok c'.
Proof. exact deposit_succeeds. Qed.
Print Assumptions C44_deposit_succeeds.

Example C44_example : disciplined (noon 194) (ODeposit 1 1000 L1Y (Some 2)) good.
Proof. apply disciplined_b_ok. vm_compute. reflexivity. Qed.
