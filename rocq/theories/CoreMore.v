(** What penalties and closing do to the sum of stakes; the insolvent histories. *)
From stdpp Require Import gmap.
From Verif Require Import Base OMap State Spec ResLemmas TreeLemmas AccrualLemmas
  RefreshLemmas MapSum Core CoreInv CoreSteps CoreThms CoreRun Witness.

(** sum over the pool's minings of the weighted stake on day [d] *)
Definition stakes (c : core) (d : Z) : Z := msum (fun m => eff m d) (c_min c).

Lemma close_gap c ts k m c' d :
  c_min c !! k = Some m -> core_step ts (OClose k) c = Ok c' ->
  c_pool c' = c_pool c /\ c_vault c' = c_vault c /\ stakes c' d = stakes c d - eff m d.
Proof.
  intros Hk H. cbn [core_step] in H. unfold get_min in H. rewrite Hk in H. cbn [rbind] in H.
  inv. cbn [c_min c_pool c_vault]. split; [reflexivity|]. split; [reflexivity|]. unfold stakes. cbn [c_min c_pool c_vault].
  rewrite (msum_delete _ (c_min c) k m Hk). cbv beta. unfold pubkey in *. lia.
Qed.

Lemma decrease_gap c ts k m n c' d :
  reachable disciplined c -> 0 <= n ->
  c_min c !! k = Some m -> core_step ts (ODecrease k n) c = Ok c' ->
  c_pool c' = c_pool c /\ c_vault c' = c_vault c /\
  stakes c d - n <= stakes c' d <= stakes c d /\
  (due d (wm_diffs m) = 0 -> stakes c' d = stakes c d - n).
Proof.
  intros HR Hn Hk H. apply reachable_inv in HR.
  pose proof (mi_ok _ _ _ (i_min _ _ _ _ _ HR k m Hk)) as Hok.
  cbn [core_step] in H. unfold get_min in H. rewrite Hk in H. cbn [rbind] in H.
  inv. cbn [c_min c_pool c_vault]. split; [reflexivity|]. split; [reflexivity|]. unfold stakes. cbn [c_min c_pool c_vault].
  rewrite (msum_insert _ (c_min c) k m _ Hk). cbv beta.
  destruct (decrease_rewards_ok n m a Hn (mo_asc _ Hok) (mo_vals _ Hok) E)
    as (Hw & _ & _ & Hv & _ & _ & Hd).
  specialize (Hd d). pose proof (due_bounds d _ Hv). unfold eff. rewrite Hw. cbn. lia.
Qed.

Lemma every_condition_needed x : exists c, reachable (all_but x) c /\ insolvent c.
Proof.
  destruct x.
  - apply (check_ok _ _ h_new_delegate (all_but_b_ok _)). vm_compute. reflexivity.
  - apply (check_ok _ _ h_early_extend (all_but_b_ok _)). vm_compute. reflexivity.
  - apply (check_ok _ _ h_slots (all_but_b_ok _)). vm_compute. reflexivity.
  - apply (check_ok _ _ h_midnight (all_but_b_ok _)). vm_compute. reflexivity.
  - apply (check_ok _ _ h_locked (all_but_b_ok _)). vm_compute. reflexivity.
  - apply (check_ok _ _ h_self_fill (all_but_b_ok _)). vm_compute. reflexivity.
Qed.

Lemma fresh_variants :
  check (all_but_b FreshDelegate) h_stale_delegate = true /\
  check (all_but_b FreshDelegate) h_change_delegate = true.
Proof. split; vm_compute; reflexivity. Qed.

Lemma good_reachable : reachable exact_disciplined good.
Proof. exact (run_reachable _ _ _ _ exact_b_ok good_runs). Qed.
Lemma good_more_reachable : reachable disciplined good_more.
Proof. exact (run_reachable _ _ _ _ disciplined_b_ok good_more_runs). Qed.
Lemma good_disciplined : reachable disciplined good.
Proof.
  destruct good_reachable as (w & v & t & Hw & Hv & Ht & H).
  exists w, v, t. split; [exact Hw|]. split; [exact Hv|]. split; [exact Ht|].
  exact (exact_is_disciplined _ _ H).
Qed.
