(** Consequences of the invariant for whole histories. *)
From stdpp Require Import gmap.
From Verif Require Import Base OMap State Spec ResLemmas TreeLemmas AccrualLemmas
  RefreshLemmas MapSum Core CoreInv CoreSteps.

Definition cinv (s : Prop) (c : core) : Prop := Inv s (c_pool c) (c_min c) (c_vault c) (c_now c).

Lemma inv_mono (s s' : Prop) w M v t : (s' -> s) -> Inv s w M v t -> Inv s' w M v t.
Proof. intros H []. constructor; auto. Qed.

Lemma fresh_inv w v t : fresh_pool w -> v < U64 -> 0 <= v -> 0 <= t -> cinv True (fresh_core w v t).
Proof.
  intros (b & d1 & d2 & d3 & mi & ->) Hv Hv0 Ht. unfold cinv. cbn.
  constructor; cbn; try assumption; try lia; try reflexivity; try (unfold U64; lia).
  - constructor; cbn; auto. intros ? ? [].
  - intros ? ? [].
  - intros ? ? [].
  - intros k m Hk. rewrite lookup_empty in Hk. discriminate.
  - rewrite msum_empty. unfold PRECISION. lia.
Qed.

Lemma step_inv (s : Prop) ts o c c' :
  cinv s c -> c_now c <= ts -> is_u64 ts -> op_wf o ->
  disciplined ts o c -> (s -> exact_disciplined ts o c) ->
  core_step ts o c = Ok c' -> cinv s c' /\ c_now c' = ts.
Proof.
  intros HI Ht Hts Hwf Hd Hex H. unfold cinv in *.
  pose proof (inv_time _ _ _ _ _ _ HI Ht) as HT. clear HI.
  destruct c as [w M v now]. cbn [c_pool c_min c_vault c_now] in *.
  destruct o; cbn [core_step] in H; cbn [op_wf] in Hwf; cbn [c_pool c_min c_vault c_now] in H.
  - (* deposit *) inv. apply get_min_ok in E. pose proof (Hd FreshDelegate) as Hu. pose proof (Hd NoMidnight) as Hm. pose proof (Hd MiningRoom) as Hr.
    cbn. split; [|reflexivity]. cbn in Hu, Hm, Hr.
    eapply inv_deposit; eauto.
    + apply Hwf.
    + apply visible_now; [apply HT|]. intros i. apply Hm.
    + intros s0. apply Hex in s0. apply s0.
  - (* withdraw *) inv. apply get_min_ok in E. cbn. split; [|reflexivity].
    eapply inv_withdraw; eauto; try apply Hwf; try (apply (Hd OnlyUnlocked); exact E).
  - (* extend *) inv. apply get_min_ok in E. pose proof (Hd ExpiredExtend) as Ho. pose proof (Hd NoMidnight) as Hm. pose proof (Hd MiningRoom) as Hr.
    pose proof (Hd OnlyUnlocked) as Hb. cbn. split; [|reflexivity]. cbn in Ho, Hm, Hr, Hb.
    eapply (inv_extend s w M v ts k a old_p new_p start base additional d); eauto; try apply Hwf.
    + apply visible_now; [apply HT|]. intros i. apply Hm.
    + intros s0. apply Hex in s0. apply s0.
  - (* change *) inv. apply bool_decide_eq_false in E. apply get_min_ok in E0.
    pose proof (Hd FreshDelegate) as Hu. pose proof (Hd NoMidnight) as Hm.
    cbn. split; [|reflexivity]. cbn in Hu, Hm.
    eapply inv_change; eauto.
    + apply Hwf.
    + apply visible_now; [apply HT|]. intros i. apply Hm.
  - (* slash *) inv. apply get_min_ok in E. cbn. split; [|reflexivity].
    pose proof (Hd OnlyUnlocked) as Hu. cbn in Hu.
    eapply inv_slash; eauto; try apply Hwf. destruct date; apply Hu; exact E.
  - (* decrease *) inv. apply get_min_ok in E. cbn. split; [|reflexivity].
    apply (inv_decrease s w M v ts k a n a0 HT E); [apply Hwf| |exact E0]. intros s0. apply Hex in s0. apply s0.
  - (* claim *) inv. apply get_min_ok in E. cbn. split; [|reflexivity].
    eapply inv_claim; eauto.
  - (* fill *) pose proof (Hd OutsideSource) as Ho. cbn in Ho. subst from_vault.
    inv. unfold vault_add in *. cbn. split; [|reflexivity].
    destruct (_ <? U64) eqn:X in *; inv. eapply inv_fill; eauto. apply Hwf.
  - (* donate *) inv. unfold vault_add in *. cbn. split; [|reflexivity].
    destruct (_ <? U64) eqn:X in *; inv. eapply inv_donate; eauto. apply Hwf.
  - (* distribute *) inv. cbn. split; [|reflexivity].
    eapply inv_distribute_all; eauto. eapply rewards_nonneg; eauto. apply HT.
  - (* init *) destruct (M !! k) eqn:X; [discriminate|]. inv. cbn. split; [|reflexivity].
    apply inv_init; assumption.
  - (* close *) inv. apply get_min_ok in E. cbn. split; [|reflexivity].
    eapply inv_close; eauto. intros s0 d Hd'. apply Hex in s0 as [_ Hsh].
    specialize (Hsh _ E). cbv beta in Hsh. rewrite <- bod_day_start in Hsh.
    pose proof (i_min _ _ _ _ _ HT _ _ E) as Hm.
    pose proof (refresh_ok _ _ _ _ (i_hist _ _ _ _ _ HT) (mi_ok _ _ _ Hm) E0) as R. cbv zeta in R.
    destruct R as (Rd & Rs & _ & _ & Rf & _).
    pose proof (minv_refresh _ _ _ _ (i_hist _ _ _ _ _ HT) (i_keys _ _ _ _ _ HT) Hm E0) as [[] _ Htot _ _].
    unfold eff. pose proof (due_bounds d _ mo_vals). lia.
Qed.

Lemma history_inv c c' : cinv False c -> history disciplined c c' -> cinv False c'.
Proof.
  intros H0 H. induction H; [assumption|].
  eapply (step_inv False ts o c1 c2); eauto. contradiction.
Qed.

Lemma history_inv_exact c c' : cinv True c -> history exact_disciplined c c' -> cinv True c'.
Proof.
  intros H0 H. induction H; [assumption|].
  eapply (step_inv True ts o c1 c2); eauto; apply H4.
Qed.

Lemma history_now P c c' : history P c c' -> c_now c <= c_now c'.
Proof.
  induction 1; [lia|].
  assert (c_now c2 = ts); [|lia].
  clear -H4. destruct c1. destruct o; cbn [core_step] in H4; inv; try reflexivity;
    match goal with H : (if ?b then _ else _) = Ok _ |- _ => destruct b
                  | H : match ?x with _ => _ end = Ok _ |- _ => destruct x end; inv; reflexivity.
Qed.

Lemma exact_is_disciplined c c' : history exact_disciplined c c' -> history disciplined c c'.
Proof. induction 1; [constructor|]. econstructor; eauto. apply H3. Qed.

Lemma reachable_inv c : reachable disciplined c -> cinv False c.
Proof.
  intros (w & v & t & Hw & Hv & Ht & H). eapply history_inv; [|exact H].
  eapply inv_mono; [|apply fresh_inv]; try assumption; try lia; contradiction.
Qed.

Lemma reachable_inv_exact c : reachable exact_disciplined c -> cinv True c.
Proof.
  intros (w & v & t & Hw & Hv & Ht & H). eapply history_inv_exact; [|exact H].
  apply fresh_inv; try assumption; lia.
Qed.

(** ** C18, C19 *)
Lemma total_share_exact c d :
  reachable exact_disciplined c -> day_start (c_now c) <= d ->
  p_total (wp (c_pool c)) - due d (wp_diffs (c_pool c)) = msum (fun m => eff m d) (c_min c).
Proof.
  intros H Hd. apply reachable_inv_exact in H. rewrite <- bod_day_start in Hd.
  symmetry. apply (i_eq _ _ _ _ _ H I d Hd).
Qed.

Lemma total_share_covers c d :
  reachable disciplined c -> day_start (c_now c) <= d ->
  msum (fun m => eff m d) (c_min c) <= p_total (wp (c_pool c)) - due d (wp_diffs (c_pool c)).
Proof.
  intros H Hd. apply reachable_inv in H. rewrite <- bod_day_start in Hd.
  apply (i_gap _ _ _ _ _ H d Hd).
Qed.

(** ** C20 *)
Lemma solvent_scaled c :
  reachable disciplined c ->
  PRECISION * p_avail (wp (c_pool c)) + msum (owed (wp_ci (c_pool c))) (c_min c)
    <= PRECISION * c_vault c.
Proof. intros H. apply reachable_inv in H. apply H. Qed.

Lemma solvent_claims c ts :
  reachable disciplined c -> c_now c <= ts ->
  p_avail (wp (c_pool c)) + msum (claimable ts c) (c_min c) <= c_vault c.
Proof.
  intros H Ht. apply reachable_inv in H. unfold cinv in H.
  apply (inv_time _ _ _ _ _ ts) in H; [|assumption].
  pose proof (i_solv _ _ _ _ _ H) as Hs.
  assert (msum (fun m => PRECISION * claimable ts c m) (c_min c)
          <= msum (owed (wp_ci (c_pool c))) (c_min c)).
  { apply msum_le. intros k m Hk. unfold claimable.
    destruct (inv_refresh_succeeds _ _ _ _ _ _ _ H Hk) as [m' Hr]. rewrite Hr.
    pose proof (i_min _ _ _ _ _ H k m Hk) as Hm.
    pose proof (refresh_ok _ _ _ _ (i_hist _ _ _ _ _ H) (mi_ok _ _ _ Hm) Hr) as R. cbv zeta in R.
    destruct R as (_ & _ & _ & _ & _ & _ & _ & _ & _ & _ & _ & _ & _ & R & _).
    pose proof (minv_refresh _ _ _ _ (i_hist _ _ _ _ _ H) (i_keys _ _ _ _ _ H) Hm Hr) as Hm'.
    pose proof (owed_nonneg _ _ _ (i_hist _ _ _ _ _ H) Hm'). lia. }
  rewrite msum_scale in H0. unfold PRECISION in *. lia.
Qed.

(** ** C21 *)
Lemma claim_succeeds c ts k m :
  reachable disciplined c -> c_now c <= ts -> c_min c !! k = Some m ->
  exists c', core_step ts (OClaim k) c = Ok c'.
Proof.
  intros H Ht Hk. pose proof (solvent_claims c ts H Ht) as Hs.
  apply reachable_inv in H. unfold cinv in H.
  apply (inv_time _ _ _ _ _ ts) in H; [|assumption].
  destruct (inv_refresh_succeeds _ _ _ _ _ _ _ H Hk) as [m' Hr].
  cbn [core_step]. unfold get_min. rewrite Hk. cbn [rbind]. rewrite Hr. cbn [rbind].
  assert (Hc : m_unclaimed (wm m') <= c_vault c).
  { assert (Hge : claimable ts c m <= msum (claimable ts c) (c_min c)).
    { apply (msum_ge _ _ k m); [|assumption]. intros k' mm Hk'. unfold claimable.
      destruct (refresh ts _ mm) eqn:E; [|lia].
      pose proof (i_min _ _ _ _ _ H k' mm Hk') as Hm.
      pose proof (minv_refresh _ _ _ _ (i_hist _ _ _ _ _ H) (i_keys _ _ _ _ _ H) Hm E) as Hm'.
      apply Hm'. }
    unfold claimable at 1 in Hge. rewrite Hr in Hge.
    pose proof (i_avail _ _ _ _ _ H). lia. }
  rewrite (proj2 (Z.leb_le _ _) Hc). cbn [ensure rbind]. eauto.
Qed.

(** ** C22 *)
Lemma withdraw_succeeds c ts k m a :
  reachable disciplined c -> c_now c <= ts -> c_min c !! k = Some m ->
  0 <= a <= unlocked m ->
  exists c', core_step ts (OWithdraw k a None) c = Ok c'.
Proof.
  intros H Ht Hk Ha. apply reachable_inv in H. unfold cinv in H.
  apply (inv_time _ _ _ _ _ ts) in H; [|assumption].
  destruct (inv_refresh_succeeds _ _ _ _ _ _ _ H Hk) as [m1 Hr].
  pose proof (inv_refresh _ _ _ _ _ _ _ _ H Hk Hr) as H1.
  pose proof (i_min _ _ _ _ _ H1 k m1 (lookup_insert _ _ _)) as Hm1.
  pose proof (i_min _ _ _ _ _ H k m Hk) as Hm.
  rewrite <- (refresh_unlocked _ _ _ _ (i_hist _ _ _ _ _ H) (mi_ok _ _ _ Hm) Hr) in Ha.
  unfold unlocked in Ha.
  pose proof (inv_eff_le _ _ _ _ _ _ _ (bod ts) H1 (lookup_insert _ _ _) (Z.le_refl _)) as He.
  unfold eff, pool_net in He.
  pose proof (due_bounds (bod ts) _ (mo_vals _ (mi_ok _ _ _ Hm1))).
  pose proof (mo_sfo _ (mi_ok _ _ _ Hm1)).
  pose proof (due_bounds (bod ts) _ (i_pvals _ _ _ _ _ H)) as Hdb.
  cbn [core_step]. unfold get_min, get_dlg. rewrite Hk. cbn [rbind].
  unfold withdraw. rewrite Hr. cbn [rbind].
  rewrite (proj2 (safe_sub_ok _ _ (p_total (wp (c_pool c)) - a))) by lia. cbn [rbind].
  rewrite (proj2 (safe_sub_ok _ _ (m_share (wm m1) - a))) by lia. cbn [rbind].
  rewrite pool_consume_succeeds; [|apply H|apply H|lia]. cbn [rbind delegate_sub]. eauto.
Qed.

(** distribution never gets stuck on its schedule *)
Lemma consume_never_stuck c ts :
  reachable disciplined c -> c_now c <= ts ->
  exists r, pool_consume (bod ts) (p_total (wp (c_pool c))) (wp_diffs (c_pool c)) = Ok r.
Proof.
  intros H Ht. apply reachable_inv in H. unfold cinv in H.
  apply (inv_time _ _ _ _ _ ts) in H; [|assumption].
  eapply inv_consume_succeeds; eauto.
Qed.
