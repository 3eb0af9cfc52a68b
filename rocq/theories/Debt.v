(** C81: proofs. *)
From stdpp Require Import gmap.
From Verif Require Import Base OMap State Spec MapSum ResLemmas TreeLemmas AccrualLemmas RefreshLemmas WfLemmas
  EffectSpec EffectLemmas EffectMethods Core CoreInv CoreSteps DustSpec Worth DebtSpec.

(** ** One mining *)
Section mining.
Context (ci : sched) (ts : Z) (Hh : hist_ok ci) (Hd : dates (fun k => k <= day_start ts) ci).

Lemma day_le : day_start ts <= ts.
Proof. rewrite <- bod_day_start. pose proof (bod_bounds ts). lia. Qed.

Lemma seen_last : seen ts ci = last_from 0 ci.
Proof.
  unfold seen, visible. apply visible_all. intros k i Hin. specialize (Hd k i Hin). cbv beta in *. pose proof day_le. lia.
Qed.
Lemma visible_seen : 0 <= visible ts ci <= seen ts ci.
Proof. rewrite seen_last. apply visible_bounds. apply Hh. Qed.
Lemma late_nonneg : 0 <= late ts ci.
Proof. unfold late. pose proof visible_seen. lia. Qed.

Lemma accrual_const j s : 0 <= j <= seen ts ci -> accrual j (fun _ => s) ci = (seen ts ci - j) * s.
Proof.
  intros Hj. unfold accrual.
  rewrite (accrual_step j (fun _ => s) s 0 (ts + 1) ci (h_grow _ Hh)); [|exact (proj2 Hj)|reflexivity].
  fold (visible (ts + 1) ci). fold (seen ts ci). rewrite Z.max_r by lia.
  rewrite accrual_below; [lia|apply Hh|]. rewrite seen_last. lia.
Qed.

Lemma accrual_now f : accrual (visible ts ci) f ci = f (day_start ts) * late ts ci.
Proof.
  pose proof visible_seen. rewrite <- (Z.mul_comm (late ts ci)). unfold late. rewrite <- accrual_const by lia.
  apply accrual_ext; [apply Hh|]. intros k i Hin Hlt. f_equal.
  pose proof (visible_above 0 ts ci k i (h_grow _ Hh) (h_asc _ Hh) Hin Hlt). pose proof (Hd k i Hin). pose proof day_le. cbv beta in *. lia.
Qed.

Lemma owed_now m : m_index (wm m) = visible ts ci ->
  owed ci m = 10000000000000000 * m_unclaimed (wm m) + eff m (day_start ts) * late ts ci.
Proof. intros E. unfold owed. rewrite E, accrual_now. reflexivity. Qed.

Lemma owed_delegated m a : 0 <= m_index (wm m) <= seen ts ci ->
  owed ci (with_delegated m (m_sfo (wm m) + a)) = owed ci m + a * (seen ts ci - m_index (wm m)).
Proof.
  intros Hi. unfold owed. cbn [wm with_delegated m_unclaimed m_index].
  rewrite (EffectCompare.accrual_add _ (eff m) (fun _ => a)).
  2:{ intros d. unfold eff. cbn. lia. }
  rewrite accrual_const by assumption. lia.
Qed.

Lemma refreshed_owed m m' : 0 <= m_index (wm m) -> refreshed ts ci m m' ->
  exists q, 0 <= q <= (10000000000000000 - 1) * (1 + count_due (day_start ts) (wm_diffs m)) /\
    owed ci m' = owed ci m - q /\ m_index (wm m') = visible ts ci /\ eff m' (day_start ts) = eff m (day_start ts) /\
    dates (fun d => day_start ts < d) (wm_diffs m').
Proof.
  intros Hi R. pose proof (rf_credit _ _ _ _ R) as C.
  assert (He : eff m' (day_start ts) = eff m (day_start ts)).
  { unfold eff. rewrite (rf_share _ _ _ _ R), (rf_sfo _ _ _ _ R), (rf_diffs _ _ _ _ R), due_after by lia. lia. }
  exists (owed ci m - owed ci m'). split.
  - rewrite (owed_now m') by apply R. unfold owed.
    assert (E : accrual (m_index (wm m)) (eff m) ci =
                accrual (m_index (wm m)) (eff m) (before ts ci) + accrual (visible ts ci) (eff m) ci).
    { apply (accrual_before _ _ 0); [apply Hh|apply Hh|apply R]. }
    rewrite E, accrual_now, He. unfold segments in C. change (count_due (day_start ts) (wm_diffs m)) with (Z.of_nat (length (upto (day_start ts) (wm_diffs m)))).
    unfold PRECISION. lia.
  - split; [lia|]. split; [apply R|]. split; [exact He|]. rewrite (rf_diffs _ _ _ _ R). apply Worth.dates_after.
Qed.
End mining.

(** ** One pool *)

(** the newest index is recorded while there is room, and no mining is ahead of the record *)
Definition tracks (w : wpool) (M : gmap Z wmining) : Prop :=
  (Z.of_nat (length (wp_ci w)) < 1095 -> p_index (wp w) = last_from 0 (wp_ci w)) /\
  forall k m, M !! k = Some m -> m_index (wm m) <= last_from 0 (wp_ci w).

Section pool.
Context (now ts v : Z) (w : wpool) (M : gmap Z wmining).
Let ci := wp_ci w.
Let c := Core w M v now.
Context (Hn : now <= ts) (H0 : 0 <= ts) (Hw : pool_wf now w) (Hm : forall k m, M !! k = Some m -> mining_wf m) (Ht : tracks w M).

Lemma c_hist : hist_ok ci.
Proof. eapply pool_wf_hist, Hw. Qed.
Lemma c_dates : dates (fun k => k <= day_start ts) ci.
Proof.
  intros k i Hin. apply (pw_ci_dates _ _ Hw) in Hin. rewrite <- !bod_day_start in *. pose proof (bod_mono now ts Hn). lia.
Qed.
Lemma c_index k m : M !! k = Some m -> 0 <= m_index (wm m) <= seen ts ci.
Proof.
  intros Hk. rewrite seen_last by apply c_dates. split; [|eapply Ht; exact Hk]. exact (mo_index _ (mining_wf_min _ (Hm k m Hk))).
Qed.

(** what is written is not ahead *)
Definition caught (M' : gmap Z wmining) : Prop :=
  forall k m, M' !! k = Some m -> M !! k = Some m \/ m_index (wm m) = visible ts ci.
Lemma caught_tracks w' M' : wp_ci w' = ci -> p_index (wp w') = p_index (wp w) -> caught M' -> tracks w' M'.
Proof.
  intros Ec Ei HM. split; rewrite Ec; [rewrite Ei; apply Ht|].
  intros k m Hk. destruct (HM k m Hk) as [H|H]; [eapply Ht; exact H|].
  pose proof (visible_seen ci ts c_hist c_dates). rewrite (seen_last ci ts c_dates) in *. lia.
Qed.
Lemma caught_insert k m M' : caught M' -> m_index (wm m) = visible ts ci -> caught (<[k := m]> M').
Proof.
  intros H E k' m' Hk. destruct (Z.eq_dec k' k) as [->|Hne].
  - rewrite lookup_insert in Hk. injection Hk as <-. auto.
  - rewrite lookup_insert_ne in Hk by congruence. auto.
Qed.
Lemma caught_same : caught M.
Proof. intros k m H. auto. Qed.

(** a delegate *)
Lemma delegate_owed k d dl d' delta M0 :
  get_dlg M k d = Ok dl -> delegate_moved ts ci delta dl d' ->
  (forall x, d = Some x -> M0 !! x = M !! x) -> caught M0 ->
  exists q, 0 <= q <= refresh_slack ts c d /\ caught (put_opt d d' M0) /\
    msum (owed ci) (put_opt d d' M0) = msum (owed ci) M0 + delta * behind ts c d - q.
Proof.
  intros Hg Hd E HC. destruct d as [x|].
  - apply get_dlg_some in Hg as (Hne & mx & Hx & ->). cbn [delegate_moved] in Hd. destruct d' as [x'|]; [|contradiction].
    destruct Hd as [Hs R]. pose proof (c_index _ _ Hx) as Hi.
    destruct (refreshed_owed ci ts c_hist c_dates (with_delegated mx (m_sfo (wm mx) + delta)) x' (proj1 Hi) R) as (q & Hq & Eq & Ei & _).
    exists q. unfold refresh_slack, behind, c. cbn [c_min c_pool]. unfold pubkey in *. rewrite Hx.
    split; [exact Hq|]. cbn [put_opt]. split; [apply caught_insert; assumption|].
    rewrite (msum_insert _ _ x mx) by (rewrite E by reflexivity; exact Hx).
    rewrite Eq, (owed_delegated ci ts c_hist c_dates) by assumption. fold ci. lia.
  - cbn in Hg. injection Hg as <-. cbn [delegate_moved] in Hd. destruct d'; [contradiction|].
    exists 0. cbn. split; [lia|]. split; [assumption|]. lia.
Qed.

Lemma dl_wf k d dl : get_dlg M k d = Ok dl -> dlg_wf dl.
Proof.
  destruct d as [x|]; cbn [get_dlg]; [|intros [= <-]; exact I]. destruct (_ =? _); [discriminate|]. unfold get_min.
  destruct (M !! x) as [mx|] eqn:E; [|discriminate]. intros [= <-]. cbn. exact (Hm x mx E).
Qed.
Lemma dl_ne k d dl x : get_dlg M k d = Ok dl -> d = Some x -> x <> k.
Proof. intros H ->. apply get_dlg_some in H. tauto. Qed.

(** a mining whose stake changes after a refresh *)
Lemma own_owed k m m1 m' x :
  M !! k = Some m -> refreshed ts ci m m1 -> only_stake m1 m' ->
  m_share (wm m') = m_share (wm m1) + x -> dates (fun d => day_start ts < d) (wm_diffs m') ->
  exists q, 0 <= q <= refresh_slack ts c (Some k) /\ caught (<[k := m']> M) /\
    msum (owed ci) (<[k := m']> M) = msum (owed ci) M + x * late ts ci - q.
Proof.
  intros Hk R (_ & Oi & Ou & Os) Es Hd. pose proof (c_index _ _ Hk) as Hi.
  destruct (refreshed_owed ci ts c_hist c_dates _ _ (proj1 Hi) R) as (q & Hq & Eq & Ei & Ee & Hd1).
  exists q. unfold refresh_slack, c. cbn [c_min]. unfold pubkey in *. rewrite Hk. split; [exact Hq|].
  rewrite Ei in Oi. split; [apply caught_insert; [apply caught_same|exact Oi]|].
  rewrite (msum_insert _ _ k m) by exact Hk.
  rewrite (owed_now ci ts c_hist c_dates m') by exact Oi.
  rewrite (owed_now ci ts c_hist c_dates m1) in Eq by exact Ei.
  assert (E : eff m' (day_start ts) = eff m1 (day_start ts) + x).
  { unfold eff. rewrite Es, Os, !due_nil_below by assumption. lia. }
  rewrite E, Ou. lia.
Qed.

Lemma refresh_of k m m1 : M !! k = Some m -> refresh ts ci m = Ok m1 -> refreshed ts ci m m1.
Proof. intros Hk H. apply refresh_refreshed; [exact c_hist|apply mining_wf_min; eapply Hm; exact Hk|exact H]. Qed.

Lemma later_dates t t' : map fst t' = map fst t -> dates (fun d => day_start ts < d) t -> dates (fun d => day_start ts < d) t'.
Proof. intros E. apply dates_keys. congruence. Qed.

Lemma extended_owed k d dl d' b a M0 :
  get_dlg M k d = Ok dl -> delegate_extended ts ci b a dl d' ->
  (forall x, d = Some x -> M0 !! x = M !! x) -> caught M0 ->
  exists q, 0 <= q <= refresh_slack ts c d /\ caught (put_opt d d' M0) /\
    msum (owed ci) (put_opt d d' M0) = msum (owed ci) M0 - b * behind ts c d + twice d (a * late ts ci) - q.
Proof.
  intros Hg Hd E HC. destruct d as [x|].
  - apply get_dlg_some in Hg as (Hne & mx & Hx & ->). cbn [delegate_extended] in Hd. destruct d' as [x'|]; [|contradiction].
    destruct Hd as (Hs & y & R & ->). pose proof (c_index _ _ Hx) as Hi.
    destruct (refreshed_owed ci ts c_hist c_dates (with_delegated mx (m_sfo (wm mx) - b)) y (proj1 Hi) R) as (q & Hq & Eq & Ei & _).
    exists q. unfold refresh_slack, behind, twice, c. cbn [c_min c_pool]. unfold pubkey in *. rewrite Hx.
    split; [exact Hq|]. cbn [put_opt]. split; [apply caught_insert; [assumption|exact Ei]|].
    rewrite (msum_insert _ _ x mx) by (rewrite E by reflexivity; exact Hx).
    pose proof (rf_sfo _ _ _ _ R) as Es. cbn [with_delegated wm m_sfo] in Es. rewrite <- Es.
    pose proof (visible_seen ci ts c_hist c_dates) as Hv.
    rewrite (owed_delegated ci ts c_hist c_dates y a) by (rewrite Ei; exact Hv).
    rewrite Eq. change (m_sfo (wm mx) - b) with (m_sfo (wm mx) + - b).
    rewrite (owed_delegated ci ts c_hist c_dates mx) by exact Hi.
    rewrite Ei. fold ci. unfold late. lia.
  - cbn in Hg. injection Hg as <-. cbn [delegate_extended] in Hd. destruct d'; [contradiction|].
    exists 0. cbn. split; [lia|]. split; [assumption|]. lia.
Qed.

Lemma recorded_iff : recorded ts w = true <-> has_date (day_start ts) ci.
Proof.
  unfold recorded, has_date. rewrite existsb_exists. split.
  - intros ([k i] & Hin & E). cbn in E. apply Z.eqb_eq in E as ->. eauto.
  - intros (i & Hin). exists (day_start ts, i). split; [assumption|]. apply Z.eqb_refl.
Qed.

Lemma get_min_ok k m : get_min M k = Ok m -> M !! k = Some m.
Proof. unfold get_min. destruct (M !! k); congruence. Qed.

Definition moved (o : op) (c' : core) : Prop :=
  tracks (c_pool c') (c_min c') /\
  exists q, 0 <= q <= slack ts o c /\ debt c' = debt c + adds ts o c - q.

(** the same history, whatever happens to the minings *)
Lemma moved_same o w' M' x q :
  wp_ci w' = ci -> p_index (wp w') = p_index (wp w) -> p_avail (wp w') = p_avail (wp w) -> caught M' ->
  msum (owed ci) M' = msum (owed ci) M + x - q -> 0 <= q <= slack ts o c -> x = adds ts o c ->
  moved o (Core w' M' v ts).
Proof.
  intros E1 E2 E3 HC Hs Hq Hx. split; [apply caught_tracks; assumption|]. exists q. split; [exact Hq|].
  unfold debt, c. cbn [c_pool c_min c_vault]. rewrite E1, E3. fold ci. unfold c in Hx. lia.
Qed.

Lemma debt_deposit k a p d c' : 0 <= a -> core_step ts (ODeposit k a p d) c = Ok c' -> moved (ODeposit k a p d) c'.
Proof.
  intros Ha H. cbn [core_step c c_pool c_min c_vault] in H.
  apply rbind_ok in H as (m & Hk & H). apply get_min_ok in Hk. apply rbind_ok in H as (dl & Hd & H).
  apply rbind_ok in H as ([[w' m'] d'] & H & E). injection E as <-.
  pose proof (deposit_effect now ts w m a p dl w' m' d' Hw (Hm _ _ Hk) (dl_wf _ _ _ Hd) Ha H)
    as (Hp & (m1 & R & O & Es & S) & (_ & _ & _ & _ & E1 & _ & E2 & _ & _ & E3) & _ & _ & D).
  pose proof (refreshed_owed ci ts c_hist c_dates _ _ (proj1 (c_index _ _ Hk)) R) as (_ & _ & _ & _ & _ & Hd1).
  destruct (own_owed k m m1 m' (a * weight_of p) Hk R O Es) as (q1 & Q1 & C1 & M1).
  { eapply scheduled_dates; [exact S|exact Hd1|apply Worth.expiry_later; exact Hp]. }
  destruct (delegate_owed k d dl d' a (<[k := m']> M) Hd D) as (q2 & Q2 & C2 & M2).
  { intros x Ex. apply lookup_insert_ne. pose proof (dl_ne _ _ _ _ Hd Ex). congruence. }
  { exact C1. }
  eapply (moved_same _ _ _ (a * weight_of p * late ts ci + a * behind ts c d) (q1 + q2)); try assumption.
  - lia.
  - cbn [slack]. lia.
  - reflexivity.
Qed.

Lemma debt_withdraw k a d c' : core_step ts (OWithdraw k a d) c = Ok c' -> moved (OWithdraw k a d) c'.
Proof.
  intros H. cbn [core_step c c_pool c_min c_vault] in H.
  apply rbind_ok in H as (m & Hk & H). apply get_min_ok in Hk. apply rbind_ok in H as (dl & Hd & H).
  apply rbind_ok in H as ([[w' m'] d'] & H & E). injection E as <-.
  pose proof (withdraw_effect now ts w m a dl w' m' d' Hw (Hm _ _ Hk) (dl_wf _ _ _ Hd) H)
    as ((m1 & R & O & _ & Es & S) & (_ & _ & _ & _ & E1 & _ & E2 & _ & _ & E3) & _ & _ & D).
  pose proof (refreshed_owed ci ts c_hist c_dates _ _ (proj1 (c_index _ _ Hk)) R) as (_ & _ & _ & _ & _ & Hd1).
  destruct (own_owed k m m1 m' (- a) Hk R O Es) as (q1 & Q1 & C1 & M1).
  { rewrite S. exact Hd1. }
  destruct (delegate_owed k d dl d' (- a) (<[k := m']> M) Hd D) as (q2 & Q2 & C2 & M2).
  { intros x Ex. apply lookup_insert_ne. pose proof (dl_ne _ _ _ _ Hd Ex). congruence. }
  { exact C1. }
  eapply (moved_same _ _ _ (- (a * late ts ci) - a * behind ts c d) (q1 + q2)); try assumption.
  - lia.
  - cbn [slack]. lia.
  - reflexivity.
Qed.

Lemma debt_extend k old new st b a d c' : 0 <= b -> 0 <= a ->
  core_step ts (OExtend k old new st b a d) c = Ok c' -> moved (OExtend k old new st b a d) c'.
Proof.
  intros Hb Ha H. cbn [core_step c c_pool c_min c_vault] in H.
  apply rbind_ok in H as (m & Hk & H). apply get_min_ok in Hk. apply rbind_ok in H as (dl & Hd & H).
  apply rbind_ok in H as ([[w' m'] d'] & H & E). injection E as <-.
  pose proof (extend_effect now ts w m old new st b a dl w' m' d' H0 Hw (Hm _ _ Hk) (dl_wf _ _ _ Hd) Hb Ha H) as (Ho & Hp & X).
  cbv zeta in X. destruct X as ((m1 & t & R & O & _ & Es & T & S) & (_ & _ & _ & _ & E1 & _ & E2 & _ & _ & E3) & _ & _ & D).
  pose proof (refreshed_owed ci ts c_hist c_dates _ _ (proj1 (c_index _ _ Hk)) R) as (_ & _ & _ & _ & _ & Hd1).
  set (rem := if unexpired old st ts then b * weight_of old else b) in *.
  destruct (own_owed k m m1 m' ((b + a) * weight_of new - rem) Hk R O ltac:(lia)) as (q1 & Q1 & C1 & M1).
  { eapply scheduled_dates; [exact S| |apply Worth.expiry_later; exact Hp].
    destruct (unexpired old st ts); [|subst t; exact Hd1].
    destruct T as (_ & _ & T & _). eapply later_dates; [exact T|exact Hd1]. }
  destruct (extended_owed k d dl d' b (b + a) (<[k := m']> M) Hd D) as (q2 & Q2 & C2 & M2).
  { intros x Ex. apply lookup_insert_ne. pose proof (dl_ne _ _ _ _ Hd Ex). congruence. }
  { exact C1. }
  eapply (moved_same _ _ _ (((b + a) * weight_of new - rem) * late ts ci + twice d ((b + a) * late ts ci) - b * behind ts c d) (q1 + q2)); try assumption.
  - lia.
  - cbn [slack]. lia.
  - cbn [adds c c_pool]. unfold rem. fold ci. destruct (unexpired old st ts); [reflexivity|]. rewrite Z.mul_1_r. reflexivity.
Qed.

Lemma debt_change k od nd a c' : 0 <= a -> core_step ts (OChange k od nd a) c = Ok c' -> moved (OChange k od nd a) c'.
Proof.
  intros Ha H. cbn [core_step c c_pool c_min c_vault] in H.
  destruct (bool_decide (od = nd)) eqn:Hb; [discriminate|]. cbn [negb ensure rbind] in H. apply bool_decide_eq_false in Hb.
  apply rbind_ok in H as (m & Hk & H). apply get_min_ok in Hk. apply rbind_ok in H as (odl & Ho & H).
  apply rbind_ok in H as (ndl & Hnd & H).
  apply rbind_ok in H as ([[[w' m'] od'] nd'] & H & E). injection E as <-.
  pose proof (change_effect now ts w m ndl odl a w' m' od' nd' Hw (Hm _ _ Hk) (dl_wf _ _ _ Ho) (dl_wf _ _ _ Hnd) Ha H)
    as (R & (_ & _ & _ & _ & E1 & _ & E2 & _ & _ & E3) & _ & _ & D1 & D2).
  pose proof (refreshed_owed ci ts c_hist c_dates _ _ (proj1 (c_index _ _ Hk)) R) as (_ & _ & _ & _ & _ & Hd1).
  destruct (own_owed k m m' m' 0 Hk R) as (q1 & Q1 & C1 & M1); [repeat split|lia|exact Hd1|].
  destruct (delegate_owed k od odl od' (- a) (<[k := m']> M) Ho D1) as (q2 & Q2 & C2 & M2).
  { intros x Ex. apply lookup_insert_ne. pose proof (dl_ne _ _ _ _ Ho Ex). congruence. }
  { exact C1. }
  destruct (delegate_owed k nd ndl nd' a (put_opt od od' (<[k := m']> M)) Hnd D2) as (q3 & Q3 & C3 & M3).
  { intros x Ex. rewrite put_opt_lookup_ne by congruence. apply lookup_insert_ne. pose proof (dl_ne _ _ _ _ Hnd Ex). congruence. }
  { exact C2. }
  eapply (moved_same _ _ _ (a * behind ts c nd - a * behind ts c od) (q1 + q2 + q3)); try assumption.
  - lia.
  - cbn [slack]. lia.
  - reflexivity.
Qed.

Lemma debt_slash k n x dt c' : 0 <= n -> 0 <= x -> core_step ts (OSlash k n x dt) c = Ok c' -> moved (OSlash k n x dt) c'.
Proof.
  intros H1 H2 H. cbn [core_step c c_pool c_min c_vault] in H.
  apply rbind_ok in H as (m & Hk & H). apply get_min_ok in Hk.
  apply rbind_ok in H as ([w' m'] & H & E). injection E as <-.
  pose proof (slash_effect now ts w m n x dt w' m' Hw (Hm _ _ Hk) H1 H2 H)
    as (m1 & R & O & (_ & _ & _ & _ & E1 & _ & E2 & _ & _ & E3) & _ & Es & _ & T).
  pose proof (refreshed_owed ci ts c_hist c_dates _ _ (proj1 (c_index _ _ Hk)) R) as (_ & _ & _ & _ & _ & Hd1).
  destruct (own_owed k m m1 m' (- x) Hk R O Es) as (q1 & Q1 & C1 & M1).
  { destruct dt as [y|]; [|destruct T as [-> _]; exact Hd1].
    destruct T as (_ & (_ & _ & T & _) & _). eapply later_dates; [exact T|exact Hd1]. }
  eapply (moved_same _ _ _ (- (x * late ts ci)) q1); try assumption; [lia|reflexivity].
Qed.

Lemma debt_decrease k n c' : 0 <= n -> core_step ts (ODecrease k n) c = Ok c' -> moved (ODecrease k n) c'.
Proof.
  intros H1 H. cbn [core_step c c_pool c_min c_vault] in H.
  apply rbind_ok in H as (m & Hk & H). apply get_min_ok in Hk.
  apply rbind_ok in H as (m' & H & E). injection E as <-.
  pose proof (decrease_effect n m m' (Hm _ _ Hk) H1 H) as ((_ & Oi & Ou & Os) & _ & Es & _ & _ & T1 & T2 & _).
  split.
  { split; [apply Ht|]. intros k' m0 Hk'. cbn [c_min c_pool] in *. destruct (Z.eq_dec k' k) as [->|Hne].
    - rewrite lookup_insert in Hk'. injection Hk' as <-. rewrite Oi. eapply Ht. exact Hk.
    - rewrite lookup_insert_ne in Hk' by congruence. eapply Ht. exact Hk'. }
  exists 0. split; [cbn; lia|]. unfold debt, adds, c. cbn [c_pool c_min c_vault]. unfold pubkey in *. rewrite Hk.
  rewrite (msum_insert _ _ k m) by exact Hk.
  assert (Eo : owed (wp_ci w) m' = owed (wp_ci w) m + accrual (m_index (wm m))
            (fun d => Z.min n (total (wm_diffs m)) - Z.min n (total (Spec.after d (wm_diffs m))) - n) (wp_ci w)).
  { unfold owed. rewrite Oi, Ou.
    rewrite (EffectCompare.accrual_add _ (eff m) (fun d => Z.min n (total (wm_diffs m)) - Z.min n (total (Spec.after d (wm_diffs m))) - n)); [lia|].
    intros d. unfold eff. rewrite Es, Os. specialize (T2 d). rewrite total_after in T2.
    pose proof (total_after d (wm_diffs m)) as T3. lia. }
  rewrite Eo. lia.
Qed.

Lemma debt_claim k c' : core_step ts (OClaim k) c = Ok c' -> moved (OClaim k) c'.
Proof.
  intros H. cbn [core_step c c_pool c_min c_vault] in H.
  apply rbind_ok in H as (m & Hk & H). apply get_min_ok in Hk.
  apply rbind_ok in H as (m1 & Hr & H). cbv zeta in H.
  destruct (m_unclaimed (wm m1) <=? v); [|discriminate]. cbn [ensure rbind] in H. injection H as <-.
  pose proof (refresh_of _ _ _ Hk Hr) as R.
  destruct (refreshed_owed ci ts c_hist c_dates _ _ (proj1 (c_index _ _ Hk)) R) as (q & Hq & Eq & Ei & _).
  split. { apply caught_tracks; [reflexivity..|]. apply caught_insert; [apply caught_same|exact Ei]. }
  exists q. split; [unfold slack, refresh_slack, c; cbn [c_min]; unfold pubkey in *; rewrite Hk; exact Hq|].
  unfold debt, adds, c. cbn [c_pool c_min c_vault]. rewrite (msum_insert _ _ k m) by exact Hk.
  assert (Eo : owed (wp_ci w) (WMining (mining_claim (wm m1)) (wm_diffs m1)) = owed ci m1 - 10000000000000000 * m_unclaimed (wm m1)).
  { unfold owed. cbn. change (eff (WMining (mining_claim (wm m1)) (wm_diffs m1))) with (eff m1). fold ci. unfold PRECISION. lia. }
  rewrite Eo, Eq. fold ci. lia.
Qed.

Lemma debt_fill r x b c' : core_step ts (OFill r x b) c = Ok c' -> moved (OFill r x b) c'.
Proof.
  intros H. cbn [core_step c c_pool c_min c_vault] in H.
  destruct (negb (r =? 0)); [|discriminate]. cbn [ensure rbind] in H.
  apply rbind_ok in H as (w' & H & E).
  assert (F : wp_ci w' = ci /\ p_index (wp w') = p_index (wp w) /\ p_avail (wp w') = p_avail (wp w) + r).
  { unfold fill_pool in H. cbv zeta in H. inv. cbn. auto. }
  destruct F as (F1 & F2 & F3).
  assert (HT : tracks w' M) by (apply caught_tracks; [exact F1|exact F2|apply caught_same]).
  destruct b.
  - destruct (r <=? v); [|discriminate]. cbn [ensure rbind] in E. injection E as <-.
    split; [exact HT|]. exists 0. split; [cbn; lia|]. unfold debt, adds, c. cbn [c_pool c_min c_vault]. rewrite F1, F3. fold ci. lia.
  - apply rbind_ok in E as (v' & Ev & E). injection E as <-. unfold vault_add in Ev. destruct (_ <? _); [|discriminate]. injection Ev as <-.
    split; [exact HT|]. exists 0. split; [cbn; lia|]. unfold debt, adds, c. cbn [c_pool c_min c_vault]. rewrite F1, F3. fold ci. lia.
Qed.

Lemma debt_donate n c' : core_step ts (ODonate n) c = Ok c' -> moved (ODonate n) c'.
Proof.
  intros H. cbn [core_step c c_pool c_min c_vault] in H.
  apply rbind_ok in H as (v' & Ev & E). injection E as <-. unfold vault_add in Ev. destruct (_ <? _); [|discriminate]. injection Ev as <-.
  split; [exact Ht|]. exists 0. split; [cbn; lia|]. unfold debt, adds, c. cbn [c_pool c_min c_vault]. lia.
Qed.

Lemma debt_init k p o b c' : core_step ts (OInit k p o b) c = Ok c' -> moved (OInit k p o b) c'.
Proof.
  intros H. cbn [core_step c c_pool c_min c_vault] in H.
  destruct (M !! k) eqn:Hk; [discriminate|]. injection H as <-.
  split.
  { split; [apply Ht|]. intros k' m0 Hk'. cbn [c_min c_pool] in *. destruct (Z.eq_dec k' k) as [->|Hne].
    - rewrite lookup_insert in Hk'. injection Hk' as <-. cbn. apply (growing_last 0). apply c_hist.
    - rewrite lookup_insert_ne in Hk' by congruence. eapply Ht. exact Hk'. }
  exists 0. split; [cbn; lia|]. unfold debt, adds, c. cbn [c_pool c_min c_vault]. rewrite msum_insert_new by exact Hk.
  assert (E : owed (wp_ci w) (WMining (mining_initialize p o b) []) = 0).
  { unfold owed. cbn [wm mining_initialize m_unclaimed m_index].
    transitivity (accrual 0 (fun _ => 0) ci).
    - cbn [Z.mul Z.add]. apply accrual_ext; [apply c_hist|]. intros. reflexivity.
    - rewrite (accrual_const ci ts c_hist c_dates); [lia|]. pose proof (visible_seen ci ts c_hist c_dates). lia. }
  rewrite E. lia.
Qed.

Lemma debt_close k c' : core_step ts (OClose k) c = Ok c' -> moved (OClose k) c'.
Proof.
  intros H. cbn [core_step c c_pool c_min c_vault] in H.
  apply rbind_ok in H as (m & Hk & H). apply get_min_ok in Hk.
  apply rbind_ok in H as (m1 & Hr & H).
  destruct (negb (0 <? m_sfo (wm m1))); [|discriminate]. cbn [ensure rbind] in H.
  destruct (Z.eqb_spec (m_unclaimed (wm m1)) 0) as [Hu|]; [|discriminate]. cbn [ensure rbind] in H. injection H as <-.
  pose proof (refresh_of _ _ _ Hk Hr) as R.
  destruct (refreshed_owed ci ts c_hist c_dates _ _ (proj1 (c_index _ _ Hk)) R) as (q & Hq & Eq & Ei & Ee & _).
  split.
  { split; [apply Ht|]. intros k' m0 Hk'. cbn [c_min c_pool] in *. apply lookup_delete_Some in Hk' as [_ Hk']. eapply Ht. exact Hk'. }
  exists q. split; [unfold slack, refresh_slack, c; cbn [c_min]; unfold pubkey in *; rewrite Hk; exact Hq|].
  unfold debt, adds, c. cbn [c_pool c_min c_vault]. unfold pubkey in *. rewrite Hk. rewrite (msum_delete _ M k m Hk).
  rewrite (owed_now ci ts c_hist c_dates m1 Ei), Hu, Ee in Eq. fold ci. lia.
Qed.

Lemma debt_distribute c' : core_step ts ODistribute c = Ok c' -> moved ODistribute c'.
Proof.
  intros H. cbn [core_step c c_pool c_min c_vault] in H.
  rewrite rewards_exact in H by apply Hw. fold (part ts w) in H. cbn [rbind] in H.
  apply rbind_ok in H as (w' & H & E). injection E as <-.
  pose proof (pw_avail _ _ Hw) as Ua. unfold is_u64 in Ua.
  pose proof (daily_part_bounds (p_avail (wp w)) (p_ends_at (wp w)) ts ltac:(lia)) as Hp. fold (part ts w) in Hp.
  pose proof (distribute_effect now ts (part ts w) w w' Hw Hn H) as (_ & _ & Et & _ & F1 & F2).
  fold (net ts w) in Et. pose proof recorded_iff as Hrec.
  unfold moved, slack, adds, c. cbn [c_pool c_min].
  destruct (recorded ts w) eqn:Er.
  - destruct (F1 (proj1 Hrec eq_refl)) as (G1 & G2 & G3).
    split; [apply caught_tracks; [exact G1|exact G2|apply caught_same]|]. exists 0. split; [lia|].
    unfold debt. cbn [c_pool c_min c_vault]. rewrite G1, G3. lia.
  - assert (Hno : ~ has_date (day_start ts) (wp_ci w)). { intros X. apply Hrec in X. discriminate. }
    destruct (F2 Hno) as (G0 & G1 & _ & G2 & G3). rewrite Et in *. unfold unfilled.
    destruct (Z.ltb_spec (Z.of_nat (length (wp_ci w))) 1095) as [Hl|Hl].
    + pose proof (proj1 Ht Hl) as Hlast. set (x := p_index (wp w')) in *.
      set (inc := 10000000000000000 * part ts w / net ts w) in *.
      assert (Hnet : 0 <= net ts w).
      { pose proof H as Hwf. unfold distribute in Hwf. cbv zeta in Hwf. apply rbind_ok in Hwf as (? & _ & Hwf).
        apply rbind_ok in Hwf as ([z t] & Hc & _).
        pose proof (pool_consume_ok _ _ _ _ _ (pw_diffs_asc _ _ Hw) Hc) as [Hz _].
        pose proof (pool_consume_wf 365 _ _ _ _ _ (pool_wf_sched _ _ Hw) (pw_total _ _ Hw) Hc) as [_ Hz']. unfold is_u64 in Hz'.
        unfold net. rewrite <- bod_day_start. lia. }
      assert (Hinc : 0 <= inc) by (apply Z.div_pos; lia).
      assert (Hsum : msum (owed (wp_ci w ++ [(day_start ts, x)])) M = msum (fun m => owed (wp_ci w) m + inc * eff m (day_start ts)) M).
      { apply msum_ext. intros k m Hk. unfold owed, accrual. rewrite accrual_app.
        pose proof (proj2 Ht k m Hk). rewrite !Z.max_l by lia. rewrite G1. lia. }
      split.
      { split; cbn [c_pool c_min]; rewrite G3.
        - intros _. rewrite last_app. reflexivity.
        - intros k m Hk. rewrite last_app. pose proof (proj2 Ht k m Hk). lia. }
      exists (10000000000000000 * part ts w - inc * net ts w).
      split.
      { pose proof (Z.mul_div_le (10000000000000000 * part ts w) (net ts w) ltac:(lia)).
        pose proof (Z.mul_succ_div_gt (10000000000000000 * part ts w) (net ts w) ltac:(lia)). unfold inc. lia. }
      unfold debt. cbn [c_pool c_min c_vault]. rewrite G3, G2, Hsum, (msum_plus (owed (wp_ci w)) (fun m => inc * eff m (day_start ts))), msum_scale.
      lia.
    + split. { split; cbn [c_pool c_min]; rewrite G3; [lia|apply Ht]. }
      exists 0. split; [lia|]. unfold debt. cbn [c_pool c_min c_vault]. rewrite G3, G2. lia.
Qed.

Lemma debt_step o c' : op_wf o -> core_step ts o c = Ok c' -> moved o c'.
Proof.
  destruct o; cbn [op_wf]; unfold is_u64; intros Ho H.
  - apply debt_deposit; [lia|exact H].
  - apply debt_withdraw; exact H.
  - apply debt_extend; [lia|lia|exact H].
  - apply debt_change; [lia|exact H].
  - apply debt_slash; [lia|lia|exact H].
  - apply debt_decrease; [lia|exact H].
  - apply debt_claim; exact H.
  - apply debt_fill; exact H.
  - apply debt_donate; exact H.
  - apply debt_distribute; exact H.
  - apply debt_init; exact H.
  - apply debt_close; exact H.
Qed.
End pool.
