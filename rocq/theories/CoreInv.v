(** The invariant behind solvency, and its preservation by the elementary
    changes the operations are made of. *)
From stdpp Require Import gmap.
From Verif Require Import Base OMap State Spec ResLemmas TreeLemmas AccrualLemmas
  RefreshLemmas MapSum Core.

(** per mining, at time [t] *)
Record minv (ci : tmap) (t : Z) (m : wmining) : Prop := {
  mi_ok : min_ok m;
  mi_sum : m_share (wm m) + m_sfo (wm m) < U64;
  mi_diffs : total (wm_diffs m) <= m_share (wm m);
  mi_dates : dates (fun d => m_index (wm m) <= visible d ci) (wm_diffs m);
  mi_index : m_index (wm m) <= visible t ci }.

(** the pool's total share on day [d], net of its scheduled expiries *)
Definition pool_net (w : wpool) (d : Z) : Z := p_total (wp w) - due d (wp_diffs w).

Record Inv (strict : Prop) (w : wpool) (M : gmap Z wmining) (v t : Z) : Prop := {
  i_time : 0 <= t;
  i_hist : hist_ok (wp_ci w);
  i_keys : dates (fun k => k <= bod t) (wp_ci w);
  i_last : Z.of_nat (length (wp_ci w)) < HISTORY_CAP -> p_index (wp w) = last_from 0 (wp_ci w);
  i_pasc : ascending (wp_diffs w);
  i_pvals : values (fun x => 0 <= x) (wp_diffs w);
  i_total : 0 <= p_total (wp w) < U64;
  i_avail : 0 <= p_avail (wp w);
  i_vault : v < U64;
  i_min : forall k m, M !! k = Some m -> minv (wp_ci w) t m;
  i_gap : forall d, bod t <= d -> msum (fun m => eff m d) M <= pool_net w d;
  i_eq : strict -> forall d, bod t <= d -> msum (fun m => eff m d) M = pool_net w d;
  i_solv : PRECISION * p_avail (wp w) + msum (owed (wp_ci w)) M <= PRECISION * v }.

Lemma eff_nonneg ci t m d : minv ci t m -> 0 <= eff m d.
Proof.
  intros [[Ha Hv Hj Hs Hf Hu] _ Ht _ _]. unfold eff.
  pose proof (due_bounds d _ Hv). lia.
Qed.

Lemma owed_nonneg ci t m : hist_ok ci -> minv ci t m -> PRECISION * m_unclaimed (wm m) <= owed ci m.
Proof.
  intros Hh Hm. unfold owed, accrual.
  pose proof (accrual_nonneg (m_index (wm m)) (eff m) 0 ci (h_grow _ Hh)
                (fun k _ _ _ => eff_nonneg _ _ _ k Hm)). lia.
Qed.

(** time passes *)
Lemma inv_time s w M v t t' : Inv s w M v t -> t <= t' -> Inv s w M v t'.
Proof.
  intros [] Ht. pose proof (bod_mono t t' Ht).
  constructor; try assumption.
  - lia.
  - intros k i Hin. specialize (i_keys0 _ _ Hin). cbv beta in *. lia.
  - intros k m Hk. destruct (i_min0 _ _ Hk). constructor; try assumption.
    pose proof (visible_mono 0 t t' _ (h_grow _ i_hist0) Ht). unfold visible in *. lia.
  - intros d Hd. apply i_gap0. lia.
  - intros Hs d Hd. apply i_eq0; [assumption|]. lia.
Qed.

(** every date after today sees the whole history *)
Lemma visible_later ci t d :
  dates (fun k => k <= bod t) ci -> bod t < d -> visible d ci = last_from 0 ci.
Proof.
  intros Hk Hd. apply visible_all. intros k i Hin. specialize (Hk _ _ Hin). cbv beta in *. lia.
Qed.

(** without a distribution in this very second everything is visible now *)
Lemma visible_now ci t :
  dates (fun k => k <= bod t) ci -> (forall i, ~ In (t, i) ci) -> visible t ci = last_from 0 ci.
Proof.
  intros Hk Hn. apply visible_all. intros k i Hin. pose proof (Hk _ _ Hin). cbv beta in *.
  pose proof (bod_bounds t). destruct (Z.eq_dec k t); [subst; exfalso; eapply Hn; eauto|]. lia.
Qed.

(** a mining after refresh *)
Lemma minv_refresh ci t m m' :
  hist_ok ci -> dates (fun k => k <= bod t) ci ->
  minv ci t m -> refresh t ci m = Ok m' -> minv ci t m'.
Proof.
  intros Hh Hk Hm H. destruct Hm as [Hok Hsum Hd Hdt Hi].
  pose proof (refresh_ok t ci m m' Hh Hok H) as R. cbv zeta in R.
  destruct R as (Rd & Rs & Ri & Rm & Rf & _ & _ & _ & _ & _ & Ru & Rn & _ & _).
  destruct Hok as [Ha Hv Hj Hs Hf Hu].
  pose proof (due_bounds (bod t) _ Hv) as Hdb.
  constructor.
  - constructor.
    + rewrite Rd. apply ascending_after; assumption.
    + rewrite Rd. apply values_after; assumption.
    + lia.
    + assumption.
    + rewrite Rf. assumption.
    + lia.
  - rewrite Rs, Rf. lia.
  - rewrite Rd, Rs, total_after. lia.
  - rewrite Rd, Ri. intros d x Hin. apply in_after in Hin as [_ Hin].
    rewrite (visible_later ci t d Hk Hin). apply visible_bounds. apply Hh.
  - rewrite Ri. lia.
Qed.

Lemma eff_refresh ci t m m' d :
  hist_ok ci -> min_ok m -> refresh t ci m = Ok m' -> bod t <= d -> eff m' d = eff m d.
Proof.
  intros Hh Hok H Hd. pose proof (refresh_ok t ci m m' Hh Hok H) as R. cbv zeta in R.
  destruct R as (Rd & Rs & _ & _ & Rf & _).
  unfold eff. rewrite Rd, Rs, Rf, due_after by assumption. lia.
Qed.

Lemma inv_refresh s w M v t k m m' :
  Inv s w M v t -> M !! k = Some m -> refresh t (wp_ci w) m = Ok m' ->
  Inv s w (<[k := m']> M) v t.
Proof.
  intros HI Hk H. pose proof (i_min _ _ _ _ _ HI k m Hk) as Hm.
  pose proof (minv_refresh _ t _ _ (i_hist _ _ _ _ _ HI) (i_keys _ _ _ _ _ HI) Hm H) as Hm'.
  pose proof (refresh_ok t _ m m' (i_hist _ _ _ _ _ HI) (mi_ok _ _ _ Hm) H) as R. cbv zeta in R.
  destruct HI. constructor; try assumption.
  - intros k' m1 Hk'. destruct (Z.eq_dec k' k) as [->|Hne].
    + rewrite lookup_insert in Hk'. injection Hk' as <-. assumption.
    + rewrite lookup_insert_ne in Hk' by congruence. eauto.
  - intros d Hd. rewrite (msum_insert _ M k m m' Hk).
    rewrite (eff_refresh _ t m m' d i_hist0 (mi_ok _ _ _ Hm) H Hd).
    specialize (i_gap0 d Hd). lia.
  - intros Hs d Hd. rewrite (msum_insert _ M k m m' Hk).
    rewrite (eff_refresh _ t m m' d i_hist0 (mi_ok _ _ _ Hm) H Hd).
    specialize (i_eq0 Hs d Hd). lia.
  - rewrite (msum_insert _ M k m m' Hk). lia.
Qed.

(** a refresh never fails *)
Lemma inv_refresh_succeeds s w M v t k m :
  Inv s w M v t -> M !! k = Some m -> exists m', refresh t (wp_ci w) m = Ok m'.
Proof.
  intros HI Hk. pose proof (i_min _ _ _ _ _ HI k m Hk) as Hm.
  apply (refresh_succeeds t _ m v).
  - apply HI.
  - apply Hm.
  - apply Hm.
  - apply Hm.
  - intros d x Hin _. apply (mi_dates _ _ _ Hm _ _ Hin).
  - apply Hm.
  - apply HI.
  - pose proof (i_solv _ _ _ _ _ HI). pose proof (i_avail _ _ _ _ _ HI).
    pose proof (msum_ge (owed (wp_ci w)) M k m) as Hge.
    specialize (Hge ltac:(intros k' m' Hk'; pose proof (i_min _ _ _ _ _ HI k' m' Hk') as Hm';
                          pose proof (owed_nonneg _ _ _ (i_hist _ _ _ _ _ HI) Hm');
                          pose proof (mo_unclaimed _ (mi_ok _ _ _ Hm')); unfold PRECISION in *; lia) Hk).
    unfold PRECISION in *. lia.
Qed.

(** the stake of one mining is within the pool's total *)
Lemma inv_eff_le s w M v t k m d :
  Inv s w M v t -> M !! k = Some m -> bod t <= d -> eff m d <= pool_net w d.
Proof.
  intros HI Hk Hd. pose proof (i_gap _ _ _ _ _ HI d Hd).
  pose proof (msum_ge (fun m => eff m d) M k m) as Hge. cbv beta in Hge.
  specialize (Hge (fun k' m' Hk' => eff_nonneg _ _ _ d (i_min _ _ _ _ _ HI k' m' Hk')) Hk). lia.
Qed.

(** One mining's stake and the pool's total change together. *)
Lemma inv_stake s w w' M v t k m m' :
  Inv s w M v t -> M !! k = Some m ->
  wp_ci w' = wp_ci w -> p_index (wp w') = p_index (wp w) -> p_avail (wp w') = p_avail (wp w) ->
  ascending (wp_diffs w') -> values (fun x => 0 <= x) (wp_diffs w') ->
  0 <= p_total (wp w') < U64 ->
  minv (wp_ci w) t m' ->
  m_index (wm m') = m_index (wm m) -> m_unclaimed (wm m') = m_unclaimed (wm m) ->
  (forall d, bod t <= d -> eff m' d - eff m d <= pool_net w' d - pool_net w d) ->
  (s -> forall d, bod t <= d -> eff m' d - eff m d = pool_net w' d - pool_net w d) ->
  accrual (m_index (wm m)) (eff m') (wp_ci w) <= accrual (m_index (wm m)) (eff m) (wp_ci w) ->
  Inv s w' (<[k := m']> M) v t.
Proof.
  intros HI Hk Hci Hix Hav Hpa Hpv Htot Hm' Hidx Hun Hle Heq Hacc.
  destruct HI. constructor; try (rewrite ?Hci, ?Hix, ?Hav; assumption).
  - rewrite Hci. intros k' m1 Hk'. destruct (Z.eq_dec k' k) as [->|Hne].
    + rewrite lookup_insert in Hk'. injection Hk' as <-. assumption.
    + rewrite lookup_insert_ne in Hk' by congruence. eauto.
  - intros d Hd. rewrite (msum_insert _ M k m m' Hk).
    specialize (i_gap0 d Hd). specialize (Hle d Hd). lia.
  - intros Hs d Hd. rewrite (msum_insert _ M k m m' Hk).
    specialize (i_eq0 Hs d Hd). specialize (Heq Hs d Hd). lia.
  - rewrite Hav, Hci. rewrite (msum_insert _ M k m m' Hk).
    unfold owed in *. rewrite Hidx, Hun. lia.
Qed.

(** Pool-only change of total and schedule that keeps the net totals. *)
Lemma inv_pool s w w' M v t :
  Inv s w M v t ->
  wp_ci w' = wp_ci w -> p_index (wp w') = p_index (wp w) -> p_avail (wp w') = p_avail (wp w) ->
  ascending (wp_diffs w') -> values (fun x => 0 <= x) (wp_diffs w') ->
  0 <= p_total (wp w') < U64 ->
  (forall d, bod t <= d -> pool_net w' d = pool_net w d) ->
  Inv s w' M v t.
Proof.
  intros HI Hci Hix Hav Hpa Hpv Htot Hnet.
  destruct HI. constructor; try (rewrite ?Hci, ?Hix, ?Hav; assumption).
  - intros d Hd. rewrite Hnet by assumption. auto.
  - intros Hs d Hd. rewrite Hnet by assumption. auto.
Qed.

(** consumption of the pool's expiries *)
Lemma inv_consume s w M v t total diffs :
  Inv s w M v t -> pool_consume (bod t) (p_total (wp w)) (wp_diffs w) = Ok (total, diffs) ->
  Inv s (WPool (set_total (wp w) total) diffs (wp_ci w)) M v t.
Proof.
  intros HI H. pose proof H as H'.
  apply pool_consume_ok in H as [-> ->]; [|apply HI].
  pose proof (i_total _ _ _ _ _ HI). pose proof (due_bounds (bod t) _ (i_pvals _ _ _ _ _ HI)).
  assert (0 <= p_total (wp w) - due (bod t) (wp_diffs w)).
  { pose proof (i_gap _ _ _ _ _ HI (bod t) (Z.le_refl _)) as Hg. unfold pool_net in Hg.
    pose proof (msum_nonneg (fun m => eff m (bod t)) M
       (fun k m Hk => eff_nonneg _ _ _ (bod t) (i_min _ _ _ _ _ HI k m Hk))). lia. }
  apply (inv_pool s w); cbn; try reflexivity; try assumption.
  - apply ascending_after. apply HI.
  - apply values_after. apply HI.
  - lia.
  - intros d Hd. unfold pool_net. cbn. rewrite due_after by assumption. lia.
Qed.

Lemma inv_consume_succeeds s w M v t :
  Inv s w M v t -> exists r, pool_consume (bod t) (p_total (wp w)) (wp_diffs w) = Ok r.
Proof.
  intros HI. rewrite pool_consume_succeeds; [eauto|apply HI|apply HI|].
  pose proof (i_gap _ _ _ _ _ HI (bod t) (Z.le_refl _)) as Hg. unfold pool_net in Hg.
  pose proof (msum_nonneg (fun m => eff m (bod t)) M
     (fun k m Hk => eff_nonneg _ _ _ (bod t) (i_min _ _ _ _ _ HI k m Hk))). lia.
Qed.

(** an index that already covers the whole history accrues nothing more *)
Lemma accrual_settled ci j w : hist_ok ci -> last_from 0 ci <= j -> accrual j w ci = 0.
Proof. intros Hh Hj. apply accrual_below; [apply Hh|assumption]. Qed.

(** a new distribution entry *)
Lemma inv_distribute s w M v t r inc avail :
  Inv s w M v t ->
  dates (fun k => k < bod t) (wp_ci w) ->
  due (bod t) (wp_diffs w) = 0 ->
  0 <= inc -> 0 <= r -> inc * p_total (wp w) <= PRECISION * r ->
  avail = p_avail (wp w) - r -> 0 <= avail ->
  Inv s (WPool (set_avail (set_index (wp w) (p_index (wp w) + inc)) avail) (wp_diffs w)
           (oinsert HISTORY_CAP (bod t) (p_index (wp w) + inc) (wp_ci w))) M v t.
Proof.
  intros HI Hlt Hdue Hinc Hr Hle -> Hav. unfold oinsert.
  assert (Hno : ohas (bod t) (wp_ci w) = false).
  { apply ohas_false, oget_none. intros x Hin. specialize (Hlt _ _ Hin). cbv beta in *. lia. }
  rewrite Hno.
  destruct (Z.ltb_spec (Z.of_nat (length (wp_ci w))) HISTORY_CAP) as [Hlen|Hlen].
  2:{ (* full history: the entry is lost *)
    destruct HI. constructor; cbn; try assumption.
    - intros. lia.
    - unfold PRECISION in *. lia. }
  rewrite oput_last by assumption.
  destruct HI. specialize (i_last0 Hlen).
  set (ci := wp_ci w) in *. set (x := p_index (wp w) + inc).
  assert (Hlastx : last_from 0 ci <= x) by (unfold x; lia).
  constructor; cbn; try assumption.
  - constructor.
    + apply ascending_app; [apply i_hist0|assumption].
    + apply growing_app; [apply i_hist0|assumption].
    + intros k i Hin. apply in_app_or in Hin as [Hin|[E|[]]].
      * apply (h_aligned _ i_hist0 _ _ Hin).
      * injection E as <- <-. apply bod_aligned.
  - intros k i Hin. apply in_app_or in Hin as [Hin|[E|[]]].
    + apply (i_keys0 _ _ Hin).
    + injection E as <- <-. lia.
  - intros _. rewrite last_app. reflexivity.
  - intros k m Hk. destruct (i_min0 _ _ Hk) as [Hok Hsum Hd Hdt Hi].
    constructor; try assumption.
    + intros d y Hin. specialize (Hdt _ _ Hin). cbv beta in *.
      pose proof (visible_app_le 0 d ci (bod t) x (h_grow _ i_hist0) Hlastx). unfold visible in *. lia.
    + pose proof (visible_app_le 0 t ci (bod t) x (h_grow _ i_hist0) Hlastx). unfold visible in *. lia.
  - assert (Hsum : msum (owed (ci ++ [(bod t, x)])) M <= msum (fun m => owed ci m + inc * eff m (bod t)) M).
    { apply msum_le. intros k m Hk. destruct (i_min0 _ _ Hk) as [Hok Hsum Hd Hdt Hi].
      unfold owed, accrual. rewrite accrual_app.
      assert (m_index (wm m) <= last_from 0 ci).
      { pose proof (visible_bounds 0 t ci (h_grow _ i_hist0)). unfold visible in *. lia. }
      rewrite !Z.max_l by lia. unfold x. rewrite i_last0. lia. }
    rewrite (msum_plus (owed ci) (fun m => inc * eff m (bod t))) in Hsum.
    rewrite msum_scale in Hsum.
    pose proof (i_gap0 (bod t) (Z.le_refl _)) as Hg. unfold pool_net in Hg. rewrite Hdue in Hg.
    assert (inc * msum (fun m => eff m (bod t)) M <= inc * p_total (wp w)) by nia.
    unfold PRECISION in *. lia.
Qed.
