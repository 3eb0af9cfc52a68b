(** Nothing but dust is lost: the upper bound that goes with solvency. *)
From stdpp Require Import gmap.
From Verif Require Import Base OMap State Spec ResLemmas TreeLemmas AccrualLemmas
  RefreshLemmas MapSum Core CoreInv CoreSteps FrameLemmas CoreThms DustSpec.

Lemma count_processed b t : ascending t -> count_due b t = Z.of_nat (length (processed b t)).
Proof.
  unfold count_due. induction t as [|[k v] r IH]; cbn [ascending processed filter fst]; [reflexivity|].
  intros [H1 H2]. destruct (Z.ltb_spec b k) as [Hb|Hb].
  - rewrite (proj2 (Z.leb_gt k b)) by assumption.
    replace (filter (fun kv : Z * Z => fst kv <=? b) r) with (@nil (Z * Z)); [reflexivity|].
    clear IH H2. induction r as [|[k' v'] r IH]; [reflexivity|]. cbn [filter fst].
    pose proof (H1 k' v' (or_introl eq_refl)). rewrite (proj2 (Z.leb_gt k' b)) by lia.
    apply IH. intros. eapply H1. right. eassumption.
  - rewrite (proj2 (Z.leb_le k b)) by assumption. cbn [length].
    specialize (IH H2). lia.
Qed.

(** a mining that has accounted for the whole history *)
Lemma owed_settled ci m :
  hist_ok ci -> last_from 0 ci <= m_index (wm m) -> owed ci m = PRECISION * m_unclaimed (wm m).
Proof. intros Hh Hi. unfold owed. rewrite accrual_settled by assumption. lia. Qed.

(** one refresh *)
Lemma refresh_loss s w M v t k m m' :
  Inv s w M v t -> M !! k = Some m -> refresh t (wp_ci w) m = Ok m' ->
  owed (wp_ci w) m <= owed (wp_ci w) m' + PRECISION * (1 + count_due (day_start t) (wm_diffs m)).
Proof.
  intros HI Hk H. pose proof (i_min _ _ _ _ _ HI k m Hk) as Hm.
  pose proof (refresh_ok t _ m m' (i_hist _ _ _ _ _ HI) (mi_ok _ _ _ Hm) H) as R. cbv zeta in R.
  destruct R as (_ & _ & _ & _ & _ & _ & _ & _ & _ & _ & _ & _ & _ & _ & R).
  rewrite <- bod_day_start, count_processed by apply (mo_asc _ (mi_ok _ _ _ Hm)).
  assert (0 <= Z.of_nat (length (processed (bod t) (wm_diffs m)))) by lia.
  unfold PRECISION in *. lia.
Qed.

(** crediting or debiting a delegate never takes rewards it has already accounted for *)
Lemma dlg_add_unclaimed ts a ci total m total' d' :
  hist_ok ci -> min_ok m -> 0 <= a -> delegate_add ts a ci total (Some (Ok m)) = Ok (total', d') ->
  exists m', d' = Some m' /\ m_unclaimed (wm m) <= m_unclaimed (wm m').
Proof.
  intros Hh Hok Ha H. cbn [delegate_add rbind] in H. inv.
  match goal with E : refresh _ _ _ = Ok ?x |- _ => exists x; rename E into Href end.
  split; [reflexivity|].
  assert (Hok' : min_ok (WMining (set_sfo (wm m) (m_sfo (wm m) + a)) (wm_diffs m))).
  { destruct Hok. constructor; cbn; try assumption. lia. }
  pose proof (refresh_ok _ _ _ _ Hh Hok' Href) as R. cbv zeta in R. cbn in R. apply R.
Qed.

Lemma dlg_sub_unclaimed ts a ci total m total' d' :
  hist_ok ci -> min_ok m -> delegate_sub ts a ci total (Some (Ok m)) = Ok (total', d') ->
  exists m', d' = Some m' /\ m_unclaimed (wm m) <= m_unclaimed (wm m') /\ m_index (wm m') = visible ts ci /\
    min_ok m'.
Proof.
  intros Hh Hok H. cbn [delegate_sub rbind] in H. inv.
  match goal with E : refresh _ _ _ = Ok ?x |- _ => exists x; rename E into Href end.
  split; [reflexivity|].
  assert (Hok' : min_ok (WMining (set_sfo (wm m) (m_sfo (wm m) - a)) (wm_diffs m))).
  { destruct Hok. constructor; cbn; try assumption. lia. }
  pose proof (refresh_ok _ _ _ _ Hh Hok' Href) as R. cbv zeta in R. cbn in R.
  destruct R as (Rd & Rs & Ri & Rm & Rf & _ & _ & _ & _ & _ & Ru & Rn & _ & _).
  split; [assumption|]. split; [assumption|].
  destruct Hok'. cbn in *. constructor.
  - rewrite Rd. apply ascending_after. assumption.
  - rewrite Rd. apply values_after. assumption.
  - lia.
  - assumption.
  - rewrite Rf. assumption.
  - lia.
Qed.

(** two minings changed *)
Lemma msum_two (f : wmining -> Z) M k m m' d d' e :
  M !! k = Some m -> d <> Some k -> f m <= f m' + e ->
  (forall x mx, d = Some x -> M !! x = Some mx -> exists mx', d' = Some mx' /\ f mx <= f mx') ->
  (forall x, d = Some x -> exists mx, M !! x = Some mx) ->
  msum f M <= msum f (put_opt d d' (<[k := m']> M)) + e.
Proof.
  intros Hk Hd He Hx Hin. destruct d as [x|]; cbn [put_opt].
  - destruct (Hin x eq_refl) as [mx Hm]. destruct (Hx x mx eq_refl Hm) as (mx' & -> & Hle).
    rewrite (msum_insert f _ x mx mx').
    2:{ rewrite lookup_insert_ne by congruence. assumption. }
    pose proof (msum_insert f M k m m' Hk) as E. unfold pubkey in *. lia.
  - pose proof (msum_insert f M k m m' Hk) as E. unfold pubkey in *. lia.
Qed.

Section steps.
Context (w : wpool) (M : gmap Z wmining) (v ts : Z) (HI : Inv True w M v ts).
Notation ci := (wp_ci w).

Lemma settled_after k m m1 m' :
  M !! k = Some m -> refresh ts ci m = Ok m1 -> visible ts ci = last_from 0 ci ->
  m_index (wm m') = m_index (wm m1) -> m_unclaimed (wm m') = m_unclaimed (wm m1) ->
  owed ci m <= owed ci m' + PRECISION * (1 + count_due (day_start ts) (wm_diffs m)).
Proof.
  intros Hk Hr Hv Hi Hu. pose proof (refresh_loss _ _ _ _ _ _ _ _ HI Hk Hr) as Hl.
  pose proof (refresh_ok ts _ m m1 (i_hist _ _ _ _ _ HI) (mi_ok _ _ _ (i_min _ _ _ _ _ HI k m Hk)) Hr) as R.
  cbv zeta in R. destruct R as (_ & _ & Ri & _).
  rewrite (owed_settled ci m1) in Hl by (try apply HI; lia).
  rewrite (owed_settled ci m') by (try apply HI; lia). lia.
Qed.

(** a delegate that was up to date *)
Lemma settled_delegate x mx mx' :
  M !! x = Some mx -> m_index (wm mx) = visible ts ci -> visible ts ci = last_from 0 ci ->
  m_unclaimed (wm mx) <= m_unclaimed (wm mx') -> PRECISION * m_unclaimed (wm mx') <= owed ci mx' ->
  owed ci mx <= owed ci mx'.
Proof.
  intros Hx Hi Hv Hu Ho. rewrite (owed_settled ci mx) by (try apply HI; lia).
  unfold PRECISION in *. lia.
Qed.

Lemma dust_deposit k m a p d dl w' m' d' :
  M !! k = Some m -> get_dlg M k d = Ok dl -> 0 <= a ->
  visible ts ci = last_from 0 ci ->
  (forall x m, d = Some x -> M !! x = Some m -> m_index (wm m) = visible ts ci) ->
  deposit ts w m a p dl = Ok (w', m', d') ->
  (forall x mx, d = Some x -> d' = Some mx -> PRECISION * m_unclaimed (wm mx) <= owed ci mx) ->
  msum (owed ci) M <= msum (owed ci) (put_opt d d' (<[k := m']> M))
                      + PRECISION * (1 + count_due (day_start ts) (wm_diffs m)).
Proof.
  intros Hk Hd Ha Hv Hup H Hpos. unfold deposit in H. inv.
  rename a0 into m1. rename E into Href.
  apply (msum_two _ M k m); [exact Hk| | | |].
  - intros ->. apply get_dlg_some in Hd as [? _]. congruence.
  - eapply settled_after; try eassumption; reflexivity.
  - intros x mx -> Hx. apply get_dlg_some in Hd as (_ & mx0 & Hx0 & ->).
    rewrite Hx in Hx0. injection Hx0 as <-.
    match goal with E : delegate_add _ _ _ _ _ = Ok _ |- _ =>
      apply dlg_add_unclaimed in E as (mx' & -> & Hu);
        [|apply HI|apply (i_min _ _ _ _ _ HI x mx Hx)|assumption] end.
    exists mx'. split; [reflexivity|].
    eapply settled_delegate; eauto.
  - intros x ->. apply get_dlg_some in Hd as (_ & mx0 & Hx0 & ->). eauto.
Qed.

Lemma dust_withdraw k m a d dl w' m' d' :
  M !! k = Some m -> get_dlg M k d = Ok dl ->
  visible ts ci = last_from 0 ci ->
  (forall x m, d = Some x -> M !! x = Some m -> m_index (wm m) = visible ts ci) ->
  withdraw ts w m a dl = Ok (w', m', d') ->
  (forall x mx, d = Some x -> d' = Some mx -> PRECISION * m_unclaimed (wm mx) <= owed ci mx) ->
  msum (owed ci) M <= msum (owed ci) (put_opt d d' (<[k := m']> M))
                      + PRECISION * (1 + count_due (day_start ts) (wm_diffs m)).
Proof.
  intros Hk Hd Hv Hup H Hpos. unfold withdraw in H. inv.
  rename a0 into m1. rename E into Href.
  apply (msum_two _ M k m); [exact Hk| | | |].
  - intros ->. apply get_dlg_some in Hd as [? _]. congruence.
  - eapply settled_after; try eassumption; reflexivity.
  - intros x mx -> Hx. apply get_dlg_some in Hd as (_ & mx0 & Hx0 & ->).
    rewrite Hx in Hx0. injection Hx0 as <-.
    match goal with E : delegate_sub _ _ _ _ _ = Ok _ |- _ =>
      apply dlg_sub_unclaimed in E as (mx' & -> & Hu & _);
        [|apply HI|apply (i_min _ _ _ _ _ HI x mx Hx)] end.
    exists mx'. split; [reflexivity|].
    eapply settled_delegate; eauto.
  - intros x ->. apply get_dlg_some in Hd as (_ & mx0 & Hx0 & ->). eauto.
Qed.

Lemma dust_slash k m n wt dt w' m' :
  M !! k = Some m -> visible ts ci = last_from 0 ci ->
  slash ts w m n wt dt = Ok (w', m') ->
  msum (owed ci) M <= msum (owed ci) (<[k := m']> M)
                      + PRECISION * (1 + count_due (day_start ts) (wm_diffs m)).
Proof.
  intros Hk Hv H. rewrite (msum_insert _ M k m m' Hk).
  assert (exists m1, refresh ts ci m = Ok m1 /\ m_index (wm m') = m_index (wm m1) /\
            m_unclaimed (wm m') = m_unclaimed (wm m1)) as (m1 & Hr & Hi & Hu).
  { unfold slash, withdraw in H. cbv zeta in H. destruct dt; inv;
      eexists; (split; [eassumption|]); split; reflexivity. }
  pose proof (settled_after k m m1 m' Hk Hr Hv Hi Hu). lia.
Qed.

Lemma dust_change k m od nd odl ndl a w' m' od' nd' :
  M !! k = Some m -> get_dlg M k od = Ok odl -> get_dlg M k nd = Ok ndl -> od <> nd -> 0 <= a ->
  visible ts ci = last_from 0 ci ->
  (forall x m, od = Some x -> M !! x = Some m -> m_index (wm m) = visible ts ci) ->
  (forall x m, nd = Some x -> M !! x = Some m -> m_index (wm m) = visible ts ci) ->
  change_delegate ts w m ndl odl a = Ok (w', m', od', nd') ->
  (forall x mx, od = Some x -> od' = Some mx -> PRECISION * m_unclaimed (wm mx) <= owed ci mx) ->
  (forall x mx, nd = Some x -> nd' = Some mx -> PRECISION * m_unclaimed (wm mx) <= owed ci mx) ->
  msum (owed ci) M <= msum (owed ci) (put_opt nd nd' (put_opt od od' (<[k := m']> M)))
                      + PRECISION * (1 + count_due (day_start ts) (wm_diffs m)).
Proof.
  intros Hk Ho Hn Hne Ha Hv Hupo Hupn H Hpo Hpn. unfold change_delegate in H. inv.
  rename E into Href. rename E0 into Hsub. rename E1 into Hadd.
  assert (Hok : od <> Some k).
  { intros ->. apply get_dlg_some in Ho as [? _]. congruence. }
  assert (Hnk : nd <> Some k).
  { intros ->. apply get_dlg_some in Hn as [? _]. congruence. }
  set (e := PRECISION * (1 + count_due (day_start ts) (wm_diffs m))).
  assert (H1 : msum (owed ci) M <= msum (owed ci) (put_opt od od' (<[k := m']> M)) + e).
  { apply (msum_two _ M k m); [exact Hk|exact Hok| | |].
    - eapply settled_after; try eassumption; reflexivity.
    - intros x mx -> Hx. apply get_dlg_some in Ho as (_ & mx0 & Hx0 & ->).
      rewrite Hx in Hx0. injection Hx0 as <-.
      apply dlg_sub_unclaimed in Hsub as (mx' & -> & Hu & _);
        [|apply HI|apply (i_min _ _ _ _ _ HI x mx Hx)].
      exists mx'. split; [reflexivity|]. eapply settled_delegate; eauto.
    - intros x ->. apply get_dlg_some in Ho as (_ & mx0 & Hx0 & ->). eauto. }
  destruct nd as [x|]; [|exact H1].
  apply get_dlg_some in Hn as (_ & mx & Hx & ->).
  apply dlg_add_unclaimed in Hadd as (mx' & -> & Hu);
    [|apply HI|apply (i_min _ _ _ _ _ HI x mx Hx)|assumption].
  cbn [put_opt]. rewrite (msum_insert _ _ x mx mx').
  2:{ rewrite put_opt_lookup_ne by congruence. rewrite lookup_insert_ne by congruence. exact Hx. }
  assert (owed ci mx <= owed ci mx'); [|lia].
  eapply settled_delegate; eauto.
Qed.

Lemma dust_extend k m op np st b a d dl w' m' d' :
  M !! k = Some m -> get_dlg M k d = Ok dl -> 0 <= b -> 0 <= a ->
  visible ts ci = last_from 0 ci ->
  (forall x m, d = Some x -> M !! x = Some m -> m_index (wm m) = visible ts ci) ->
  (op = LFlex \/ expiry op st <= ts) ->
  extend ts w m op np st b a dl = Ok (w', m', d') ->
  (forall x mx, d = Some x -> d' = Some mx -> PRECISION * m_unclaimed (wm mx) <= owed ci mx) ->
  msum (owed ci) M <= msum (owed ci) (put_opt d d' (<[k := m']> M))
                      + PRECISION * (1 + count_due (day_start ts) (wm_diffs m)).
Proof.
  intros Hk Hd Hb Ha Hv Hup Hop H Hpos. unfold extend in H. inv.
  rename a0 into m1. rename E into Href.
  pose proof (i_time _ _ _ _ _ HI) as Ht.
  assert (Hexp : a1 <= ts).
  { destruct op; cbn [lockup_eqb] in E0; try (injection E0 as <-; lia);
    apply end_timestamp_ok in E0 as (-> & _); destruct Hop; try congruence; lia. }
  rewrite (proj2 (Z.ltb_ge ts a1)) in E2 by assumption. inv.
  pose proof (i_min _ _ _ _ _ HI k m Hk) as Hm.
  pose proof (minv_refresh _ _ _ _ (i_hist _ _ _ _ _ HI) (i_keys _ _ _ _ _ HI) Hm Href) as Hm1.
  pose proof (refresh_ok _ _ _ _ (i_hist _ _ _ _ _ HI) (mi_ok _ _ _ Hm) Href) as R. cbv zeta in R.
  destruct R as (_ & _ & Ri & _).
  unfold deposit in H. inv.
  match goal with E : refresh ts _ (WMining (set_share (wm m1) _) _) = Ok ?x |- _ =>
    rename E into Href2; rename x into m2 end.
  cbn [wp_ci set_wtotal] in *.
  assert (Hok2 : min_ok (WMining (set_share (wm m1) (m_share (wm m1) - b * multiplier LFlex)) (wm_diffs m1))).
  { destruct (mi_ok _ _ _ Hm1). constructor; cbn in *; try assumption. lia. }
  pose proof (refresh_ok _ _ _ _ (i_hist _ _ _ _ _ HI) Hok2 Href2) as R2. cbv zeta in R2. cbn in R2.
  destruct R2 as (_ & _ & Ri2 & _ & _ & _ & _ & _ & _ & _ & Ru2 & _).
  apply (msum_two _ M k m); [exact Hk| | | |].
  - intros ->. apply get_dlg_some in Hd as [? _]. congruence.
  - pose proof (settled_after k m m1 m1 Hk Href Hv eq_refl eq_refl) as Hs.
    rewrite (owed_settled ci m1) in Hs by (try apply HI; lia).
    match goal with |- _ <= owed _ ?y + _ => rewrite (owed_settled ci y); [|apply HI|cbn; lia] end.
    cbn. unfold PRECISION in *. lia.
  - intros x mx -> Hx. apply get_dlg_some in Hd as (_ & mx0 & Hx0 & ->).
    rewrite Hx in Hx0. injection Hx0 as <-.
    match goal with E : delegate_sub _ _ _ _ _ = Ok _ |- _ =>
      apply dlg_sub_unclaimed in E as (my & -> & Hu & Hiy & Hoky);
        [|apply HI|apply (i_min _ _ _ _ _ HI x mx Hx)] end.
    match goal with E : delegate_add _ _ _ _ _ = Ok _ |- _ =>
      apply dlg_add_unclaimed in E as (mx' & -> & Hu'); [|apply HI|assumption|lia] end.
    exists mx'. split; [reflexivity|].
    eapply settled_delegate; eauto. lia.
  - intros x ->. apply get_dlg_some in Hd as (_ & mx0 & Hx0 & ->). eauto.
Qed.

Lemma dust_claim k m m1 :
  M !! k = Some m -> refresh ts ci m = Ok m1 ->
  msum (owed ci) M <= msum (owed ci) (<[k := WMining (mining_claim (wm m1)) (wm_diffs m1)]> M)
     + PRECISION * m_unclaimed (wm m1) + PRECISION * (1 + count_due (day_start ts) (wm_diffs m)).
Proof.
  intros Hk Hr. rewrite (msum_insert _ M k m _ Hk).
  pose proof (refresh_loss _ _ _ _ _ _ _ _ HI Hk Hr) as Hl.
  assert (E : owed ci m1 = PRECISION * m_unclaimed (wm m1)
                + owed ci (WMining (mining_claim (wm m1)) (wm_diffs m1))).
  { unfold owed. cbn. change (eff (WMining (mining_claim (wm m1)) (wm_diffs m1))) with (eff m1). lia. }
  lia.
Qed.

Lemma dust_close k m m1 :
  M !! k = Some m -> refresh ts ci m = Ok m1 -> m_unclaimed (wm m1) = 0 ->
  (forall d, bod ts <= d -> eff m1 d = 0) ->
  msum (owed ci) M <= msum (owed ci) (delete k M) + PRECISION * (1 + count_due (day_start ts) (wm_diffs m)).
Proof.
  intros Hk Hr Hu He. rewrite (msum_delete _ M k m Hk).
  pose proof (refresh_loss _ _ _ _ _ _ _ _ HI Hk Hr) as Hl.
  pose proof (refresh_ok ts _ m m1 (i_hist _ _ _ _ _ HI) (mi_ok _ _ _ (i_min _ _ _ _ _ HI k m Hk)) Hr) as R.
  cbv zeta in R. destruct R as (_ & _ & Ri & _).
  assert (E : owed ci m1 = 0); [|lia].
  unfold owed, accrual. rewrite Hu, Ri.
  rewrite (accrual_ext _ (eff m1) (fun _ => 0) 0 ci); [|apply HI|].
  - assert (E : forall j prev, accrual_from j (fun _ => 0) prev ci = 0).
    { intros j. generalize ci. induction t as [|[a b] r IH]; intros prev; cbn [accrual_from]; [reflexivity|].
      rewrite IH. lia. }
    rewrite E. lia.
  - intros d i Hin Hlt. apply He. pose proof (bod_bounds ts).
    pose proof (visible_above 0 ts ci d i (h_grow _ (i_hist _ _ _ _ _ HI)) (h_asc _ (i_hist _ _ _ _ _ HI)) Hin Hlt).
    lia.
Qed.

Lemma dust_distribute r w' :
  0 <= r -> distribute ts r w = Ok w' -> Z.of_nat (length ci) < 1095 ->
  PRECISION * p_avail (wp w) + msum (owed ci) M <=
  PRECISION * p_avail (wp w') + msum (owed (wp_ci w')) M + (p_total (wp w) - due (bod ts) (wp_diffs w)).
Proof.
  intros Hr H Hlen. unfold distribute in H. cbv zeta in H. inv.
  rename E0 into Hc. pose proof (inv_consume _ _ _ _ _ _ _ HI Hc) as HI1.
  destruct (ohas (bod ts) ci) eqn:Hh.
  { inv. cbn. pose proof (pool_consume_ok _ _ _ _ _ (i_pasc _ _ _ _ _ HI) Hc) as [Hz Ht]. pose proof (i_total _ _ _ _ _ HI1) as X. cbn in X. lia. }
  unfold pool_update_index in H. inv.
  cbn [p_total set_total p_index p_avail] in *.
  set (w1 := WPool (set_total (wp w) z) t ci) in *.
  pose proof (pool_consume_ok _ _ _ _ _ (i_pasc _ _ _ _ _ HI) Hc) as [Hz Ht].
  assert (Hdue : due (bod ts) (wp_diffs w1) = 0).
  { unfold w1. rewrite Ht. cbn. rewrite due_after by lia. lia. }
  assert (Hz0 : 0 < z).
  { pose proof (i_total _ _ _ _ _ HI1) as X. cbn in X. lia. }
  set (inc := PRECISION * r / z) in *.
  assert (Hlt : dates (fun k => k < bod ts) ci).
  { intros k i Hin. pose proof (i_keys _ _ _ _ _ HI _ _ Hin) as Hk. cbv beta in *.
    destruct (Z.eq_dec k (bod ts)) as [->|]; [|lia].
    exfalso. apply ohas_false in Hh. apply (proj1 (oget_none _ _) Hh i). exact Hin. }
  cbn [wp wp_ci wp_diffs set_avail set_index p_avail set_total].
  unfold oinsert. rewrite Hh, (proj2 (Z.ltb_lt _ _)) by (unfold HISTORY_CAP; assumption).
  rewrite oput_last by assumption.
  pose proof (i_last _ _ _ _ _ HI Hlen) as Hlast.
  set (x := p_index (wp w) + inc).
  assert (Hsum : msum (owed (ci ++ [(bod ts, x)])) M = msum (fun m => owed ci m + inc * eff m (bod ts)) M).
  { apply msum_ext. intros k m Hk. destruct (i_min _ _ _ _ _ HI _ _ Hk) as [Hok Hsum Hd Hdt Hi].
    unfold owed, accrual. rewrite accrual_app.
    assert (m_index (wm m) <= last_from 0 ci).
    { pose proof (visible_bounds 0 ts ci (h_grow _ (i_hist _ _ _ _ _ HI))). unfold visible in *. lia. }
    assert (0 <= inc) by (apply Z.div_pos; unfold PRECISION; lia).
    rewrite !Z.max_l by (unfold x; lia). unfold x. rewrite Hlast. lia. }
  rewrite Hsum, (msum_plus (owed ci) (fun m => inc * eff m (bod ts))), msum_scale.
  rewrite (i_eq _ _ _ _ _ HI1 I (bod ts) (Z.le_refl _)). unfold pool_net. rewrite Hdue. cbn.
  pose proof (Z.mul_succ_div_gt (PRECISION * r) z Hz0). fold inc in H.
  unfold PRECISION in *. lia.
Qed.

Lemma dust_init k pool owner bump :
  M !! k = None ->
  msum (owed ci) M <= msum (owed ci) (<[k := WMining (mining_initialize pool owner bump) []]> M).
Proof.
  intros Hk. pose proof (inv_init _ _ _ _ _ k pool owner bump HI Hk) as HI1.
  rewrite msum_insert_new by assumption.
  pose proof (owed_nonneg _ _ _ (i_hist _ _ _ _ _ HI) (i_min _ _ _ _ _ HI1 k _ (lookup_insert _ _ _))) as H.
  cbn [wm mining_initialize m_unclaimed] in H. lia.
Qed.
End steps.

Definition surplus (c : core) : Z :=
  PRECISION * c_vault c - PRECISION * p_avail (wp (c_pool c)) - msum (owed (wp_ci (c_pool c))) (c_min c).

Lemma put_pos (F : wmining -> Prop) d d' M :
  (forall k m, put_opt d d' M !! k = Some m -> F m) ->
  forall x mx, d = Some x -> d' = Some mx -> F mx.
Proof. intros H x mx -> ->. apply (H x). cbn. apply lookup_insert. Qed.

Lemma decrease_zero m m' : decrease_rewards 0 m = Ok m' -> m' = m.
Proof.
  unfold decrease_rewards. cbn. congruence.
Qed.

Lemma dust_step ts o c c' :
  cinv True c -> c_now c <= ts -> is_u64 ts -> op_wf o -> careful ts o c ->
  core_step ts o c = Ok c' -> surplus c' <= surplus c + dust ts o c.
Proof.
  intros HI Ht Hts Hwf [Hex Hca] H.
  pose proof (step_inv True ts o c c' HI Ht Hts Hwf (proj1 Hex) (fun _ => Hex) H) as [HI' _].
  destruct Hex as [Hd Hex].
  unfold cinv in *. pose proof (inv_time _ _ _ _ _ _ HI Ht) as HT. clear HI.
  destruct c as [w M v now]. cbn [c_pool c_min c_vault c_now] in *.
  assert (Hdlg : forall ci' (M' : gmap Z wmining) t', (forall k m, M' !! k = Some m -> minv ci' t' m) -> hist_ok ci' ->
            forall k m, M' !! k = Some m -> PRECISION * m_unclaimed (wm m) <= owed ci' m).
  { intros ci' M' t' Hm Hh k m Hk. eapply owed_nonneg; eauto. }
  pose proof (Hdlg _ _ _ (i_min _ _ _ _ _ HI') (i_hist _ _ _ _ _ HI')) as Hpos. clear Hdlg.
  unfold surplus.
  destruct o; cbn [core_step] in H; cbn [op_wf] in Hwf; cbn [c_pool c_min c_vault c_now] in H;
    cbn [dust]; unfold refresh_dust.
  - (* deposit *) inv. apply get_min_ok in E. cbn [c_pool c_min c_vault] in *. rewrite E.
    pose proof (Hd FreshDelegate) as Hu. pose proof (Hd NoMidnight) as Hm. cbn in Hu, Hm.
    pose proof (deposit_frame _ _ _ _ _ _ _ _ _ E1) as [(t' & ds' & ->) _].
    cbn [wp wp_ci set_total p_avail] in *.
    match type of E1 with deposit _ _ ?m ?a ?p ?dl = Ok (?w', ?m', ?d') =>
      pose proof (dust_deposit w M v ts HT k m a p d dl w' m' d' E E0 (proj1 Hwf)
        (visible_now _ _ (i_keys _ _ _ _ _ HT) Hm) Hu E1) as HD end.
    assert (HP := put_pos (fun m => PRECISION * m_unclaimed (wm m) <= owed (wp_ci w) m) _ _ _ Hpos). specialize (HD HP).
    unfold PRECISION, pubkey in *. lia.
  - (* withdraw *) inv. apply get_min_ok in E. cbn [c_pool c_min c_vault] in *. rewrite E.
    pose proof (Hca FreshOldDelegate) as Hu. pose proof (Hca NoMidnightExit) as Hm. cbn in Hu, Hm.
    pose proof (withdraw_frame _ _ _ _ _ _ _ _ E1) as [(t' & ds' & ->) _].
    cbn [wp wp_ci set_total p_avail] in *.
    match type of E1 with withdraw _ _ ?m ?a ?dl = Ok (?w', ?m', ?d') =>
      pose proof (dust_withdraw w M v ts HT k m a d dl w' m' d' E E0
        (visible_now _ _ (i_keys _ _ _ _ _ HT) Hm) Hu E1) as HD end.
    assert (HP := put_pos (fun m => PRECISION * m_unclaimed (wm m) <= owed (wp_ci w) m) _ _ _ Hpos). specialize (HD HP).
    unfold PRECISION, pubkey in *. lia.
  - (* extend *) inv. apply get_min_ok in E. cbn [c_pool c_min c_vault] in *. rewrite E.
    pose proof (Hd ExpiredExtend) as Ho. pose proof (Hd NoMidnight) as Hm. cbn in Ho, Hm. specialize (Hca FreshOldDelegate).
    pose proof (extend_frame _ _ _ _ _ _ _ _ _ _ _ _ E1) as [(t' & ds' & ->) _].
    cbn [wp wp_ci set_total p_avail] in *.
    match type of E1 with extend _ _ ?m ?op ?np ?st ?b ?a ?dl = Ok (?w', ?m', ?d') =>
      pose proof (dust_extend w M v ts HT k m op np st b a d dl w' m' d' E E0
        (proj1 (proj1 (proj2 Hwf))) (proj1 (proj2 (proj2 Hwf)))
        (visible_now _ _ (i_keys _ _ _ _ _ HT) Hm) Hca Ho E1) as HD end.
    assert (HP := put_pos (fun m => PRECISION * m_unclaimed (wm m) <= owed (wp_ci w) m) _ _ _ Hpos). specialize (HD HP).
    unfold PRECISION, pubkey in *. lia.
  - (* change *) inv. apply bool_decide_eq_false in E. apply get_min_ok in E0.
    cbn [c_pool c_min c_vault] in *. rewrite E0.
    pose proof (Hd FreshDelegate) as Hu. pose proof (Hd NoMidnight) as Hm. cbn in Hu, Hm. specialize (Hca FreshOldDelegate).
    pose proof (change_frame _ _ _ _ _ _ _ _ _ _ E3) as [(t' & ds' & ->) _].
    cbn [wp wp_ci set_total p_avail] in *.
    match type of E3 with change_delegate _ _ ?m ?ndl ?odl ?a = Ok (?w', ?m', ?od', ?nd') =>
      pose proof (dust_change w M v ts HT k m _ _ odl ndl a w' m' od' nd' E0 E1 E2 E (proj1 Hwf)
        (visible_now _ _ (i_keys _ _ _ _ _ HT) Hm) Hca Hu E3) as HD end.
    assert (HP := put_pos (fun m => PRECISION * m_unclaimed (wm m) <= owed (wp_ci w) m) _ _ _ Hpos).
    assert (HP' : forall x mx, old_d = Some x -> o0 = Some mx ->
              PRECISION * m_unclaimed (wm mx) <= owed (wp_ci w) mx).
    { intros x mx -> ->. apply (Hpos x). rewrite put_opt_lookup_ne by congruence. cbn. apply lookup_insert. }
    specialize (HD HP' HP). unfold PRECISION, pubkey in *. lia.
  - (* slash *) inv. apply get_min_ok in E. cbn [c_pool c_min c_vault] in *. rewrite E.
    specialize (Hca NoMidnightExit). cbn in Hca.
    pose proof (slash_frame _ _ _ _ _ _ _ _ E0) as [(t' & ds' & ->) _].
    cbn [wp wp_ci set_total p_avail] in *.
    match type of E0 with slash _ _ ?m ?n ?wt ?dt = Ok (?w', ?m') =>
      pose proof (dust_slash w M v ts HT k m n wt dt w' m' E
        (visible_now _ _ (i_keys _ _ _ _ _ HT) Hca) E0) as HD end.
    unfold PRECISION, pubkey in *. lia.
  - (* decrease *) inv. apply get_min_ok in E. cbn [c_pool c_min c_vault] in *.
    apply decrease_zero in E0. subst.
    match goal with E : M !! k = Some ?m |- _ => pose proof (msum_insert (owed (wp_ci w)) M k m m E) end.
    unfold PRECISION, pubkey in *. lia.
  - (* claim *) inv. apply get_min_ok in E. cbn [c_pool c_min c_vault] in *. rewrite E.
    pose proof (dust_claim w M v ts HT k _ _ E E0). unfold PRECISION, pubkey in *. lia.
  - (* fill *) pose proof (Hd OutsideSource) as Ho. cbn in Ho. subst from_vault.
    inv. unfold vault_add in *. destruct (_ <? U64) eqn:X in *; inv.
    unfold fill_pool in *. inv. cbn. unfold PRECISION, pubkey in *. lia.
  - (* donate *) inv. unfold vault_add in *. destruct (_ <? U64) eqn:X in *; inv.
    cbn. unfold PRECISION, pubkey in *. lia.
  - (* distribute *) inv. cbn [c_pool c_min c_vault] in *. rewrite <- bod_day_start. specialize (Hca HistoryRoom).
    pose proof (dust_distribute w M v ts HT _ _ (rewards_nonneg _ _ _ (i_avail _ _ _ _ _ HT) E) E0 Hca).
    unfold PRECISION, pubkey in *. lia.
  - (* init *) destruct (M !! k) eqn:X; [discriminate|]. inv. cbn [c_pool c_min c_vault] in *.
    pose proof (dust_init w M v ts HT k pool owner bump X). unfold PRECISION, pubkey in *. lia.
  - (* close *) inv. apply get_min_ok in E. cbn [c_pool c_min c_vault] in *. rewrite E.
    match goal with H : refresh _ _ _ = Ok ?m1 |- _ => pose proof (dust_close w M v ts HT k _ m1 E H) as HD; rename H into Hr end.
    match type of HD with ?A -> ?B -> _ => assert (HA : A) by lia; assert (HB : B) end.
    { intros d Hd'. specialize (Hex _ E). cbv beta in Hex. rewrite <- bod_day_start in Hex.
      pose proof (i_min _ _ _ _ _ HT _ _ E) as Hm.
      pose proof (refresh_ok _ _ _ _ (i_hist _ _ _ _ _ HT) (mi_ok _ _ _ Hm) Hr) as R. cbv zeta in R.
      destruct R as (Rd & Rs & _ & _ & Rf & _).
      pose proof (minv_refresh _ _ _ _ (i_hist _ _ _ _ _ HT) (i_keys _ _ _ _ _ HT) Hm Hr) as [[] _ Htot _ _].
      unfold eff. pose proof (due_bounds d _ mo_vals). lia. }
    specialize (HD HA HB). unfold PRECISION, pubkey in *. lia.
Qed.

Lemma leaky_history P c c' x : leaky P c c' x -> history P c c'.
Proof. induction 1; [constructor|]. econstructor; eauto. Qed.

Lemma careful_exact c c' : history careful c c' -> history exact_disciplined c c'.
Proof. induction 1; [constructor|]. econstructor; eauto. apply H3. Qed.

Lemma surplus_bound c c' x : cinv True c -> leaky careful c c' x -> surplus c' <= surplus c + x.
Proof.
  intros H0 H. induction H; [lia|].
  assert (cinv True c1).
  { eapply history_inv_exact; [exact H0|]. eapply careful_exact, leaky_history; eassumption. }
  specialize (IHleaky H0).
  match goal with H : cinv True c1 |- _ => pose proof (dust_step ts o c1 c2 H) as HS end.
  specialize (HS H1 H2 H3 H4 H5). lia.
Qed.

Lemma nothing_but_dust_lost w v t c x :
  fresh_pool w -> 0 <= v < U64 -> 0 <= t -> leaky careful (fresh_core w v t) c x ->
  PRECISION * c_vault c <=
  PRECISION * p_avail (wp (c_pool c)) + msum (owed (wp_ci (c_pool c))) (c_min c) + x + PRECISION * v.
Proof.
  intros Hw Hv Ht H.
  pose proof (surplus_bound _ _ _ (fresh_inv w v t Hw (proj2 Hv) (proj1 Hv) Ht) H) as HB.
  unfold surplus in HB. destruct Hw as (b & d1 & d2 & d3 & m & ->).
  cbn [fresh_core c_vault c_pool c_min wp p_avail] in HB. rewrite msum_empty in HB. lia.
Qed.

(** what the minings can claim at [ts], and what a refresh of all of them loses *)
Lemma vault_all_claimable w v t c x ts :
  fresh_pool w -> 0 <= v < U64 -> 0 <= t -> leaky careful (fresh_core w v t) c x ->
  c_now c <= ts -> no_midnight ts c ->
  PRECISION * c_vault c <=
  PRECISION * p_avail (wp (c_pool c)) + PRECISION * msum (claimable ts c) (c_min c)
  + PRECISION * msum (fun m => 1 + count_due (day_start ts) (wm_diffs m)) (c_min c) + x + PRECISION * v.
Proof.
  intros Hw Hv Ht H Hts Hm.
  pose proof (nothing_but_dust_lost w v t c x Hw Hv Ht H) as HB.
  assert (HI : cinv True c).
  { eapply history_inv_exact; [|eapply careful_exact, leaky_history; exact H].
    apply fresh_inv; try assumption; lia. }
  unfold cinv in HI. apply (inv_time _ _ _ _ _ ts) in HI; [|assumption].
  destruct c as [w' M v' now]. cbn [c_pool c_min c_vault c_now] in *.
  assert (HS : msum (owed (wp_ci w')) M <=
    msum (fun m => PRECISION * (claimable ts (Core w' M v' now) m + (1 + count_due (day_start ts) (wm_diffs m)))) M).
  { apply msum_le. intros k m Hk.
    destruct (inv_refresh_succeeds _ _ _ _ _ k m HI Hk) as [m1 Hr].
    pose proof (settled_after w' M v' ts HI k m m1 m1 Hk Hr
      (visible_now _ _ (i_keys _ _ _ _ _ HI) Hm) eq_refl eq_refl) as Hs.
    pose proof (refresh_ok ts _ m m1 (i_hist _ _ _ _ _ HI) (mi_ok _ _ _ (i_min _ _ _ _ _ HI k m Hk)) Hr) as R.
    cbv zeta in R. destruct R as (_ & _ & Ri & _).
    pose proof (visible_now _ _ (i_keys _ _ _ _ _ HI) Hm) as Hv'.
    rewrite (owed_settled (wp_ci w') m1) in Hs by (try apply HI; lia).
    unfold claimable. cbn [c_pool]. rewrite Hr. lia. }
  rewrite msum_scale in HS.
  rewrite (msum_plus (claimable ts (Core w' M v' now)) (fun m => 1 + count_due (day_start ts) (wm_diffs m))) in HS.
  lia.
Qed.
