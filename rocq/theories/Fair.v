(** Every mining gets its share of every distribution, but for rounding. *)
From stdpp Require Import gmap.
From Verif Require Import Base OMap State Spec ResLemmas TreeLemmas AccrualLemmas
  RefreshLemmas MapSum Core CoreInv CoreSteps FrameLemmas CoreThms DustSpec Dust FairSpec.

Definition hold (f : wmining -> Z) (M : gmap Z wmining) (x : pubkey) : Z :=
  match M !! x with Some m => f m | None => 0 end.

Lemma hold_insert f M k m m' x e :
  M !! k = Some m -> f m <= f m' + e ->
  hold f M x <= hold f (<[k := m']> M) x + (if k =? x then e else 0).
Proof.
  intros Hk He. unfold hold. destruct (Z.eqb_spec k x) as [->|Hx].
  - rewrite lookup_insert. unfold pubkey in *. rewrite Hk. assumption.
  - rewrite lookup_insert_ne by assumption. lia.
Qed.

Lemma hold_two f M k m m' d d' x e :
  M !! k = Some m -> d <> Some k -> f m <= f m' + e ->
  (forall y my, d = Some y -> M !! y = Some my -> exists my', d' = Some my' /\ f my <= f my') ->
  (forall y, d = Some y -> exists my, M !! y = Some my) ->
  hold f M x <= hold f (put_opt d d' (<[k := m']> M)) x + (if k =? x then e else 0).
Proof.
  intros Hk Hd He Hx Hin. pose proof (hold_insert f M k m m' x e Hk He) as H.
  destruct d as [y|]; [|exact H].
  destruct (Hin y eq_refl) as [my Hm]. destruct (Hx y my eq_refl Hm) as (my' & -> & Hle).
  cbn [put_opt].
  assert (Hy : <[k := m']> M !! y = Some my) by (rewrite lookup_insert_ne by congruence; assumption).
  assert (Hle' : f my <= f my' + 0) by lia.
  pose proof (hold_insert f (<[k := m']> M) y my my' x 0 Hy Hle') as H'.
  unfold pubkey in *. destruct (y =? x); lia.
Qed.
Lemma hold_two_0 f M k m m' d d' x :
  M !! k = Some m -> d <> Some k -> f m <= f m' ->
  (forall y my, d = Some y -> M !! y = Some my -> exists my', d' = Some my' /\ f my <= f my') ->
  (forall y, d = Some y -> exists my, M !! y = Some my) ->
  hold f M x <= hold f (put_opt d d' (<[k := m']> M)) x.
Proof.
  intros Hk Hd He Hx Hin. assert (He' : f m <= f m' + 0) by lia.
  pose proof (hold_two f M k m m' d d' x 0 Hk Hd He' Hx Hin) as H. destruct (k =? x); lia.
Qed.
Lemma hold_insert_0 f M k m m' x :
  M !! k = Some m -> f m <= f m' -> hold f M x <= hold f (<[k := m']> M) x.
Proof.
  intros Hk He. assert (He' : f m <= f m' + 0) by lia.
  pose proof (hold_insert f M k m m' x 0 Hk He') as H. destruct (k =? x); lia.
Qed.

(** ** Never more *)
Section steps.
Context (s : Prop) (w : wpool) (M : gmap Z wmining) (v ts : Z) (HI : Inv s w M v ts).
Notation ci := (wp_ci w).

Lemma owed_refresh m m' : min_ok m -> refresh ts ci m = Ok m' -> owed ci m' <= owed ci m.
Proof.
  intros Hok H. pose proof (refresh_ok ts _ m m' (i_hist _ _ _ _ _ HI) Hok H) as R. cbv zeta in R.
  destruct R as (_ & _ & _ & _ & _ & _ & _ & _ & _ & _ & _ & _ & _ & R). lia.
Qed.

Lemma owed_less m m' :
  m_unclaimed (wm m') = m_unclaimed (wm m) -> m_index (wm m') = m_index (wm m) ->
  (forall d, eff m' d <= eff m d) -> owed ci m' <= owed ci m.
Proof.
  intros Hu Hi He. unfold owed, accrual. rewrite Hu, Hi.
  pose proof (accrual_le (m_index (wm m)) (eff m') (eff m) 0 ci (h_grow _ (i_hist _ _ _ _ _ HI)) (fun k _ _ _ => He k)).
  lia.
Qed.

Lemma owed_kept m m' :
  m_unclaimed (wm m') = m_unclaimed (wm m) -> m_index (wm m') = m_index (wm m) ->
  last_from 0 ci <= m_index (wm m) -> owed ci m' = owed ci m.
Proof. intros Hu Hi Hl. rewrite !owed_settled, Hu by (try apply HI; lia). reflexivity. Qed.

Lemma up_sub a total m total' d' :
  min_ok m -> 0 <= a -> delegate_sub ts a ci total (Some (Ok m)) = Ok (total', d') ->
  exists m', d' = Some m' /\ owed ci m' <= owed ci m.
Proof.
  intros Hok Ha H. cbn [delegate_sub rbind] in H. inv.
  match goal with E : refresh _ _ _ = Ok ?x |- _ => exists x; rename E into Href end.
  split; [reflexivity|].
  assert (Hok' : min_ok (WMining (set_sfo (wm m) (m_sfo (wm m) - a)) (wm_diffs m))).
  { destruct Hok. constructor; cbn; try assumption. lia. }
  pose proof (owed_refresh _ _ Hok' Href) as H1.
  assert (owed ci (WMining (set_sfo (wm m) (m_sfo (wm m) - a)) (wm_diffs m)) <= owed ci m); [|lia].
  apply owed_less; try reflexivity. intros d. unfold eff. cbn. lia.
Qed.

Lemma up_add a total m total' d' :
  min_ok m -> 0 <= a -> last_from 0 ci <= m_index (wm m) ->
  delegate_add ts a ci total (Some (Ok m)) = Ok (total', d') ->
  exists m', d' = Some m' /\ owed ci m' <= owed ci m.
Proof.
  intros Hok Ha Hl H. cbn [delegate_add rbind] in H. inv.
  match goal with E : refresh _ _ _ = Ok ?x |- _ => exists x; rename E into Href end.
  split; [reflexivity|].
  assert (Hok' : min_ok (WMining (set_sfo (wm m) (m_sfo (wm m) + a)) (wm_diffs m))).
  { destruct Hok. constructor; cbn; try assumption. lia. }
  pose proof (owed_refresh _ _ Hok' Href) as H1.
  rewrite (owed_kept m (WMining (set_sfo (wm m) (m_sfo (wm m) + a)) (wm_diffs m))) in H1; [assumption|reflexivity|reflexivity|assumption].
Qed.

Lemma refresh_index m m1 : min_ok m -> refresh ts ci m = Ok m1 -> m_index (wm m1) = visible ts ci.
Proof.
  intros Hok H. pose proof (refresh_ok ts _ m m1 (i_hist _ _ _ _ _ HI) Hok H) as R. cbv zeta in R. apply R.
Qed.

Lemma min_ok_refresh m m1 : min_ok m -> refresh ts ci m = Ok m1 -> min_ok m1.
Proof.
  intros Hok H. pose proof (refresh_ok ts _ m m1 (i_hist _ _ _ _ _ HI) Hok H) as R. cbv zeta in R.
  destruct R as (Rd & Rs & Ri & Rm & Rf & _ & _ & _ & _ & _ & Ru & Rn & _ & _).
  destruct Hok. constructor.
  - rewrite Rd. apply ascending_after. assumption.
  - rewrite Rd. apply values_after. assumption.
  - lia.
  - assumption.
  - rewrite Rf. assumption.
  - lia.
Qed.

Notation less := (fun m => - owed ci m).

Lemma dlg_ne k d dl : get_dlg M k d = Ok dl -> d <> Some k.
Proof. intros Hd ->. apply get_dlg_some in Hd as [? _]. congruence. Qed.
Lemma dlg_in k d dl : get_dlg M k d = Ok dl -> forall y, d = Some y -> exists my, M !! y = Some my.
Proof. intros Hd y ->. apply get_dlg_some in Hd as (_ & my & Hy & _). eauto. Qed.
Lemma dlg_is k y my dl : get_dlg M k (Some y) = Ok dl -> M !! y = Some my -> dl = Some (Ok my).
Proof. intros Hd Hy. apply get_dlg_some in Hd as (_ & mx & Hx & ->). congruence. Qed.

Lemma up_deposit k m a p d dl w' m' d' x :
  M !! k = Some m -> get_dlg M k d = Ok dl -> 0 <= a ->
  visible ts ci = last_from 0 ci ->
  (forall x m, d = Some x -> M !! x = Some m -> m_index (wm m) = visible ts ci) ->
  deposit ts w m a p dl = Ok (w', m', d') ->
  hold less M x <= hold less (put_opt d d' (<[k := m']> M)) x.
Proof.
  intros Hk Hd Ha Hv Hup H. unfold deposit in H. inv.
  rename a0 into m1. rename E into Href.
  pose proof (mi_ok _ _ _ (i_min _ _ _ _ _ HI k m Hk)) as Hok.
  apply (hold_two_0 less M k m); [exact Hk|eapply dlg_ne; exact Hd| | |eapply dlg_in; exact Hd].
  - pose proof (owed_refresh _ _ Hok Href). pose proof (refresh_index _ _ Hok Href).
    match goal with |- _ <= - owed _ ?y => rewrite (owed_kept m1 y); [lia|reflexivity|reflexivity|lia] end.
  - intros y my -> Hy. rewrite (dlg_is _ _ _ _ Hd Hy) in *.
    match goal with E : delegate_add _ _ _ _ _ = Ok _ |- _ =>
      apply up_add in E as (mx' & -> & Hu);
        [|apply (i_min _ _ _ _ _ HI y my Hy)|assumption|rewrite (Hup y my eq_refl Hy); lia] end.
    exists mx'. split; [reflexivity|lia].
Qed.

Lemma up_withdraw k m a d dl w' m' d' x :
  M !! k = Some m -> get_dlg M k d = Ok dl -> 0 <= a ->
  withdraw ts w m a dl = Ok (w', m', d') ->
  hold less M x <= hold less (put_opt d d' (<[k := m']> M)) x.
Proof.
  intros Hk Hd Ha H. unfold withdraw in H. inv.
  rename a0 into m1. rename E into Href.
  pose proof (mi_ok _ _ _ (i_min _ _ _ _ _ HI k m Hk)) as Hok.
  apply (hold_two_0 less M k m); [exact Hk|eapply dlg_ne; exact Hd| | |eapply dlg_in; exact Hd].
  - pose proof (owed_refresh _ _ Hok Href).
    match goal with |- _ <= - owed _ ?y =>
      assert (owed ci y <= owed ci m1) by (apply owed_less; try reflexivity; intros; unfold eff; cbn; lia) end.
    lia.
  - intros y my -> Hy. rewrite (dlg_is _ _ _ _ Hd Hy) in *.
    match goal with E : delegate_sub _ _ _ _ _ = Ok _ |- _ =>
      apply up_sub in E as (mx' & -> & Hu); [|apply (i_min _ _ _ _ _ HI y my Hy)|assumption] end.
    exists mx'. split; [reflexivity|lia].
Qed.

Lemma up_change k m od nd odl ndl a w' m' od' nd' x :
  M !! k = Some m -> get_dlg M k od = Ok odl -> get_dlg M k nd = Ok ndl -> od <> nd -> 0 <= a ->
  visible ts ci = last_from 0 ci ->
  (forall x m, nd = Some x -> M !! x = Some m -> m_index (wm m) = visible ts ci) ->
  change_delegate ts w m ndl odl a = Ok (w', m', od', nd') ->
  hold less M x <= hold less (put_opt nd nd' (put_opt od od' (<[k := m']> M))) x.
Proof.
  intros Hk Ho Hn Hne Ha Hv Hup H. unfold change_delegate in H. inv.
  rename E into Href. rename E0 into Hsub. rename E1 into Hadd.
  pose proof (mi_ok _ _ _ (i_min _ _ _ _ _ HI k m Hk)) as Hok.
  assert (H1 : hold less M x <= hold less (put_opt od od' (<[k := m']> M)) x).
  { apply (hold_two_0 less M k m); [exact Hk|eapply dlg_ne; exact Ho| | |eapply dlg_in; exact Ho].
    - pose proof (owed_refresh _ _ Hok Href). lia.
    - intros y my -> Hy. rewrite (dlg_is _ _ _ _ Ho Hy) in *.
      apply up_sub in Hsub as (mx' & -> & Hu); [|apply (i_min _ _ _ _ _ HI y my Hy)|assumption].
      exists mx'. split; [reflexivity|lia]. }
  etransitivity; [exact H1|]. clear H1.
  destruct nd as [y|]; [|reflexivity]. pose proof (dlg_ne _ _ _ Hn) as Hyk.
  destruct (dlg_in _ _ _ Hn y eq_refl) as [my Hy]. rewrite (dlg_is _ _ _ _ Hn Hy) in *.
  apply up_add in Hadd as (mx' & -> & Hu);
    [|apply (i_min _ _ _ _ _ HI y my Hy)|assumption|rewrite (Hup y my eq_refl Hy); lia].
  cbn [put_opt]. apply (hold_insert_0 less _ y my); [|lia].
  rewrite put_opt_lookup_ne by congruence. rewrite lookup_insert_ne by congruence. exact Hy.
Qed.

Lemma up_slash k m n wt dt w' m' x :
  M !! k = Some m -> 0 <= n -> 0 <= wt ->
  slash ts w m n wt dt = Ok (w', m') -> hold less M x <= hold less (<[k := m']> M) x.
Proof.
  intros Hk Hn Hwt H.
  pose proof (i_min _ _ _ _ _ HI k m Hk) as Hm. pose proof (mi_ok _ _ _ Hm) as Hok.
  unfold slash in H. cbv zeta in H. destruct dt as [dt|].
  2:{ inv. exact (up_withdraw k m wt None None _ m' _ x Hk eq_refl Hwt E). }
  inv. rename E into Hwd. rename E0 into Hnw.
  unfold withdraw in Hwd. inv. rename a0 into md. rename a into m1. rename E into Href.
  cbn [wm_diffs wp_diffs wm wp wp_ci] in *.
  pose proof (minv_refresh _ _ _ _ (i_hist _ _ _ _ _ HI) (i_keys _ _ _ _ _ HI) Hm Href) as Hm1.
  destruct (mi_ok _ _ _ Hm1) as [Ma Mv _ _ _ _].
  destruct (modify_diffs_ok _ _ _ _ Ma Mv E1) as (_ & _ & _ & M4 & _ & _).
  apply (hold_insert_0 less _ k m); [exact Hk|].
  pose proof (owed_refresh _ _ Hok Href).
  match goal with |- _ <= - owed _ ?y => assert (owed ci y <= owed ci m1) end; [|lia].
  apply owed_less; try reflexivity. intros d. unfold eff. cbn. rewrite M4. destruct (bod dt <=? d); lia.
Qed.

Lemma up_extend k m op np st b a d dl w' m' d' x :
  M !! k = Some m -> get_dlg M k d = Ok dl -> 0 <= b -> 0 <= a ->
  visible ts ci = last_from 0 ci ->
  (op = LFlex \/ expiry op st <= ts) ->
  extend ts w m op np st b a dl = Ok (w', m', d') ->
  hold less M x <= hold less (put_opt d d' (<[k := m']> M)) x.
Proof.
  intros Hk Hd Hb Ha Hv Hop H. unfold extend in H. inv.
  rename a0 into m1. rename E into Href.
  pose proof (i_time _ _ _ _ _ HI) as Ht.
  assert (Hexp : a1 <= ts).
  { destruct op; cbn [lockup_eqb] in E0; try (injection E0 as <-; lia);
    apply end_timestamp_ok in E0 as (-> & _); destruct Hop; try congruence; lia. }
  rewrite (proj2 (Z.ltb_ge ts a1)) in E2 by assumption. inv.
  pose proof (i_min _ _ _ _ _ HI k m Hk) as Hm.
  pose proof (minv_refresh _ _ _ _ (i_hist _ _ _ _ _ HI) (i_keys _ _ _ _ _ HI) Hm Href) as Hm1.
  unfold deposit in H. inv.
  match goal with E : refresh ts _ (WMining (set_share (wm m1) _) _) = Ok ?x |- _ =>
    rename E into Href2; rename x into m2 end.
  cbn [wp_ci set_wtotal] in *.
  assert (Hok2 : min_ok (WMining (set_share (wm m1) (m_share (wm m1) - b * multiplier LFlex)) (wm_diffs m1))).
  { destruct (mi_ok _ _ _ Hm1). constructor; cbn in *; try assumption. lia. }
  apply (hold_two_0 less M k m); [exact Hk|eapply dlg_ne; exact Hd| | |eapply dlg_in; exact Hd].
  - pose proof (owed_refresh _ _ (mi_ok _ _ _ Hm) Href).
    pose proof (owed_refresh _ _ Hok2 Href2). pose proof (refresh_index _ _ Hok2 Href2).
    assert (owed ci (WMining (set_share (wm m1) (m_share (wm m1) - b * multiplier LFlex)) (wm_diffs m1)) <= owed ci m1).
    { apply owed_less; try reflexivity. intros. unfold eff. cbn. lia. }
    match goal with |- _ <= - owed _ ?y => rewrite (owed_kept m2 y); [lia|reflexivity|reflexivity|lia] end.
  - intros y my -> Hy. rewrite (dlg_is _ _ _ _ Hd Hy) in *.
    pose proof (mi_ok _ _ _ (i_min _ _ _ _ _ HI y my Hy)) as Hoky.
    match goal with E : delegate_sub _ _ _ _ _ = Ok _ |- _ =>
      pose proof E as Es; apply dlg_sub_unclaimed in Es as (mz & Ez & _ & Hiz & Hokz); [|apply HI|assumption];
      apply up_sub in E as (mz' & Ez' & Hz); [|assumption|lia] end.
    rewrite Ez in Ez'. injection Ez' as <-. subst.
    match goal with E : delegate_add _ _ _ _ _ = Ok _ |- _ =>
      apply up_add in E as (mx' & -> & Hu'); [|assumption|lia|rewrite Hiz; lia] end.
    exists mx'. split; [reflexivity|lia].
Qed.

Lemma up_decrease k m n m' x :
  M !! k = Some m -> 0 <= n -> decrease_rewards n m = Ok m' ->
  hold less M x <= hold less (<[k := m']> M) x.
Proof.
  intros Hk Hn H. pose proof (mi_ok _ _ _ (i_min _ _ _ _ _ HI k m Hk)) as [Ha Hv _ _ _ _].
  destruct (decrease_rewards_ok _ _ _ Hn Ha Hv H) as (E & _ & _ & _ & _ & _ & Hdue).
  apply (hold_insert_0 less _ k m); [exact Hk|].
  assert (owed ci m' <= owed ci m); [|lia].
  apply owed_less; rewrite ?E; try reflexivity. intros d. unfold eff. rewrite E. cbn. specialize (Hdue d). lia.
Qed.

(** the increment of the index a distribution records *)
Definition recorded (r z : Z) : Z :=
  if Z.of_nat (length ci) <? HISTORY_CAP then PRECISION * r / z else 0.

Lemma distribute_gain r w' :
  0 <= r -> distribute ts r w = Ok w' ->
  (w' = WPool (set_total (wp w) (pool_net w (bod ts))) (wp_diffs w') ci) \/
  (0 < pool_net w (bod ts) /\ p_avail (wp w') = p_avail (wp w) - r /\
   forall k m, M !! k = Some m ->
     owed (wp_ci w') m = owed ci m + recorded r (pool_net w (bod ts)) * eff m (bod ts)).
Proof.
  intros Hr H. unfold distribute in H. cbv zeta in H. inv.
  rename E0 into Hc.
  pose proof (pool_consume_ok _ _ _ _ _ (i_pasc _ _ _ _ _ HI) Hc) as [Hz Ht].
  change (p_total (wp w) - due (bod ts) (wp_diffs w)) with (pool_net w (bod ts)) in Hz.
  pose proof (inv_consume _ _ _ _ _ _ _ HI Hc) as HI1.
  destruct (ohas (bod ts) ci) eqn:Hh.
  { inv. left. cbn. subst. reflexivity. }
  right. unfold pool_update_index in H. inv.
  cbn [p_total set_total p_index p_avail] in *. set (z := pool_net w (bod ts)) in *.
  assert (Hz0 : 0 < z).
  { pose proof (i_total _ _ _ _ _ HI1) as X. cbn in X. lia. }
  split; [assumption|]. cbn [wp wp_ci wp_diffs set_avail set_index p_avail set_total]. split; [reflexivity|].
  intros k m Hk.
  assert (Hlt : dates (fun k => k < bod ts) ci).
  { intros k' i Hin. pose proof (i_keys _ _ _ _ _ HI _ _ Hin) as Hk'. cbv beta in *.
    destruct (Z.eq_dec k' (bod ts)) as [->|]; [|lia].
    exfalso. apply ohas_false in Hh. apply (proj1 (oget_none _ _) Hh i). exact Hin. }
  unfold oinsert. rewrite Hh. unfold recorded.
  destruct (Z.ltb_spec (Z.of_nat (length ci)) HISTORY_CAP) as [Hlen|Hlen]; [|lia].
  rewrite oput_last by assumption.
  pose proof (i_last _ _ _ _ _ HI Hlen) as Hlast.
  set (inc := PRECISION * r / z) in *. set (x := p_index (wp w) + inc).
  destruct (i_min _ _ _ _ _ HI _ _ Hk) as [Hok Hsum Hd Hdt Hi].
  unfold owed, accrual. rewrite accrual_app.
  assert (m_index (wm m) <= last_from 0 ci).
  { pose proof (visible_bounds 0 ts ci (h_grow _ (i_hist _ _ _ _ _ HI))). unfold visible in *. lia. }
  assert (0 <= inc) by (apply Z.div_pos; unfold PRECISION; lia).
  rewrite !Z.max_l by (unfold x; lia). unfold x. rewrite Hlast. lia.
Qed.

Lemma eff_in k m d : M !! k = Some m -> 0 <= eff m d <= msum (fun m => eff m d) M.
Proof.
  intros Hk. split; [exact (eff_nonneg _ _ _ d (i_min _ _ _ _ _ HI _ _ Hk))|].
  apply (msum_ge (fun m => eff m d) M k m); [|exact Hk].
  intros k' m' Hk'. exact (eff_nonneg _ _ _ d (i_min _ _ _ _ _ HI _ _ Hk')).
Qed.

Lemma share_bound r z S e :
  0 <= r -> 0 < z -> 0 <= e <= S -> S <= z -> PRECISION * r / z * e <= PRECISION * r * e / S.
Proof.
  intros Hr Hz He HS. destruct (Z.eq_dec S 0) as [->|HS0].
  { assert (e = 0) by lia. subst. rewrite Z.mul_0_r, Zdiv_0_r. lia. }
  apply Z.div_le_lower_bound; [lia|].
  pose proof (Z.mul_div_le (PRECISION * r) z Hz).
  assert (0 <= PRECISION * r / z) by (apply Z.div_pos; unfold PRECISION; lia).
  assert (S * (PRECISION * r / z) <= PRECISION * r) by nia. nia.
Qed.

Lemma share_loss r S e :
  0 <= r -> 0 < S -> 0 <= e -> PRECISION * r * e / S <= PRECISION * r / S * e + e.
Proof.
  intros Hr HS He. apply Z.div_le_upper_bound; [lia|].
  pose proof (Z.mul_succ_div_gt (PRECISION * r) S HS). nia.
Qed.
End steps.

(** ** Nothing but rounding is lost *)
Section low.
Context (w : wpool) (M : gmap Z wmining) (v ts : Z) (HI : Inv True w M v ts).
Notation ci := (wp_ci w).
Notation own m := (PRECISION * (1 + count_due (day_start ts) (wm_diffs m))).

(** a delegate that was up to date loses nothing *)
Lemma low_sub a total m total' d' :
  minv ci ts m -> m_index (wm m) = last_from 0 ci ->
  delegate_sub ts a ci total (Some (Ok m)) = Ok (total', d') ->
  exists m', d' = Some m' /\ owed ci m <= owed ci m' /\ min_ok m' /\ m_index (wm m') = visible ts ci /\
    m_unclaimed (wm m) <= m_unclaimed (wm m').
Proof.
  intros Hm Hi H. apply dlg_sub_unclaimed in H as (m' & -> & Hu & Hi' & Hok'); [|apply HI|apply Hm].
  exists m'. split; [reflexivity|]. split; [|auto].
  rewrite (owed_settled ci m) by (try apply HI; lia).
  rewrite (owed_settled ci m'); [unfold PRECISION in *; lia|apply HI|].
  pose proof (mi_index _ _ _ Hm). lia.
Qed.
Lemma add_index a total m total' m' :
  min_ok m -> 0 <= a -> delegate_add ts a ci total (Some (Ok m)) = Ok (total', Some m') -> m_index (wm m') = visible ts ci.
Proof.
  intros Hok Ha H. cbn [delegate_add rbind] in H. inv.
  match goal with E : refresh _ _ _ = Ok _ |- _ => rename E into Href end.
  eapply (refresh_index True w M v ts HI); [|exact Href].
  destruct Hok. constructor; cbn; try assumption. lia.
Qed.
Lemma low_add a total m total' d' :
  min_ok m -> 0 <= a -> m_index (wm m) = last_from 0 ci -> m_index (wm m) <= visible ts ci ->
  delegate_add ts a ci total (Some (Ok m)) = Ok (total', d') ->
  exists m', d' = Some m' /\ owed ci m <= owed ci m'.
Proof.
  intros Hok Ha Hi Hv H. pose proof H as H'. apply dlg_add_unclaimed in H as (m' & -> & Hu); [|apply HI|assumption|assumption].
  exists m'. split; [reflexivity|]. pose proof (add_index _ _ _ _ _ Hok Ha H') as Hi'.
  rewrite (owed_settled ci m) by (try apply HI; lia).
  rewrite (owed_settled ci m'); [unfold PRECISION in *; lia|apply HI|lia].
Qed.

Lemma low_deposit k m a p d dl w' m' d' x :
  M !! k = Some m -> get_dlg M k d = Ok dl -> 0 <= a ->
  visible ts ci = last_from 0 ci ->
  (forall x m, d = Some x -> M !! x = Some m -> m_index (wm m) = visible ts ci) ->
  deposit ts w m a p dl = Ok (w', m', d') ->
  hold (owed ci) M x <= hold (owed ci) (put_opt d d' (<[k := m']> M)) x + (if k =? x then own m else 0).
Proof.
  intros Hk Hd Ha Hv Hup H. unfold deposit in H. inv.
  rename a0 into m1. rename E into Href.
  apply (hold_two _ M k m); [exact Hk|eapply dlg_ne; exact Hd| | |eapply dlg_in; exact Hd].
  - eapply (settled_after w M v ts HI); try eassumption; reflexivity.
  - intros y my -> Hy. rewrite (dlg_is _ _ _ _ _ Hd Hy) in *. specialize (Hup y my eq_refl Hy).
    match goal with E : delegate_add _ _ _ _ _ = Ok _ |- _ =>
      apply low_add in E; [exact E|apply (i_min _ _ _ _ _ HI y my Hy)|assumption|lia|lia] end.
Qed.

Lemma low_withdraw k m a d dl w' m' d' x :
  M !! k = Some m -> get_dlg M k d = Ok dl ->
  visible ts ci = last_from 0 ci ->
  (forall x m, d = Some x -> M !! x = Some m -> m_index (wm m) = visible ts ci) ->
  withdraw ts w m a dl = Ok (w', m', d') ->
  hold (owed ci) M x <= hold (owed ci) (put_opt d d' (<[k := m']> M)) x + (if k =? x then own m else 0).
Proof.
  intros Hk Hd Hv Hup H. unfold withdraw in H. inv.
  rename a0 into m1. rename E into Href.
  apply (hold_two _ M k m); [exact Hk|eapply dlg_ne; exact Hd| | |eapply dlg_in; exact Hd].
  - eapply (settled_after w M v ts HI); try eassumption; reflexivity.
  - intros y my -> Hy. rewrite (dlg_is _ _ _ _ _ Hd Hy) in *. specialize (Hup y my eq_refl Hy).
    match goal with E : delegate_sub _ _ _ _ _ = Ok _ |- _ =>
      apply low_sub in E as (my' & -> & ? & _); [eauto|apply (i_min _ _ _ _ _ HI y my Hy)|lia] end.
Qed.

Lemma low_slash k m n wt dt w' m' x :
  M !! k = Some m -> visible ts ci = last_from 0 ci ->
  slash ts w m n wt dt = Ok (w', m') ->
  hold (owed ci) M x <= hold (owed ci) (<[k := m']> M) x + (if k =? x then own m else 0).
Proof.
  intros Hk Hv H.
  assert (exists m1, refresh ts ci m = Ok m1 /\ m_index (wm m') = m_index (wm m1) /\
            m_unclaimed (wm m') = m_unclaimed (wm m1)) as (m1 & Hr & Hi & Hu).
  { unfold slash, withdraw in H. cbv zeta in H. destruct dt; inv;
      eexists; (split; [eassumption|]); split; reflexivity. }
  apply (hold_insert _ _ k m); [exact Hk|].
  exact (settled_after w M v ts HI k m m1 m' Hk Hr Hv Hi Hu).
Qed.

Lemma low_change k m od nd odl ndl a w' m' od' nd' x :
  M !! k = Some m -> get_dlg M k od = Ok odl -> get_dlg M k nd = Ok ndl -> od <> nd -> 0 <= a ->
  visible ts ci = last_from 0 ci ->
  (forall x m, od = Some x -> M !! x = Some m -> m_index (wm m) = visible ts ci) ->
  (forall x m, nd = Some x -> M !! x = Some m -> m_index (wm m) = visible ts ci) ->
  change_delegate ts w m ndl odl a = Ok (w', m', od', nd') ->
  hold (owed ci) M x <= hold (owed ci) (put_opt nd nd' (put_opt od od' (<[k := m']> M))) x
    + (if k =? x then own m else 0).
Proof.
  intros Hk Ho Hn Hne Ha Hv Hupo Hupn H. unfold change_delegate in H. inv.
  rename E into Href. rename E0 into Hsub. rename E1 into Hadd.
  assert (H1 : hold (owed ci) M x <= hold (owed ci) (put_opt od od' (<[k := m']> M)) x + (if k =? x then own m else 0)).
  { apply (hold_two _ M k m); [exact Hk|eapply dlg_ne; exact Ho| | |eapply dlg_in; exact Ho].
    - eapply (settled_after w M v ts HI); try eassumption; reflexivity.
    - intros y my -> Hy. rewrite (dlg_is _ _ _ _ _ Ho Hy) in *. specialize (Hupo y my eq_refl Hy).
      apply low_sub in Hsub as (my' & -> & ? & _); [eauto|apply (i_min _ _ _ _ _ HI y my Hy)|lia]. }
  etransitivity; [exact H1|]. clear H1. apply Zplus_le_compat_r.
  destruct nd as [y|]; [|reflexivity]. pose proof (dlg_ne _ _ _ _ Hn) as Hyk.
  destruct (dlg_in _ _ _ _ Hn y eq_refl) as [my Hy]. rewrite (dlg_is _ _ _ _ _ Hn Hy) in *.
  specialize (Hupn y my eq_refl Hy).
  apply low_add in Hadd as (mx' & -> & Hu); [|apply (i_min _ _ _ _ _ HI y my Hy)|assumption|lia|lia].
  cbn [put_opt]. apply (hold_insert_0 _ _ y my); [|lia].
  rewrite put_opt_lookup_ne by congruence. rewrite lookup_insert_ne by congruence. exact Hy.
Qed.

Lemma low_extend k m op np st b a d dl w' m' d' x :
  M !! k = Some m -> get_dlg M k d = Ok dl -> 0 <= b -> 0 <= a ->
  visible ts ci = last_from 0 ci ->
  (forall x m, d = Some x -> M !! x = Some m -> m_index (wm m) = visible ts ci) ->
  (op = LFlex \/ expiry op st <= ts) ->
  extend ts w m op np st b a dl = Ok (w', m', d') ->
  hold (owed ci) M x <= hold (owed ci) (put_opt d d' (<[k := m']> M)) x + (if k =? x then own m else 0).
Proof.
  intros Hk Hd Hb Ha Hv Hup Hop H. unfold extend in H. inv.
  rename a0 into m1. rename E into Href.
  pose proof (i_time _ _ _ _ _ HI) as Ht.
  assert (Hexp : a1 <= ts).
  { destruct op; cbn [lockup_eqb] in E0; try (injection E0 as <-; lia);
    apply end_timestamp_ok in E0 as (-> & _); destruct Hop; try congruence; lia. }
  rewrite (proj2 (Z.ltb_ge ts a1)) in E2 by assumption. inv.
  pose proof (i_min _ _ _ _ _ HI k m Hk) as Hm.
  pose proof (minv_refresh _ _ _ _ (i_hist _ _ _ _ _ HI) (i_keys _ _ _ _ _ HI) Hm Href) as Hm1.
  pose proof (refresh_ok _ _ _ _ (i_hist _ _ _ _ _ HI) (mi_ok _ _ _ Hm) Href) as R. cbv zeta in R.
  destruct R as (_ & _ & Ri & _).
  unfold deposit in H. inv.
  match goal with E : refresh ts _ (WMining (set_share (wm m1) _) _) = Ok ?x |- _ =>
    rename E into Href2; rename x into m2 end.
  cbn [wp_ci set_wtotal] in *.
  assert (Hok2 : min_ok (WMining (set_share (wm m1) (m_share (wm m1) - b * multiplier LFlex)) (wm_diffs m1))).
  { destruct (mi_ok _ _ _ Hm1). constructor; cbn in *; try assumption. lia. }
  pose proof (refresh_ok _ _ _ _ (i_hist _ _ _ _ _ HI) Hok2 Href2) as R2. cbv zeta in R2. cbn in R2.
  destruct R2 as (_ & _ & Ri2 & _ & _ & _ & _ & _ & _ & _ & Ru2 & _).
  apply (hold_two _ M k m); [exact Hk|eapply dlg_ne; exact Hd| | |eapply dlg_in; exact Hd].
  - pose proof (settled_after w M v ts HI k m m1 m1 Hk Href Hv eq_refl eq_refl) as Hs.
    rewrite (owed_settled ci m1) in Hs by (try apply HI; lia).
    match goal with |- _ <= owed _ ?y + _ => rewrite (owed_settled ci y); [|apply HI|cbn; lia] end.
    cbn. unfold PRECISION in *. lia.
  - intros y my -> Hy. rewrite (dlg_is _ _ _ _ _ Hd Hy) in *. specialize (Hup y my eq_refl Hy).
    match goal with E : delegate_sub _ _ _ _ _ = Ok _ |- _ =>
      apply low_sub in E as (mz & -> & Hz & Hokz & Hiz & _); [|apply (i_min _ _ _ _ _ HI y my Hy)|lia] end.
    match goal with E : delegate_add _ _ _ _ _ = Ok _ |- _ =>
      apply low_add in E as (mx' & -> & Hu'); [|assumption|lia|lia|lia] end.
    exists mx'. split; [reflexivity|lia].
Qed.

Lemma low_close k m m1 x :
  M !! k = Some m -> refresh ts ci m = Ok m1 -> m_unclaimed (wm m1) = 0 ->
  (forall d, bod ts <= d -> eff m1 d = 0) ->
  hold (owed ci) M x <= hold (owed ci) (delete k M) x + (if k =? x then own m else 0).
Proof.
  intros Hk Hr Hu He. unfold hold.
  destruct (Z.eqb_spec k x) as [<-|Hx]; [|rewrite lookup_delete_ne by assumption; lia].
  pose proof (dust_close w M v ts HI k m m1 Hk Hr Hu He) as H. rewrite (msum_delete _ M k m Hk) in H.
  rewrite lookup_delete. unfold pubkey in *. rewrite Hk. lia.
Qed.
End low.

(** ** One event *)
Lemma stake_on_is s w M v ts day now k :
  Inv s w M v ts -> stake_on day (Core w M v now) k = match M !! k with Some m => eff m day | None => 0 end.
Proof.
  intros HI. unfold stake_on, stake. cbn [c_min]. destruct (M !! k) as [m|] eqn:Hk; [|reflexivity].
  pose proof (eff_nonneg _ _ _ day (i_min _ _ _ _ _ HI _ _ Hk)). lia.
Qed.
Lemma stake_of_all_is s w M v ts day now :
  Inv s w M v ts -> stake_of_all day (Core w M v now) = msum (fun m => eff m day) M.
Proof.
  intros HI. unfold stake_of_all, stake. cbn [c_min]. apply msum_ext. intros k m Hk.
  pose proof (eff_nonneg _ _ _ day (i_min _ _ _ _ _ HI _ _ Hk)). lia.
Qed.
Lemma coming_hold c k : coming c k = hold (owed (wp_ci (c_pool c))) (c_min c) k.
Proof. reflexivity. Qed.
Lemma hold_less ci M x : hold (fun m => - owed ci m) M x = - hold (owed ci) M x.
Proof. unfold hold. destruct (M !! x); lia. Qed.

Lemma init_owed ci pool owner bump : hist_ok ci -> owed ci (WMining (mining_initialize pool owner bump) []) = 0.
Proof.
  intros Hh. unfold owed, accrual. cbn [wm mining_initialize m_unclaimed m_index].
  rewrite (accrual_ext 0 _ (fun _ => 0) 0 ci); [|apply Hh|reflexivity].
  assert (E : forall prev, accrual_from 0 (fun _ => 0) prev ci = 0).
  { clear Hh. induction ci as [|[a b] r IH]; intros prev; cbn [accrual_from]; [reflexivity|].
    rewrite IH. lia. }
  rewrite E. lia.
Qed.

Lemma gain_step s ts o c c' k :
  cinv s c -> c_now c <= ts -> is_u64 ts -> op_wf o -> disciplined ts o c ->
  core_step ts o c = Ok c' ->
  coming c' k + PRECISION * paid_out o c c' k <= coming c k + fair_share ts o c c' k.
Proof.
  intros HI Ht Hts Hwf Hd H. rewrite !coming_hold.
  unfold cinv in *. pose proof (inv_time _ _ _ _ _ _ HI Ht) as HT. clear HI.
  destruct c as [w M v now]. cbn [c_pool c_min c_vault c_now] in *.
  destruct o; cbn [core_step] in H; cbn [op_wf] in Hwf; cbn [c_pool c_min c_vault c_now] in H;
    cbn [paid_out fair_share]; rewrite ?Z.mul_0_r, ?Z.add_0_r.
  - (* deposit *) inv. apply get_min_ok in E. cbn [c_pool c_min c_vault] in *.
    pose proof (Hd FreshDelegate) as Hu. pose proof (Hd NoMidnight) as Hm. cbn in Hu, Hm.
    pose proof (deposit_frame _ _ _ _ _ _ _ _ _ E1) as [(t' & ds' & ->) _]. cbn [wp_ci].
    match type of E1 with deposit _ _ ?m ?a ?p ?dl = Ok (?w', ?m', ?d') =>
      pose proof (up_deposit s w M v ts HT k0 m a p d dl w' m' d' k E E0 (proj1 Hwf)
        (visible_now _ _ (i_keys _ _ _ _ _ HT) Hm) Hu E1) as X end.
    rewrite !hold_less in X. unfold pubkey in *. lia.
  - (* withdraw *) inv. apply get_min_ok in E. cbn [c_pool c_min c_vault] in *.
    pose proof (withdraw_frame _ _ _ _ _ _ _ _ E1) as [(t' & ds' & ->) _]. cbn [wp_ci].
    match type of E1 with withdraw _ _ ?m ?a ?dl = Ok (?w', ?m', ?d') =>
      pose proof (up_withdraw s w M v ts HT k0 m a d dl w' m' d' k E E0 (proj1 Hwf) E1) as X end.
    rewrite !hold_less in X. unfold pubkey in *. lia.
  - (* extend *) inv. apply get_min_ok in E. cbn [c_pool c_min c_vault] in *.
    pose proof (Hd ExpiredExtend) as Ho. pose proof (Hd NoMidnight) as Hm. cbn in Ho, Hm.
    pose proof (extend_frame _ _ _ _ _ _ _ _ _ _ _ _ E1) as [(t' & ds' & ->) _]. cbn [wp_ci].
    match type of E1 with extend _ _ ?m ?op ?np ?st ?b ?a ?dl = Ok (?w', ?m', ?d') =>
      pose proof (up_extend s w M v ts HT k0 m op np st b a d dl w' m' d' k E E0
        (proj1 (proj1 (proj2 Hwf))) (proj1 (proj2 (proj2 Hwf)))
        (visible_now _ _ (i_keys _ _ _ _ _ HT) Hm) Ho E1) as X end.
    rewrite !hold_less in X. unfold pubkey in *. lia.
  - (* change *) inv. apply bool_decide_eq_false in E. apply get_min_ok in E0.
    cbn [c_pool c_min c_vault] in *.
    pose proof (Hd FreshDelegate) as Hu. pose proof (Hd NoMidnight) as Hm. cbn in Hu, Hm.
    pose proof (change_frame _ _ _ _ _ _ _ _ _ _ E3) as [(t' & ds' & ->) _]. cbn [wp_ci].
    match type of E3 with change_delegate _ _ ?m ?ndl ?odl ?a = Ok (?w', ?m', ?od', ?nd') =>
      pose proof (up_change s w M v ts HT k0 m _ _ odl ndl a w' m' od' nd' k E0 E1 E2 E (proj1 Hwf)
        (visible_now _ _ (i_keys _ _ _ _ _ HT) Hm) Hu E3) as X end.
    rewrite !hold_less in X. unfold pubkey in *. lia.
  - (* slash *) inv. apply get_min_ok in E. cbn [c_pool c_min c_vault] in *.
    pose proof (slash_frame _ _ _ _ _ _ _ _ E0) as [(t' & ds' & ->) _]. cbn [wp_ci].
    match type of E0 with slash _ _ ?m ?n ?wt ?dt = Ok (?w', ?m') =>
      pose proof (up_slash s w M v ts HT k0 m n wt dt w' m' k E (proj1 (proj1 Hwf)) (proj1 (proj1 (proj2 Hwf))) E0) as X end.
    rewrite !hold_less in X. unfold pubkey in *. lia.
  - (* decrease *) inv. apply get_min_ok in E. cbn [c_pool c_min c_vault] in *.
    pose proof (up_decrease s w M v ts HT k0 _ _ _ k E (proj1 Hwf) E0) as X. rewrite !hold_less in X. unfold pubkey in *. lia.
  - (* claim *) inv. apply get_min_ok in E. cbn [c_pool c_min c_vault] in *.
    match goal with R : refresh _ _ ?m = Ok ?m1 |- _ =>
      pose proof (owed_refresh s w M v ts HT m m1 (mi_ok _ _ _ (i_min _ _ _ _ _ HT _ _ E)) R) as X;
      assert (E' : owed (wp_ci w) m1 = PRECISION * m_unclaimed (wm m1)
                + owed (wp_ci w) (WMining (mining_claim (wm m1)) (wm_diffs m1)))
        by (unfold owed; cbn; change (eff (WMining (mining_claim (wm m1)) (wm_diffs m1))) with (eff m1); lia)
    end.
    unfold hold. destruct (Z.eqb_spec k0 k) as [->|Hx].
    + rewrite lookup_insert. unfold pubkey in *. rewrite E. lia.
    + rewrite lookup_insert_ne by assumption. lia.
  - (* fill *) pose proof (Hd OutsideSource) as Ho. cbn in Ho. subst from_vault.
    inv. unfold fill_pool in *. inv. cbn. lia.
  - (* donate *) inv. cbn. lia.
  - (* distribute *) inv. cbn [c_pool c_min c_vault] in *. rewrite <- bod_day_start.
    rename a into r. rename a0 into w'.
    pose proof (rewards_nonneg _ _ _ (i_avail _ _ _ _ _ HT) E) as Hr.
    rewrite !(stake_on_is _ _ _ _ _ _ _ _ HT), !(stake_of_all_is _ _ _ _ _ _ _ HT). unfold hold.
    destruct (distribute_gain s w M v ts HT r w' Hr E0) as [->|(Hz & Ha & Hg)].
    { cbn [wp_ci wp p_avail set_total].
      replace (p_avail (wp w) - p_avail (wp w)) with 0 by lia.
      rewrite Z.mul_0_r, Z.mul_0_l, Zdiv_0_l. lia. }
    rewrite Ha. replace (p_avail (wp w) - (p_avail (wp w) - r)) with r by lia.
    destruct (M !! k) as [m|] eqn:Hk; [|rewrite Z.mul_0_r, Zdiv_0_l; lia].
    rewrite (Hg k m Hk).
    pose proof (eff_in s w M v ts HT k m (bod ts) Hk) as He.
    pose proof (share_bound r _ _ _ Hr Hz He (i_gap _ _ _ _ _ HT (bod ts) (Z.le_refl _))) as X.
    assert (Y : recorded w r (pool_net w (bod ts)) * eff m (bod ts) <= PRECISION * r / pool_net w (bod ts) * eff m (bod ts)).
    { unfold recorded. destruct (_ <? _); [lia|].
      assert (0 <= PRECISION * r / pool_net w (bod ts)) by (apply Z.div_pos; unfold PRECISION; lia). nia. }
    change 10000000000000000 with PRECISION. lia.
  - (* init *) destruct (M !! k0) eqn:X; [discriminate|]. inv. cbn [c_pool c_min c_vault] in *.
    unfold hold. destruct (Z.eq_dec k0 k) as [->|Hx].
    + rewrite lookup_insert. unfold pubkey in *. rewrite X. rewrite init_owed by apply HT. lia.
    + rewrite lookup_insert_ne by assumption. lia.
  - (* close *) inv. apply get_min_ok in E. cbn [c_pool c_min c_vault] in *.
    unfold hold. destruct (Z.eq_dec k0 k) as [->|Hx].
    + rewrite lookup_delete. unfold pubkey in *. rewrite E.
      pose proof (owed_nonneg _ _ _ (i_hist _ _ _ _ _ HT) (i_min _ _ _ _ _ HT _ _ E)).
      pose proof (mo_unclaimed _ (mi_ok _ _ _ (i_min _ _ _ _ _ HT _ _ E))). unfold PRECISION in *. lia.
    + rewrite lookup_delete_ne by assumption. lia.
Qed.

Lemma loss_step ts o c c' k :
  cinv True c -> c_now c <= ts -> is_u64 ts -> op_wf o -> careful ts o c ->
  core_step ts o c = Ok c' ->
  coming c k + fair_share ts o c c' k <= coming c' k + PRECISION * paid_out o c c' k + rounding ts o c k.
Proof.
  intros HI Ht Hts Hwf [[Hd Hex] Hca] H. rewrite !coming_hold.
  unfold cinv in *. pose proof (inv_time _ _ _ _ _ _ HI Ht) as HT. clear HI.
  destruct c as [w M v now]. cbn [c_pool c_min c_vault c_now] in *.
  destruct o; cbn [core_step] in H; cbn [op_wf] in Hwf; cbn [c_pool c_min c_vault c_now] in H;
    cbn [paid_out fair_share rounding]; rewrite ?Z.mul_0_r, ?Z.add_0_r; unfold refresh_dust; cbn [c_min].
  - (* deposit *) inv. apply get_min_ok in E. cbn [c_pool c_min c_vault] in *.
    pose proof (Hd FreshDelegate) as Hu. pose proof (Hd NoMidnight) as Hm. cbn in Hu, Hm.
    pose proof (deposit_frame _ _ _ _ _ _ _ _ _ E1) as [(t' & ds' & ->) _]. cbn [wp_ci].
    match type of E1 with deposit _ _ ?m ?a ?p ?dl = Ok (?w', ?m', ?d') =>
      pose proof (low_deposit w M v ts HT k0 m a p d dl w' m' d' k E E0 (proj1 Hwf)
        (visible_now _ _ (i_keys _ _ _ _ _ HT) Hm) Hu E1) as X end.
    unfold pubkey in *. destruct (Z.eqb_spec k0 k) as [->|]; [rewrite E|]; unfold PRECISION in *; lia.
  - (* withdraw *) inv. apply get_min_ok in E. cbn [c_pool c_min c_vault] in *.
    pose proof (Hca FreshOldDelegate) as Hu. pose proof (Hca NoMidnightExit) as Hm. cbn in Hu, Hm.
    pose proof (withdraw_frame _ _ _ _ _ _ _ _ E1) as [(t' & ds' & ->) _]. cbn [wp_ci].
    match type of E1 with withdraw _ _ ?m ?a ?dl = Ok (?w', ?m', ?d') =>
      pose proof (low_withdraw w M v ts HT k0 m a d dl w' m' d' k E E0
        (visible_now _ _ (i_keys _ _ _ _ _ HT) Hm) Hu E1) as X end.
    unfold pubkey in *. destruct (Z.eqb_spec k0 k) as [->|]; [rewrite E|]; unfold PRECISION in *; lia.
  - (* extend *) inv. apply get_min_ok in E. cbn [c_pool c_min c_vault] in *.
    pose proof (Hd ExpiredExtend) as Ho. pose proof (Hd NoMidnight) as Hm. cbn in Ho, Hm. specialize (Hca FreshOldDelegate).
    pose proof (extend_frame _ _ _ _ _ _ _ _ _ _ _ _ E1) as [(t' & ds' & ->) _]. cbn [wp_ci].
    match type of E1 with extend _ _ ?m ?op ?np ?st ?b ?a ?dl = Ok (?w', ?m', ?d') =>
      pose proof (low_extend w M v ts HT k0 m op np st b a d dl w' m' d' k E E0
        (proj1 (proj1 (proj2 Hwf))) (proj1 (proj2 (proj2 Hwf)))
        (visible_now _ _ (i_keys _ _ _ _ _ HT) Hm) Hca Ho E1) as X end.
    unfold pubkey in *. destruct (Z.eqb_spec k0 k) as [->|]; [rewrite E|]; unfold PRECISION in *; lia.
  - (* change *) inv. apply bool_decide_eq_false in E. apply get_min_ok in E0.
    cbn [c_pool c_min c_vault] in *.
    pose proof (Hd FreshDelegate) as Hu. pose proof (Hd NoMidnight) as Hm. cbn in Hu, Hm. specialize (Hca FreshOldDelegate).
    pose proof (change_frame _ _ _ _ _ _ _ _ _ _ E3) as [(t' & ds' & ->) _]. cbn [wp_ci].
    match type of E3 with change_delegate _ _ ?m ?ndl ?odl ?a = Ok (?w', ?m', ?od', ?nd') =>
      pose proof (low_change w M v ts HT k0 m _ _ odl ndl a w' m' od' nd' k E0 E1 E2 E (proj1 Hwf)
        (visible_now _ _ (i_keys _ _ _ _ _ HT) Hm) Hca Hu E3) as X end.
    unfold pubkey in *. destruct (Z.eqb_spec k0 k) as [->|]; [rewrite E0|]; unfold PRECISION in *; lia.
  - (* slash *) inv. apply get_min_ok in E. cbn [c_pool c_min c_vault] in *.
    specialize (Hca NoMidnightExit). cbn in Hca.
    pose proof (slash_frame _ _ _ _ _ _ _ _ E0) as [(t' & ds' & ->) _]. cbn [wp_ci].
    match type of E0 with slash _ _ ?m ?n ?wt ?dt = Ok (?w', ?m') =>
      pose proof (low_slash w M v ts HT k0 m n wt dt w' m' k E
        (visible_now _ _ (i_keys _ _ _ _ _ HT) Hca) E0) as X end.
    unfold pubkey in *. destruct (Z.eqb_spec k0 k) as [->|]; [rewrite E|]; unfold PRECISION in *; lia.
  - (* decrease *) inv. apply get_min_ok in E. cbn [c_pool c_min c_vault] in *.
    apply decrease_zero in E0. subst. unfold pubkey in *. rewrite (insert_id M k0) by assumption. lia.
  - (* claim *) inv. apply get_min_ok in E. cbn [c_pool c_min c_vault] in *.
    match goal with R : refresh _ _ ?m = Ok ?m1 |- _ =>
      pose proof (refresh_loss _ _ _ _ _ _ _ _ HT E R) as X;
      assert (E' : owed (wp_ci w) m1 = PRECISION * m_unclaimed (wm m1)
                + owed (wp_ci w) (WMining (mining_claim (wm m1)) (wm_diffs m1)))
        by (unfold owed; cbn; change (eff (WMining (mining_claim (wm m1)) (wm_diffs m1))) with (eff m1); lia)
    end.
    unfold hold. destruct (Z.eqb_spec k0 k) as [->|Hx].
    + rewrite lookup_insert. unfold pubkey in *. rewrite E. unfold PRECISION in *. lia.
    + rewrite lookup_insert_ne by assumption. lia.
  - (* fill *) pose proof (Hd OutsideSource) as Ho. cbn in Ho. subst from_vault.
    inv. unfold fill_pool in *. inv. cbn. lia.
  - (* donate *) inv. cbn. lia.
  - (* distribute *) inv. cbn [c_pool c_min c_vault] in *. rewrite <- bod_day_start.
    rename a into r. rename a0 into w'. specialize (Hca HistoryRoom). cbn in Hca.
    pose proof (rewards_nonneg _ _ _ (i_avail _ _ _ _ _ HT) E) as Hr.
    rewrite !(stake_on_is _ _ _ _ _ _ _ _ HT), !(stake_of_all_is _ _ _ _ _ _ _ HT). unfold hold.
    assert (He : match M !! k with Some m => 0 <= eff m (bod ts) | None => True end).
    { destruct (M !! k) as [m|] eqn:Hk; [|exact I]. apply (eff_in True w M v ts HT k m (bod ts) Hk). }
    destruct (distribute_gain True w M v ts HT r w' Hr E0) as [->|(Hz & Ha & Hg)].
    { cbn [wp_ci wp p_avail set_total].
      replace (p_avail (wp w) - p_avail (wp w)) with 0 by lia.
      rewrite Z.mul_0_r, Z.mul_0_l, Zdiv_0_l. destruct (M !! k); lia. }
    rewrite Ha. replace (p_avail (wp w) - (p_avail (wp w) - r)) with r by lia.
    destruct (M !! k) as [m|] eqn:Hk; [|rewrite Z.mul_0_r, Zdiv_0_l; lia].
    rewrite (Hg k m Hk).
    rewrite (i_eq _ _ _ _ _ HT I (bod ts) (Z.le_refl _)).
    pose proof (share_loss r _ _ Hr Hz He) as X.
    unfold recorded. rewrite (proj2 (Z.ltb_lt _ _)) by (unfold HISTORY_CAP; assumption).
    change 10000000000000000 with PRECISION. lia.
  - (* init *) destruct (M !! k0) eqn:X; [discriminate|]. inv. cbn [c_pool c_min c_vault] in *.
    unfold hold. destruct (Z.eq_dec k0 k) as [->|Hx].
    + rewrite lookup_insert. unfold pubkey in *. rewrite X. rewrite init_owed by apply HT. lia.
    + rewrite lookup_insert_ne by assumption. lia.
  - (* close *) inv. apply get_min_ok in E. cbn [c_pool c_min c_vault] in *.
    match goal with H : refresh _ _ _ = Ok ?m1 |- _ => pose proof (low_close w M v ts HT k0 _ m1 k E H) as HD; rename H into Hr end.
    match type of HD with ?A -> ?B -> _ => assert (HA : A) by lia; assert (HB : B) end.
    { intros d Hd'. specialize (Hex _ E). cbv beta in Hex. rewrite <- bod_day_start in Hex.
      pose proof (i_min _ _ _ _ _ HT _ _ E) as Hm.
      pose proof (refresh_ok _ _ _ _ (i_hist _ _ _ _ _ HT) (mi_ok _ _ _ Hm) Hr) as R. cbv zeta in R.
      destruct R as (Rd & Rs & _ & _ & Rf & _).
      pose proof (minv_refresh _ _ _ _ (i_hist _ _ _ _ _ HT) (i_keys _ _ _ _ _ HT) Hm Hr) as [[] _ Htot _ _].
      unfold eff. pose proof (due_bounds d _ mo_vals). lia. }
    specialize (HD HA HB). unfold pubkey in *. destruct (Z.eqb_spec k0 k) as [->|]; [rewrite E|]; unfold PRECISION in *; lia.
Qed.

(** ** Histories *)
Lemma tallied_history P c c' x : tallied P c c' x -> history P c c'.
Proof. induction 1; [constructor|]. econstructor; eauto. Qed.

Lemma tallied_weaken (P Q : Z -> op -> core -> Prop) c c' x :
  (forall ts o c, P ts o c -> Q ts o c) -> tallied P c c' x -> tallied Q c c' x.
Proof. intros HPQ. induction 1; [constructor|]. econstructor; eauto. Qed.

Lemma gain_history c c' x k :
  cinv False c -> tallied disciplined c c' x ->
  coming c' k + PRECISION * t_paid (x k) <= coming c k + t_fair (x k).
Proof.
  intros H0 H. induction H; [cbn; lia|].
  assert (HI : cinv False c1) by (eapply history_inv; [exact H0|eapply tallied_history; eassumption]).
  specialize (IHtallied H0).
  pose proof (gain_step _ ts o c1 c2 k HI H1 H2 H3 H4 H5) as HS.
  unfold add_tally. cbn [t_paid t_fair]. unfold PRECISION in *. lia.
Qed.

Lemma loss_history c c' x k :
  cinv True c -> tallied careful c c' x ->
  coming c k + t_fair (x k) <= coming c' k + PRECISION * t_paid (x k) + t_lost (x k).
Proof.
  intros H0 H. induction H; [cbn; lia|].
  assert (HI : cinv True c1).
  { eapply history_inv_exact; [exact H0|]. eapply careful_exact, tallied_history; eassumption. }
  specialize (IHtallied H0).
  pose proof (loss_step ts o c1 c2 k HI H1 H2 H3 H4 H5) as HS.
  unfold add_tally. cbn [t_paid t_fair t_lost]. unfold PRECISION in *. lia.
Qed.

Lemma coming_fresh w v t k : coming (fresh_core w v t) k = 0.
Proof. unfold coming, fresh_core. cbn [c_min]. rewrite lookup_empty. reflexivity. Qed.

Lemma never_more w v t c x k :
  fresh_pool w -> 0 <= v < U64 -> 0 <= t -> tallied disciplined (fresh_core w v t) c x ->
  PRECISION * t_paid (x k) + coming c k <= t_fair (x k).
Proof.
  intros Hw Hv Ht H.
  pose proof (inv_mono True False _ _ _ _ (fun f => match f with end) (fresh_inv w v t Hw (proj2 Hv) (proj1 Hv) Ht)) as HI.
  pose proof (gain_history _ _ _ k HI H) as HG. rewrite coming_fresh in HG. lia.
Qed.

Lemma careful_disciplined ts o c : careful ts o c -> disciplined ts o c.
Proof. intros [[H _] _]. exact H. Qed.

Lemma hardly_less w v t c x k :
  fresh_pool w -> 0 <= v < U64 -> 0 <= t -> tallied careful (fresh_core w v t) c x ->
  t_fair (x k) <= PRECISION * t_paid (x k) + coming c k + t_lost (x k).
Proof.
  intros Hw Hv Ht H.
  pose proof (loss_history _ _ _ k (fresh_inv w v t Hw (proj2 Hv) (proj1 Hv) Ht) H) as HG.
  rewrite coming_fresh in HG. lia.
Qed.

(** what can be claimed *)
Lemma claim_bounds s c ts k :
  cinv s c -> c_now c <= ts -> no_midnight ts c ->
  PRECISION * can_claim ts c k <= coming c k <= PRECISION * can_claim ts c k + refresh_dust ts c k.
Proof.
  intros HI Ht Hm. unfold cinv in HI. apply (inv_time _ _ _ _ _ ts) in HI; [|assumption].
  destruct c as [w M v now]. unfold can_claim, coming, refresh_dust. cbn [c_pool c_min c_vault c_now] in *.
  destruct (M !! k) as [m|] eqn:Hk; [|lia].
  destruct (inv_refresh_succeeds _ _ _ _ _ k m HI Hk) as [m1 Hr].
  pose proof (mi_ok _ _ _ (i_min _ _ _ _ _ HI k m Hk)) as Hok.
  pose proof (owed_refresh s w M v ts HI m m1 Hok Hr) as Hu.
  pose proof (refresh_loss _ _ _ _ _ _ _ _ HI Hk Hr) as Hl.
  pose proof (visible_now _ _ (i_keys _ _ _ _ _ HI) Hm) as Hv. cbn [c_pool] in Hv.
  pose proof (refresh_index s w M v ts HI m m1 Hok Hr) as Hi.
  unfold claimable. cbn [c_pool]. rewrite Hr.
  rewrite (owed_settled _ m1) in Hu, Hl by (try apply HI; lia).
  unfold PRECISION in *. lia.
Qed.
(** in the second a distribution is dated at, a claim may pay less *)
Lemma claim_at_most s c ts k :
  cinv s c -> c_now c <= ts -> PRECISION * can_claim ts c k <= coming c k.
Proof.
  intros HI Ht. unfold cinv in HI. apply (inv_time _ _ _ _ _ ts) in HI; [|assumption].
  destruct c as [w M v now]. unfold can_claim, coming. cbn [c_pool c_min c_vault c_now] in *.
  destruct (M !! k) as [m|] eqn:Hk; [|lia].
  destruct (inv_refresh_succeeds _ _ _ _ _ k m HI Hk) as [m1 Hr].
  pose proof (i_min _ _ _ _ _ HI k m Hk) as Hm.
  pose proof (owed_refresh s w M v ts HI m m1 (mi_ok _ _ _ Hm) Hr) as Hu.
  pose proof (minv_refresh _ _ _ _ (i_hist _ _ _ _ _ HI) (i_keys _ _ _ _ _ HI) Hm Hr) as Hm1.
  pose proof (owed_nonneg _ _ _ (i_hist _ _ _ _ _ HI) Hm1).
  unfold claimable. cbn [c_pool]. rewrite Hr. lia.
Qed.

Lemma claims_at_most w v t c x k ts :
  fresh_pool w -> 0 <= v < U64 -> 0 <= t -> tallied disciplined (fresh_core w v t) c x -> c_now c <= ts ->
  PRECISION * (t_paid (x k) + can_claim ts c k) <= t_fair (x k).
Proof.
  intros Hw Hv Ht H Hts. pose proof (never_more w v t c x k Hw Hv Ht H) as HN.
  assert (HI : cinv False c).
  { apply reachable_inv. exists w, v, t. repeat (split; [assumption|]). eapply tallied_history; eassumption. }
  pose proof (claim_at_most _ c ts k HI Hts). unfold PRECISION in *. lia.
Qed.

Lemma claims_at_least w v t c x k ts :
  fresh_pool w -> 0 <= v < U64 -> 0 <= t -> tallied careful (fresh_core w v t) c x -> c_now c <= ts -> no_midnight ts c ->
  t_fair (x k) <= PRECISION * (t_paid (x k) + can_claim ts c k) + t_lost (x k) + refresh_dust ts c k.
Proof.
  intros Hw Hv Ht H Hts Hm. pose proof (hardly_less w v t c x k Hw Hv Ht H) as HN.
  assert (HI : cinv True c).
  { apply reachable_inv_exact. exists w, v, t. repeat (split; [assumption|]). eapply careful_exact, tallied_history; eassumption. }
  pose proof (claim_bounds _ c ts k HI Hts Hm). unfold PRECISION in *. lia.
Qed.

(** who has at most as much at stake in every distribution is due at most as much *)
Lemma fair_monotone (P : Z -> op -> core -> Prop) c c' x j k :
  cinv True c -> (forall ts o c, P ts o c -> careful ts o c /\ smaller_stake j k ts o c) ->
  tallied P c c' x -> t_fair (x j) <= t_fair (x k).
Proof.
  intros H0 HP H. induction H as [|c c1 c2 ts o x H IH Ht Hts Hwf Hp Hs]; [cbn; lia|].
  specialize (IH H0). destruct (HP _ _ _ Hp) as [Hc Hsm].
  assert (HI : cinv True c1).
  { eapply history_inv_exact; [exact H0|]. eapply careful_exact, tallied_history, tallied_weaken; [|eassumption].
    intros. apply HP. assumption. }
  unfold add_tally. cbn [t_fair].
  assert (fair_share ts o c1 c2 j <= fair_share ts o c1 c2 k); [|lia].
  destruct o; cbn [fair_share]; try lia. specialize (Hsm eq_refl).
  pose proof (inv_time _ _ _ _ _ _ HI Ht) as HT.
  assert (HS : 0 <= stake_of_all (day_start ts) c1).
  { unfold stake_of_all, stake. apply msum_nonneg. intros. lia. }
  assert (HR : 0 <= p_avail (wp (c_pool c1)) - p_avail (wp (c_pool c2))).
  { cbn [core_step] in Hs. inv. cbn [c_pool].
    pose proof (rewards_nonneg _ _ _ (i_avail _ _ _ _ _ HT) E) as Hr.
    destruct (distribute_gain _ _ _ _ _ HT _ _ Hr E0) as [->|(_ & -> & _)]; cbn [wp set_total p_avail]; lia. }
  destruct (Z.eq_dec (stake_of_all (day_start ts) c1) 0) as [->|]; [rewrite !Zdiv_0_r; lia|].
  apply Z.div_le_mono; [lia|]. apply Z.mul_le_mono_nonneg_l; lia.
Qed.

Lemma not_less_than w v t c x j k ts :
  fresh_pool w -> 0 <= v < U64 -> 0 <= t ->
  tallied (fun ts o c => careful ts o c /\ smaller_stake j k ts o c) (fresh_core w v t) c x ->
  c_now c <= ts -> no_midnight ts c ->
  PRECISION * (t_paid (x j) + can_claim ts c j) <=
  PRECISION * (t_paid (x k) + can_claim ts c k) + t_lost (x k) + refresh_dust ts c k.
Proof.
  intros Hw Hv Ht H Hts Hm.
  pose proof (fair_monotone _ _ _ _ j k (fresh_inv w v t Hw (proj2 Hv) (proj1 Hv) Ht) (fun _ _ _ X => X) H) as HF.
  assert (Hc : tallied careful (fresh_core w v t) c x) by (eapply tallied_weaken; [|exact H]; intros ? ? ? X; apply X).
  assert (Hd : tallied disciplined (fresh_core w v t) c x) by (eapply tallied_weaken; [|exact Hc]; apply careful_disciplined).
  pose proof (claims_at_most w v t c x j ts Hw Hv Ht Hd Hts).
  pose proof (claims_at_least w v t c x k ts Hw Hv Ht Hc Hts Hm). lia.
Qed.
