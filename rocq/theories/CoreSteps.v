(** Every disciplined event preserves the invariant of CoreInv.v. *)
From stdpp Require Import gmap.
From Verif Require Import Base OMap State Spec ResLemmas TreeLemmas AccrualLemmas
  RefreshLemmas MapSum Core CoreInv.

Lemma bod_day_start t : bod t = day_start t.
Proof. unfold bod, day_start, DAY. pose proof (Z.div_mod t 86400). lia. Qed.

Lemma end_timestamp_ok p t x : end_timestamp p t = Ok x -> x = expiry p t /\ p <> LNone /\ bod t < x.
Proof.
  unfold end_timestamp, expiry. rewrite <- bod_day_start.
  destruct p; intros H; inv; unfold DAY, days_of; (split; [lia|]); (split; [discriminate|lia]).
Qed.

Lemma multiplier_pos p t x : end_timestamp p t = Ok x -> 1 <= multiplier p.
Proof. destruct p; cbn; intros; try lia. discriminate. Qed.

(** unlocked stake and the remaining schedule are stable under refresh *)
Lemma refresh_unlocked ts ci m m' :
  hist_ok ci -> min_ok m -> refresh ts ci m = Ok m' -> unlocked m' = unlocked m.
Proof.
  intros Hh Hok H. pose proof (refresh_ok ts ci m m' Hh Hok H) as R. cbv zeta in R.
  destruct R as (Rd & Rs & _). unfold unlocked. rewrite Rd, Rs, total_after. lia.
Qed.

Lemma room_refresh ts ci m m' date :
  hist_ok ci -> min_ok m -> refresh ts ci m = Ok m' -> bod ts < date ->
  room ts date m -> room ts date m'.
Proof.
  intros Hh Hok H Hb Hr. pose proof (refresh_ok ts ci m m' Hh Hok H) as R. cbv zeta in R.
  destruct R as (Rd & _). unfold room in *. rewrite Rd, <- bod_day_start in *.
  destruct Hr as [[v Hin]|Hl].
  - left. exists v. apply in_after. auto.
  - right. rewrite after_after by lia. assumption.
Qed.

(** ** Schedule updates *)
Lemma values_oput (P : Z -> Prop) k v t : values P t -> P v -> values P (oput k v t).
Proof. intros H Hv k' v' Hin. apply in_oput in Hin as [[_ ->]|Hin]; [assumption|eauto]. Qed.

Lemma dates_oput (P : Z -> Prop) k v t : dates P t -> P k -> dates P (oput k v t).
Proof. intros H Hv k' v' Hin. apply in_oput in Hin as [[-> _]|Hin]; [assumption|eapply H; eauto]. Qed.

Lemma add_mining_diff_ok t date x t' :
  ascending t -> values (fun v => 0 <= v) t -> 0 <= x ->
  ((exists v, In (date, v) t) \/ Z.of_nat (length t) < 50) ->
  add_mining_diff t date x = Ok t' ->
  ascending t' /\ values (fun v => 0 <= v) t' /\ total t' = total t + x /\
  (forall d, due d t' = due d t + (if date <=? d then x else 0)) /\
  (forall P : Z -> Prop, P date -> dates P t -> dates P t').
Proof.
  unfold add_mining_diff. intros Ha Hv Hx Hr H.
  destruct (oget date t) as [v|] eqn:E.
  - inv. pose proof (Hv _ _ (oget_in _ _ _ E)). cbv beta in *.
    split; [apply ascending_oput; assumption|].
    split; [apply values_oput; [assumption|lia]|].
    split; [rewrite (total_oput_old _ _ _ v) by assumption; lia|].
    split; [|intros; apply dates_oput; assumption].
    intros d. rewrite (due_oput_old d _ _ _ v) by assumption. destruct (date <=? d); lia.
  - inv. unfold oinsert. rewrite (proj2 (ohas_false _ _) E).
    destruct Hr as [[v Hin]|Hl]; [exfalso; eapply oget_none; eauto|].
    rewrite (proj2 (Z.ltb_lt _ _)) by (unfold MINING_CAP; lia).
    split; [apply ascending_oput; assumption|].
    split; [apply values_oput; assumption|].
    split; [apply total_oput_new; assumption|].
    split; [|intros; apply dates_oput; assumption].
    intros d. apply due_oput_new; assumption.
Qed.

(** the schedule has a slot for [date] *)
Definition pool_slot (date : Z) (t : tmap) : Prop :=
  (exists v, In (date, v) t) \/ Z.of_nat (length t) < 365.

Lemma add_pool_diff_ok t date x t' :
  ascending t -> values (fun v => 0 <= v) t -> 0 <= x ->
  add_pool_diff t date x = Ok t' ->
  ascending t' /\ values (fun v => 0 <= v) t' /\
  (forall d, due d t' <= due d t + (if date <=? d then x else 0)) /\
  (pool_slot date t -> forall d, due d t' = due d t + (if date <=? d then x else 0)).
Proof.
  unfold add_pool_diff. intros Ha Hv Hx H. cbv zeta in H. inv.
  unfold oinsert. destruct (oget date t) as [v|] eqn:E0.
  - rewrite (proj2 (ohas_true _ _)) by eauto.
    pose proof (Hv _ _ (oget_in _ _ _ E0)). cbv beta in *.
    assert (Hd : forall d, due d (oput date (v + x) t) = due d t + (if date <=? d then x else 0)).
    { intros d. rewrite (due_oput_old d _ _ _ v) by assumption. destruct (date <=? d); lia. }
    split; [apply ascending_oput; assumption|].
    split; [apply values_oput; [assumption|lia]|].
    split; [|auto]. intros d. rewrite Hd. lia.
  - rewrite (proj2 (ohas_false _ _) E0).
    destruct (Z.ltb_spec (Z.of_nat (length t)) POOL_CAP) as [Hl|Hl].
    + assert (Hd : forall d, due d (oput date (0 + x) t) = due d t + (if date <=? d then x else 0)).
      { intros d. rewrite due_oput_new by assumption. reflexivity. }
      split; [apply ascending_oput; assumption|].
      split; [apply values_oput; [assumption|lia]|].
      split; [|auto]. intros d. rewrite Hd. lia.
    + split; [assumption|]. split; [assumption|].
      split; [intros d; destruct (date <=? d); lia|].
      intros [[v Hin]|Hlt]; [exfalso; eapply oget_none; eauto|unfold POOL_CAP in *; lia].
Qed.

Lemma modify_diffs_ok t date x t' :
  ascending t -> values (fun v => 0 <= v) t -> modify_diffs t date x = Ok t' ->
  ascending t' /\ values (fun v => 0 <= v) t' /\ total t' = total t - x /\
  (forall d, due d t' = due d t - (if date <=? d then x else 0)) /\
  (forall P : Z -> Prop, dates P t -> dates P t') /\
  exists v, In (date, v) t.
Proof.
  unfold modify_diffs. intros Ha Hv H. destruct (oget date t) as [v|] eqn:E; [|discriminate].
  inv. pose proof (oget_in _ _ _ E) as Hin.
  split; [apply ascending_oput; assumption|].
  split; [apply values_oput; [assumption|lia]|].
  split; [rewrite (total_oput_old _ _ _ v) by assumption; lia|].
  split; [|split; [|eauto]].
  - intros d. rewrite (due_oput_old d _ _ _ v) by assumption. destruct (date <=? d); lia.
  - intros P HP. apply dates_oput; [assumption|]. eapply HP; eauto.
Qed.

(** ** Delegates *)
Lemma get_dlg_some M k x dl :
  get_dlg M k (Some x) = Ok dl -> x <> k /\ exists m, M !! x = Some m /\ dl = Some (Ok m).
Proof.
  unfold get_dlg, get_min. destruct (Z.eqb_spec x k); [discriminate|].
  destruct (M !! x) as [m|]; cbn [rbind]; intros H; [|discriminate].
  injection H as <-. eauto.
Qed.

Lemma get_min_ok M k m : get_min M k = Ok m -> M !! k = Some m.
Proof. unfold get_min. destruct (M !! k); congruence. Qed.

Lemma get_dlg_insert M k m d : get_dlg (<[k := m]> M) k d = get_dlg M k d.
Proof.
  destruct d as [x|]; [|reflexivity]. unfold get_dlg, get_min.
  destruct (Z.eqb_spec x k); [reflexivity|]. rewrite lookup_insert_ne by congruence. reflexivity.
Qed.

Lemma inv_dlg_sub s w M v ts k d dl amount total' d' :
  Inv s w M v ts -> get_dlg M k d = Ok dl -> 0 <= amount ->
  delegate_sub ts amount (wp_ci w) (p_total (wp w)) dl = Ok (total', d') ->
  Inv s (set_wtotal w total') (put_opt d d' M) v ts /\
  (forall x, d = Some x -> exists m, d' = Some m /\ m_index (wm m) = visible ts (wp_ci w)) /\
  (d = None -> d' = None).
Proof.
  intros HI Hd Ha H. destruct d as [x|].
  2:{ injection Hd as <-. cbn in H. injection H as <- <-.
      replace (set_wtotal w (p_total (wp w))) with w by (destruct w as [[] ? ?]; reflexivity).
      split; [exact HI|]. split; [discriminate|reflexivity]. }
  apply get_dlg_some in Hd as (Hne & m & Hx & ->). cbn [delegate_sub] in H.
  cbn [rbind] in H. inv. rename E1 into Href. cbn [put_opt].
  match type of Href with _ = Ok ?x => rename x into w0 end.
  split; [|split; [|discriminate]].
  2:{ intros y E'. injection E' as <-. eexists; split; [reflexivity|].
      pose proof (i_min _ _ _ _ _ HI x m Hx) as Hm.
      assert (Hok : min_ok (WMining (set_sfo (wm m) (m_sfo (wm m) - amount)) (wm_diffs m))).
      { destruct (mi_ok _ _ _ Hm). constructor; cbn; try assumption. lia. }
      pose proof (refresh_ok _ _ _ _ (i_hist _ _ _ _ _ HI) Hok Href) as R. cbv zeta in R.
      apply R. }
  pose proof (i_min _ _ _ _ _ HI x m Hx) as Hm.
  rewrite <- (insert_insert M x w0 (WMining (set_sfo (wm m) (m_sfo (wm m) - amount)) (wm_diffs m))).
  eapply (inv_refresh s (set_wtotal w (p_total (wp w) - amount))).
  - eapply (inv_stake s w); [exact HI|exact Hx|reflexivity|reflexivity|reflexivity| | | | |reflexivity|reflexivity| | |].
    + apply HI.
    + apply HI.
    + cbn. pose proof (i_total _ _ _ _ _ HI). lia.
    + destruct Hm as [[] ? ? ? ?]. constructor; cbn; try assumption; [constructor; cbn; try assumption; lia|lia].
    + intros d Hd. unfold eff, pool_net. cbn. lia.
    + intros _ d Hd. unfold eff, pool_net. cbn. lia.
    + apply accrual_le; [apply HI|]. intros. unfold eff. cbn. lia.
  - apply lookup_insert.
  - exact Href.
Qed.

Lemma inv_dlg_add s w M v ts k d dl amount total' d' :
  Inv s w M v ts -> get_dlg M k d = Ok dl -> 0 <= amount ->
  visible ts (wp_ci w) = last_from 0 (wp_ci w) ->
  (forall x m, d = Some x -> M !! x = Some m -> m_index (wm m) = visible ts (wp_ci w)) ->
  delegate_add ts amount (wp_ci w) (p_total (wp w)) dl = Ok (total', d') ->
  Inv s (set_wtotal w total') (put_opt d d' M) v ts.
Proof.
  intros HI Hd Ha Hvis Hup H. destruct d as [x|].
  2:{ injection Hd as <-. cbn in H. injection H as <- <-.
      replace (set_wtotal w (p_total (wp w))) with w by (destruct w as [[] ? ?]; reflexivity).
      exact HI. }
  apply get_dlg_some in Hd as (Hne & m & Hx & ->). cbn [delegate_add] in H.
  cbn [rbind] in H. inv. rename E1 into Href. cbn [put_opt].
  match type of Href with _ = Ok ?x => rename x into w0 end.
  pose proof (i_min _ _ _ _ _ HI x m Hx) as Hm.
  specialize (Hup x m eq_refl Hx).
  assert (Hok : min_ok (WMining (set_sfo (wm m) (m_sfo (wm m) + amount)) (wm_diffs m))).
  { destruct (mi_ok _ _ _ Hm). constructor; cbn; try assumption. lia. }
  pose proof (refresh_ok _ _ _ _ (i_hist _ _ _ _ _ HI) Hok Href) as R. cbv zeta in R.
  destruct R as (_ & _ & _ & _ & _ & _ & _ & _ & _ & _ & _ & _ & Rsum & _). cbn in Rsum.
  rewrite <- (insert_insert M x w0 (WMining (set_sfo (wm m) (m_sfo (wm m) + amount)) (wm_diffs m))).
  eapply (inv_refresh s (set_wtotal w (p_total (wp w) + amount))).
  - eapply (inv_stake s w); [exact HI|exact Hx|reflexivity|reflexivity|reflexivity| | | | |reflexivity|reflexivity| | |].
    + apply HI.
    + apply HI.
    + cbn. pose proof (i_total _ _ _ _ _ HI). lia.
    + destruct Hm as [_ ? ? ? ?]. constructor; cbn; try assumption.
    + intros d Hd. unfold eff, pool_net. cbn. lia.
    + intros _ d Hd. unfold eff, pool_net. cbn. lia.
    + rewrite !accrual_settled; try apply HI; lia.
  - apply lookup_insert.
  - exact Href.
Qed.

(** ** Deposit *)
Lemma inv_deposit s w M v ts k m a p d dl w' m' d' :
  Inv s w M v ts -> M !! k = Some m -> get_dlg M k d = Ok dl -> 0 <= a ->
  visible ts (wp_ci w) = last_from 0 (wp_ci w) ->
  (forall x m, d = Some x -> M !! x = Some m -> m_index (wm m) = visible ts (wp_ci w)) ->
  room ts (expiry p ts) m ->
  (s -> pool_slot (expiry p ts) (wp_diffs w)) ->
  deposit ts w m a p dl = Ok (w', m', d') ->
  Inv s w' (put_opt d d' (<[k := m']> M)) v ts.
Proof.
  intros HI Hk Hd Ha Hvis Hup Hroom Hslot H. unfold deposit in H. inv.
  rename a0 into m1. rename E into Href.
  rename a7 into pd. rename a8 into md.
  apply end_timestamp_ok in E5 as E5'. destruct E5' as (-> & Hp & Hb).
  apply multiplier_pos in E5 as Hmul.
  pose proof (inv_refresh _ _ _ _ _ _ _ _ HI Hk Href) as HI1.
  pose proof (i_min _ _ _ _ _ HI1 k m1 (lookup_insert _ _ _)) as Hm1.
  pose proof (i_min _ _ _ _ _ HI k m Hk) as Hm.
  pose proof (room_refresh _ _ _ _ _ (i_hist _ _ _ _ _ HI) (mi_ok _ _ _ Hm) Href Hb Hroom) as Hroom1.
  pose proof (refresh_ok _ _ _ _ (i_hist _ _ _ _ _ HI) (mi_ok _ _ _ Hm) Href) as R. cbv zeta in R.
  destruct R as (Rd & _ & Ri & _).
  set (diff := a * multiplier p - a * multiplier LFlex) in *.
  assert (Hdiff : 0 <= diff) by (unfold diff; cbn [multiplier] in *; nia).
  assert (Hw : 0 <= a * multiplier p) by nia.
  assert (Hdw : diff = a * multiplier p - a) by (unfold diff; cbn [multiplier]; lia).
  set (wt := a * multiplier p) in *.
  destruct (add_pool_diff_ok _ _ _ _ (i_pasc _ _ _ _ _ HI) (i_pvals _ _ _ _ _ HI) Hdiff E6)
    as (P1 & P2 & P3 & P4).
  destruct (mi_ok _ _ _ Hm1) as [Ma Mv Mj Ms Mf Mu].
  destruct (add_mining_diff_ok (wm_diffs m1) (expiry p ts) diff md) as (M1 & M2 & M3 & M4 & M5);
    try assumption.
  { destruct Hroom1 as [?|Hr]; [left; assumption|right].
    rewrite Rd in *. rewrite bod_day_start in *. rewrite after_after in Hr by lia. assumption. }
  set (w1 := WPool (set_total (wp w) (p_total (wp w) + wt)) pd (wp_ci w)).
  set (m2 := WMining (set_share (wm m1) (m_share (wm m1) + wt)) md).
  assert (HI2 : Inv s w1 (<[k := m2]> M) v ts).
  { rewrite <- (insert_insert M k m2 m1).
    assert (Hnet : forall d, bod ts <= d -> eff m2 d - eff m1 d <= pool_net w1 d - pool_net w d).
    { intros d0 Hd0. unfold eff, pool_net. cbn. rewrite M4. specialize (P3 d0). lia. }
    assert (Hnet' : s -> forall d, bod ts <= d -> eff m2 d - eff m1 d = pool_net w1 d - pool_net w d).
    { intros Hs d0 Hd0. unfold eff, pool_net. cbn. rewrite M4. rewrite (P4 (Hslot Hs) d0). lia. }
    eapply (inv_stake s w w1 _ v ts k m1 m2); [exact HI1|apply lookup_insert|reflexivity|reflexivity|reflexivity
      |exact P1|exact P2| | |reflexivity|reflexivity|exact Hnet|exact Hnet'|].
    - cbn. pose proof (i_total _ _ _ _ _ HI). lia.
    - constructor; cbn.
      + constructor; cbn; try assumption. lia.
      + pose proof (Hnet (bod ts) (Z.le_refl _)) as Hn.
        pose proof (inv_eff_le _ _ _ _ _ _ _ (bod ts) HI1 (lookup_insert _ _ _) (Z.le_refl _)) as He.
        unfold eff, pool_net in Hn, He. cbn in Hn, He.
        rewrite M4 in Hn. rewrite (proj2 (Z.leb_gt _ _)) in Hn by lia.
        assert (Hz : due (bod ts) (wm_diffs m1) = 0).
        { rewrite Rd, due_after by lia. lia. }
        pose proof (due_bounds (bod ts) _ P2). lia.
      + rewrite M3. pose proof (mi_diffs _ _ _ Hm1). lia.
      + apply M5.
        * rewrite Ri. rewrite (visible_later _ ts _ (i_keys _ _ _ _ _ HI) Hb). lia.
        * apply Hm1.
      + apply Hm1.
    - rewrite Ri, !accrual_settled; try apply HI; lia. }
  pose proof (inv_dlg_add s w1 (<[k := m2]> M) v ts k d dl a z d' HI2) as Hadd.
  change (WPool (set_total (wp w) z) pd (wp_ci w)) with (set_wtotal w1 z).
  apply Hadd; try assumption.
  - rewrite get_dlg_insert. exact Hd.
  - intros x mx Ex Hx. subst d. destruct (Z.eq_dec x k) as [->|Hne].
    + apply get_dlg_some in Hd as [? _]. congruence.
    + rewrite lookup_insert_ne in Hx by congruence. cbn. eauto.
Qed.

(** ** Withdraw *)
Lemma inv_withdraw s w M v ts k m a d dl w' m' d' :
  Inv s w M v ts -> M !! k = Some m -> get_dlg M k d = Ok dl -> 0 <= a ->
  a <= unlocked m ->
  withdraw ts w m a dl = Ok (w', m', d') ->
  Inv s w' (put_opt d d' (<[k := m']> M)) v ts.
Proof.
  intros HI Hk Hd Ha Hun H. unfold withdraw in H. inv.
  rename a0 into m1. rename E into Href. rename z0 into z1.
  pose proof (inv_refresh _ _ _ _ _ _ _ _ HI Hk Href) as HI1.
  pose proof (i_min _ _ _ _ _ HI1 k m1 (lookup_insert _ _ _)) as Hm1.
  pose proof (i_min _ _ _ _ _ HI k m Hk) as Hm.
  rewrite <- (refresh_unlocked _ _ _ _ (i_hist _ _ _ _ _ HI) (mi_ok _ _ _ Hm) Href) in Hun.
  apply pool_consume_ok in E2 as [-> ->]; [|apply HI].
  set (z0 := p_total (wp w) - a - due (bod ts) (wp_diffs w)) in *.
  set (w1 := WPool (set_total (wp w) z0) (after (bod ts) (wp_diffs w)) (wp_ci w)).
  set (m2 := WMining (set_share (wm m1) (m_share (wm m1) - a)) (wm_diffs m1)).
  unfold unlocked in Hun.
  pose proof (due_bounds (bod ts) _ (i_pvals _ _ _ _ _ HI)) as Hdb.
  assert (Hz0 : 0 <= z0).
  { pose proof (inv_eff_le _ _ _ _ _ _ _ (bod ts) HI1 (lookup_insert _ _ _) (Z.le_refl _)) as He.
    unfold eff, pool_net in He. unfold z0.
    pose proof (due_bounds (bod ts) _ (mo_vals _ (mi_ok _ _ _ Hm1))).
    pose proof (mo_sfo _ (mi_ok _ _ _ Hm1)). lia. }
  assert (HI2 : Inv s w1 (<[k := m2]> M) v ts).
  { rewrite <- (insert_insert M k m2 m1).
    eapply (inv_stake s w w1 _ v ts k m1 m2); [exact HI1|apply lookup_insert|reflexivity|reflexivity|reflexivity
      | | | | |reflexivity|reflexivity| | |].
    - apply ascending_after, HI.
    - apply values_after, HI.
    - cbn. unfold z0 in *. pose proof (i_total _ _ _ _ _ HI). lia.
    - destruct Hm1 as [[] ? ? ? ?]. constructor; cbn; try assumption; try lia.
      constructor; cbn; try assumption; lia.
    - intros d0 Hd0. unfold eff, pool_net. cbn. rewrite due_after by assumption. unfold z0. lia.
    - intros _ d0 Hd0. unfold eff, pool_net. cbn. rewrite due_after by assumption. unfold z0. lia.
    - apply accrual_le; [apply HI|]. intros. unfold eff. cbn. lia. }
  change (WPool (set_total (wp w) z1) (after (bod ts) (wp_diffs w)) (wp_ci w)) with (set_wtotal w1 z1).
  eapply (inv_dlg_sub s w1 (<[k := m2]> M) v ts k d dl a z1 d' HI2); try assumption.
  rewrite get_dlg_insert. exact Hd.
Qed.

(** ** Slash *)
Lemma inv_slash s w M v ts k m n wt dt w' m' :
  Inv s w M v ts -> M !! k = Some m -> 0 <= n -> 0 <= wt ->
  (match dt with None => wt <= unlocked m | Some _ => n <= unlocked m end) ->
  slash ts w m n wt dt = Ok (w', m') ->
  Inv s w' (<[k := m']> M) v ts.
Proof.
  intros HI Hk Hn Hwt Hun H. unfold slash in H. cbv zeta in H.
  destruct dt as [dt|].
  2:{ inv. change (<[k := m']> M) with (put_opt None o (<[k := m']> M)).
      eapply (inv_withdraw s w M v ts k m wt None None); eauto. }
  inv. rename E into Hwd. rename E0 into Hnw.
  unfold withdraw in Hwd. inv. rename a0 into md. rename a into m1. rename E into Href. cbn [delegate_sub] in E5.
  injection E5 as <- <-.
  pose proof (inv_refresh _ _ _ _ _ _ _ _ HI Hk Href) as HI1.
  pose proof (i_min _ _ _ _ _ HI1 k m1 (lookup_insert _ _ _)) as Hm1.
  pose proof (i_min _ _ _ _ _ HI k m Hk) as Hm.
  rewrite <- (refresh_unlocked _ _ _ _ (i_hist _ _ _ _ _ HI) (mi_ok _ _ _ Hm) Href) in Hun.
  apply pool_consume_ok in E4 as [-> ->]; [|apply HI].
  cbn [wm_diffs wp_diffs wm wp wp_ci] in *.
  pose proof (refresh_ok _ _ _ _ (i_hist _ _ _ _ _ HI) (mi_ok _ _ _ Hm) Href) as R. cbv zeta in R.
  destruct R as (Rd & _).
  destruct (mi_ok _ _ _ Hm1) as [Ma Mv Mj Ms Mf Mu].
  destruct (modify_diffs_ok _ _ _ _ Ma Mv E1) as (M1 & M2 & M3 & M4 & M5 & (x & M6)).
  destruct (modify_diffs_ok _ _ _ _ (ascending_after _ _ (i_pasc _ _ _ _ _ HI))
              (values_after _ _ _ (i_pvals _ _ _ _ _ HI)) E2)
    as (P1 & P2 & P3 & P4 & _ & _).
  unfold unlocked in Hun.
  assert (Hb : bod ts < bod dt). { rewrite Rd in M6. apply in_after in M6 as [_ ?]. assumption. }
  rewrite <- (insert_insert M k _ m1).
  assert (Hz0 : 0 <= p_total (wp w) - wt - due (bod ts) (wp_diffs w)).
  { pose proof (inv_eff_le _ _ _ _ _ _ _ (bod ts) HI1 (lookup_insert _ _ _) (Z.le_refl _)) as He.
    unfold eff, pool_net in He.
    assert (Hz : due (bod ts) (wm_diffs m1) = 0) by (rewrite Rd, due_after by lia; lia).
    lia. }
  pose proof (due_bounds (bod ts) _ (i_pvals _ _ _ _ _ HI)) as Hdb.
  eapply (inv_stake s w _ _ v ts k m1); [exact HI1|apply lookup_insert|reflexivity|reflexivity|reflexivity
      |exact P1|exact P2| | |reflexivity|reflexivity| | |].
  - cbn. pose proof (i_total _ _ _ _ _ HI). lia.
  - destruct Hm1 as [_ ? ? ? ?]. constructor; cbn; try assumption; try lia.
    + constructor; cbn; try assumption; lia.
    + apply M5. assumption.
  - intros d0 Hd0. unfold eff, pool_net. cbn. rewrite M4, P4, due_after by assumption. lia.
  - intros _ d0 Hd0. unfold eff, pool_net. cbn. rewrite M4, P4, due_after by assumption. lia.
  - apply accrual_le; [apply HI|]. intros d0 i _ _. unfold eff. cbn. rewrite M4.
    destruct (bod dt <=? d0); lia.
Qed.

(** ** Change delegate *)
Lemma put_opt_lookup_ne d d' M k : d <> Some k -> put_opt d d' M !! k = M !! k.
Proof.
  destruct d as [x|]; cbn; [|reflexivity]. intros H. destruct d'; [|reflexivity].
  apply lookup_insert_ne. congruence.
Qed.

Lemma get_dlg_put M k d d' x :
  d <> x -> get_dlg (put_opt d d' M) k x = get_dlg M k x.
Proof.
  intros H. destruct x as [x|]; [|reflexivity]. unfold get_dlg, get_min.
  rewrite put_opt_lookup_ne by assumption. reflexivity.
Qed.

Lemma inv_change s w M v ts k m od nd odl ndl a w' m' od' nd' :
  Inv s w M v ts -> M !! k = Some m ->
  get_dlg M k od = Ok odl -> get_dlg M k nd = Ok ndl -> od <> nd -> 0 <= a ->
  visible ts (wp_ci w) = last_from 0 (wp_ci w) ->
  (forall x m, nd = Some x -> M !! x = Some m -> m_index (wm m) = visible ts (wp_ci w)) ->
  change_delegate ts w m ndl odl a = Ok (w', m', od', nd') ->
  Inv s w' (put_opt nd nd' (put_opt od od' (<[k := m']> M))) v ts.
Proof.
  intros HI Hk Ho Hn Hne Ha Hvis Hup H. unfold change_delegate in H. inv.
  rename E into Href. rename E0 into Hsub. rename E1 into Hadd.
  pose proof (inv_refresh _ _ _ _ _ _ _ _ HI Hk Href) as HI1.
  destruct (inv_dlg_sub s w (<[k := m']> M) v ts k od odl a z od' HI1) as [HI2 _]; try assumption.
  { rewrite get_dlg_insert. exact Ho. }
  change (set_wtotal w z0) with (set_wtotal (set_wtotal w z) z0).
  eapply (inv_dlg_add s (set_wtotal w z) _ v ts k nd ndl a z0 nd' HI2); try assumption.
  - rewrite get_dlg_put by assumption. rewrite get_dlg_insert. exact Hn.
  - intros x mx Ex Hx. subst nd. rewrite put_opt_lookup_ne in Hx by assumption.
    apply get_dlg_some in Hn as [Hxk _]. rewrite lookup_insert_ne in Hx by congruence.
    cbn. eauto.
Qed.

(** ** Extend *)
Lemma inv_extend s w M v ts k m op np st b a d dl w' m' d' :
  Inv s w M v ts -> M !! k = Some m -> get_dlg M k d = Ok dl -> 0 <= b -> 0 <= a ->
  visible ts (wp_ci w) = last_from 0 (wp_ci w) ->
  (op = LFlex \/ expiry op st <= ts) ->
  b <= unlocked m -> room ts (expiry np ts) m ->
  (s -> pool_slot (expiry np ts) (wp_diffs w)) ->
  extend ts w m op np st b a dl = Ok (w', m', d') ->
  Inv s w' (put_opt d d' (<[k := m']> M)) v ts.
Proof.
  intros HI Hk Hd Hb Ha Hvis Hop Hun Hroom Hslot H. unfold extend in H. inv.
  rename a0 into m1. rename E into Href.
  pose proof (inv_refresh _ _ _ _ _ _ _ _ HI Hk Href) as HI1.
  pose proof (i_min _ _ _ _ _ HI1 k m1 (lookup_insert _ _ _)) as Hm1.
  pose proof (i_min _ _ _ _ _ HI k m Hk) as Hm.
  pose proof (i_time _ _ _ _ _ HI) as Ht.
  assert (Hexp : a1 <= ts).
  { destruct op; cbn [lockup_eqb] in E0; try (injection E0 as <-; lia);
    apply end_timestamp_ok in E0 as (-> & _); destruct Hop; try congruence; lia. }
  rewrite (proj2 (Z.ltb_ge ts a1)) in E2 by assumption. inv.
  rewrite <- (refresh_unlocked _ _ _ _ (i_hist _ _ _ _ _ HI) (mi_ok _ _ _ Hm) Href) in Hun.
  unfold unlocked in Hun. cbn [multiplier] in *. rewrite Z.mul_1_r in *.
  set (m2 := WMining (set_share (wm m1) (m_share (wm m1) - b)) (wm_diffs m1)) in *.
  set (w1 := set_wtotal w (p_total (wp w) - b)).
  assert (HI2 : Inv s w1 (<[k := m2]> M) v ts).
  { rewrite <- (insert_insert M k m2 m1).
    eapply (inv_stake s w w1 _ v ts k m1 m2); [exact HI1|apply lookup_insert|reflexivity|reflexivity|reflexivity
      | | | | |reflexivity|reflexivity| | |].
    - apply HI.
    - apply HI.
    - cbn. pose proof (i_total _ _ _ _ _ HI). lia.
    - destruct Hm1 as [[] ? ? ? ?]. constructor; cbn; try assumption; try lia.
      constructor; cbn; try assumption; lia.
    - intros d0 Hd0. unfold eff, pool_net. cbn. lia.
    - intros _ d0 Hd0. unfold eff, pool_net. cbn. lia.
    - apply accrual_le; [apply HI|]. intros. unfold eff. cbn. lia. }
  destruct (inv_dlg_sub s w1 (<[k := m2]> M) v ts k d dl b z0 o HI2) as (HI3 & Hup & Hnone); try assumption.
  { rewrite get_dlg_insert. exact Hd. }
  assert (Hdk : d <> Some k).
  { intros ->. apply get_dlg_some in Hd as [? _]. congruence. }
  replace (put_opt d d' (<[k:=m']> M)) with
    (put_opt d d' (<[k:=m']> (put_opt d o (<[k:=m2]> M)))).
  2:{ destruct d as [x|].
      - destruct (Hup x eq_refl) as (mx & -> & _).
        cbn [put_opt].
        destruct d' as [mx'|].
        + rewrite (insert_commute _ x k) by congruence.
          rewrite insert_insert.
          rewrite (insert_commute _ k x m') by congruence. rewrite insert_insert. reflexivity.
        + exfalso. unfold deposit in H. inv. cbn [delegate_add rbind] in *. inv. discriminate.
      - cbn [put_opt]. apply insert_insert. }
  set (dl1 := match o with Some x => Some (Ok x) | None => None end) in *.
  eapply (inv_deposit s (set_wtotal w1 z0) _ v ts k m2 (b + a) np d dl1); try assumption.
  - rewrite put_opt_lookup_ne by assumption. apply lookup_insert.
  - destruct d as [x|]; unfold dl1.
    + destruct (Hup x eq_refl) as (mx & -> & _). cbn [put_opt].
      unfold get_dlg, get_min. rewrite (proj2 (Z.eqb_neq x k)) by congruence.
      rewrite lookup_insert. reflexivity.
    + rewrite (Hnone eq_refl). reflexivity.
  - lia.
  - intros x mx Ex Hx. destruct (Hup x Ex) as (my & -> & Hi). subst d. cbn [put_opt] in Hx.
    rewrite lookup_insert in Hx. injection Hx as <-. exact Hi.
  - assert (Hbe : bod ts < expiry np ts).
    { unfold deposit in H. apply rbind_ok in H as (? & _ & H). inv.
      match goal with E : end_timestamp _ _ = Ok _ |- _ => apply end_timestamp_ok in E as (-> & _ & ?) end.
      assumption. }
    pose proof (room_refresh _ _ _ _ _ (i_hist _ _ _ _ _ HI) (mi_ok _ _ _ Hm) Href Hbe Hroom) as Hr.
    exact Hr.
Qed.

(** ** Decrease rewards *)
Lemma decrease_loop_ok n l l' :
  0 <= n -> values (fun v => 0 <= v) l -> decrease_loop n l = Ok l' ->
  values (fun v => 0 <= v) l' /\ total l' = Z.max 0 (total l - n) /\ map fst l' = map fst l /\
  (forall d, due d l - n <= due d l' <= due d l).
Proof.
  revert n l'. induction l as [|[k x] r IH]; cbn [decrease_loop]; intros n l' Hn Hv H.
  - inv. repeat split; cbn; try lia. intros ? ? [].
  - pose proof (Hv k x (or_introl eq_refl)) as Hx. cbv beta in Hx.
    assert (Hr : values (fun v => 0 <= v) r) by (intros ? ? ?; eapply Hv; right; eauto).
    assert (0 <= total r) by (pose proof (due_bounds 0 r Hr); lia).
    destruct (Z.leb_spec n x); inv.
    + split; [|split; [|split]]; cbn [total map fst due].
      * intros k' v' [E'|E']; [injection E' as <- <-; lia|eauto].
      * lia.
      * reflexivity.
      * intros d. destruct (k <=? d); lia.
    + apply IH in E0 as (A & B & C & D); [|lia|assumption].
      split; [|split; [|split]]; cbn [total map fst due].
      * intros k' v' [E'|E']; [injection E' as <- <-; lia|eauto].
      * lia.
      * congruence.
      * intros d. specialize (D d). destruct (k <=? d); lia.
Qed.

Lemma total_app a b : total (a ++ b) = total a + total b.
Proof. induction a as [|[k v] r IH]; cbn [app total]; lia. Qed.
Lemma due_app d a b : due d (a ++ b) = due d a + due d b.
Proof. induction a as [|[k v] r IH]; cbn [app due]; lia. Qed.
Lemma total_rev a : total (rev a) = total a.
Proof. induction a as [|[k v] r IH]; cbn [rev total]; [reflexivity|]. rewrite total_app. cbn. lia. Qed.
Lemma due_rev d a : due d (rev a) = due d a.
Proof. induction a as [|[k v] r IH]; cbn [rev due]; [reflexivity|]. rewrite due_app. cbn. lia. Qed.
Lemma values_rev (P : Z -> Prop) a : values P a -> values P (rev a).
Proof. intros H k v Hin. apply in_rev in Hin. eauto. Qed.
Lemma values_rev' (P : Z -> Prop) a : values P (rev a) -> values P a.
Proof. intros H k v Hin. apply (H k). rewrite <- in_rev. assumption. Qed.

Lemma ascending_keys a b : map fst a = map fst b -> ascending a -> ascending b.
Proof.
  revert b. induction a as [|[k v] r IH]; intros [|[k' v'] r'] E; cbn in E; try discriminate; [auto|].
  injection E as <- E. cbn [ascending]. intros [H1 H2]. split; [|eauto].
  intros k1 v1 Hin. assert (In k1 (map fst r)) by (rewrite E; apply (in_map fst) in Hin; exact Hin).
  apply in_map_iff in H as ([k2 v2] & E' & H). cbn in E'. subst k2. eauto.
Qed.

Lemma dates_keys (P : Z -> Prop) a b : map fst a = map fst b -> dates P a -> dates P b.
Proof.
  intros E H k v Hin. apply (in_map fst) in Hin. rewrite <- E in Hin.
  apply in_map_iff in Hin as ([k' v'] & E' & Hin). cbn in E'. subst k'. eapply H; eauto.
Qed.

Lemma decrease_rewards_ok n m m' :
  0 <= n -> ascending (wm_diffs m) -> values (fun v => 0 <= v) (wm_diffs m) ->
  decrease_rewards n m = Ok m' ->
  wm m' = set_share (wm m) (m_share (wm m) - n) /\ n <= Z.max 0 (m_share (wm m)) /\
  ascending (wm_diffs m') /\ values (fun v => 0 <= v) (wm_diffs m') /\
  map fst (wm_diffs m') = map fst (wm_diffs m) /\
  total (wm_diffs m') = Z.max 0 (total (wm_diffs m) - n) /\
  (forall d, due d (wm_diffs m) - n <= due d (wm_diffs m') <= due d (wm_diffs m)).
Proof.
  intros Hn Ha Hv H. unfold decrease_rewards in H.
  destruct (Z.eqb_spec n 0).
  { inv. subst. pose proof (due_bounds 0 _ Hv).
    split; [destruct m' as [[] ?]; unfold set_share; cbn; f_equal; lia|].
    repeat split; try assumption; try lia. }
  destruct (Z.ltb_spec (m_share (wm m)) n); [discriminate|]. inv. cbn [wm wm_diffs].
  apply decrease_loop_ok in E0 as (A & B & C & D); [|assumption|apply values_rev; assumption].
  split; [reflexivity|]. split; [lia|].
  assert (K : map fst (rev a0) = map fst (wm_diffs m)).
  { rewrite map_rev, C, map_rev, rev_involutive. reflexivity. }
  split; [eapply ascending_keys; [symmetry; exact K|assumption]|].
  split; [apply values_rev; assumption|]. split; [exact K|].
  split; [rewrite total_rev, B, total_rev; reflexivity|].
  intros d. specialize (D d). rewrite due_rev in *. lia.
Qed.

Lemma inv_decrease s w M v ts k m n m' :
  Inv s w M v ts -> M !! k = Some m -> 0 <= n -> (s -> n = 0) ->
  decrease_rewards n m = Ok m' -> Inv s w (<[k := m']> M) v ts.
Proof.
  intros HI Hk Hn Hs H. pose proof (i_min _ _ _ _ _ HI k m Hk) as Hm.
  destruct Hm as [[Ha Hv Hj Hsh Hf Hu] Hsum Hd Hdt Hi].
  destruct (decrease_rewards_ok _ _ _ Hn Ha Hv H) as (E & Hle & Ha' & Hv' & Hk' & Ht' & Hdue).
  pose proof (due_bounds 0 _ Hv) as Hb0.
  eapply (inv_stake s w w M v ts k m m'); try reflexivity; try apply HI; try assumption.
  - constructor; rewrite ?E; cbn; try assumption; try lia.
    + constructor; rewrite ?E; cbn; try assumption; lia.
    + eapply dates_keys; [symmetry; exact Hk'|assumption].
  - rewrite E. reflexivity.
  - rewrite E. reflexivity.
  - intros d _. unfold eff. rewrite E. cbn. specialize (Hdue d). lia.
  - intros Hs' d _. specialize (Hs Hs'). subst n. unfold eff. rewrite E. cbn. specialize (Hdue d). lia.
  - apply accrual_le; [apply HI|]. intros d i _ _. unfold eff. rewrite E. cbn. specialize (Hdue d). lia.
Qed.

(** ** Claim, fill, donate, distribute, init, close *)
Lemma inv_claim s w M v ts k m m1 :
  Inv s w M v ts -> M !! k = Some m -> refresh ts (wp_ci w) m = Ok m1 ->
  Inv s w (<[k := WMining (mining_claim (wm m1)) (wm_diffs m1)]> M) (v - m_unclaimed (wm m1)) ts.
Proof.
  intros HI Hk H. pose proof (inv_refresh _ _ _ _ _ _ _ _ HI Hk H) as HI1.
  pose proof (i_min _ _ _ _ _ HI1 k m1 (lookup_insert _ _ _)) as Hm1.
  rewrite <- (insert_insert M k _ m1).
  set (m2 := WMining (mining_claim (wm m1)) (wm_diffs m1)).
  pose proof (mo_unclaimed _ (mi_ok _ _ _ Hm1)).
  destruct HI1. constructor; try assumption.
  - lia.
  - intros k' m' Hk'. destruct (Z.eq_dec k' k) as [->|Hne].
    + rewrite lookup_insert in Hk'. injection Hk' as <-.
      destruct Hm1 as [[] ? ? ? ?]. constructor; cbn; try assumption.
      constructor; cbn; try assumption. lia.
    + rewrite lookup_insert_ne in Hk' by congruence. eauto.
  - intros d Hd. rewrite (msum_insert _ _ k m1 m2 (lookup_insert _ _ _)).
    specialize (i_gap d Hd). change (eff m2 d) with (eff m1 d). lia.
  - intros Hs d Hd. rewrite (msum_insert _ _ k m1 m2 (lookup_insert _ _ _)).
    specialize (i_eq Hs d Hd). change (eff m2 d) with (eff m1 d). lia.
  - rewrite (msum_insert _ _ k m1 m2 (lookup_insert _ _ _)).
    unfold owed at 2 3. cbn. change (eff m2) with (eff m1). lia.
Qed.

Lemma inv_fill s w M v ts r x w' :
  Inv s w M v ts -> 0 <= r -> v + r < U64 ->
  fill_pool ts r x w = Ok w' -> Inv s w' M (v + r) ts.
Proof.
  intros HI Hr Hv H. unfold fill_pool in H. cbv zeta in H. inv.
  destruct HI. constructor; cbn; try assumption.
  - lia.
  - unfold PRECISION in *. lia.
Qed.

Lemma inv_donate s w M v ts n :
  Inv s w M v ts -> 0 <= n -> v + n < U64 -> Inv s w M (v + n) ts.
Proof.
  intros HI Hr Hv. destruct HI. constructor; cbn; try assumption.
  unfold PRECISION in *. lia.
Qed.

Lemma inv_distribute_all s w M v ts r w' :
  Inv s w M v ts -> 0 <= r -> distribute ts r w = Ok w' -> Inv s w' M v ts.
Proof.
  intros HI Hr H. unfold distribute in H. cbv zeta in H. inv.
  rename E0 into Hc. pose proof (inv_consume _ _ _ _ _ _ _ HI Hc) as HI1.
  destruct (ohas (bod ts) (wp_ci w)) eqn:Hh.
  { inv. exact HI1. }
  unfold pool_update_index in H. inv.
  cbn [p_total set_total p_index p_avail] in *.
  set (w1 := WPool (set_total (wp w) z) t (wp_ci w)) in *.
  assert (Hdue : due (bod ts) (wp_diffs w1) = 0).
  { apply pool_consume_ok in Hc as [-> ->]; [|apply HI]. cbn. rewrite due_after by lia. lia. }
  assert (Ht : 0 <= z) by (pose proof (i_total _ _ _ _ _ HI1) as X; cbn in X; lia).
  set (inc := PRECISION * r / z) in *.
  assert (0 <= inc) by (apply Z.div_pos; unfold PRECISION; lia).
  pose proof (inv_distribute s w1 M v ts r inc (p_avail (wp w) - r) HI1) as HD. cbn in HD.
  apply HD; try assumption; try reflexivity; try lia.
  - intros k i Hin. pose proof (i_keys _ _ _ _ _ HI _ _ Hin) as Hk. cbv beta in *.
    destruct (Z.eq_dec k (bod ts)) as [->|]; [|lia].
    exfalso. apply ohas_false in Hh. apply (proj1 (oget_none _ _) Hh i). exact Hin.
  - unfold inc. pose proof (Z.mul_div_le (PRECISION * r) z). lia.
Qed.

Lemma rewards_nonneg ts p r : 0 <= p_avail p -> rewards_to_distribute ts p = Ok r -> 0 <= r.
Proof.
  unfold rewards_to_distribute. intros Ha H. cbv zeta in H.
  destruct (_ =? 0) eqn:E; inv; [assumption|].
  apply Z.div_pos; [|reflexivity]. apply Z.div_pos; [unfold PRECISION; lia|].
  assert (0 <= saturating_sub (p_ends_at p) ts / DAY).
  { apply Z.div_pos; [|reflexivity]. unfold saturating_sub. destruct (_ <=? _) eqn:X; inv; lia. }
  lia.
Qed.

Lemma inv_init s w M v ts k pool owner bump :
  Inv s w M v ts -> M !! k = None ->
  Inv s w (<[k := WMining (mining_initialize pool owner bump) []]> M) v ts.
Proof.
  intros HI Hk. set (m := WMining (mining_initialize pool owner bump) []).
  destruct HI. constructor; try assumption.
  - intros k' m' Hk'. destruct (Z.eq_dec k' k) as [->|Hne].
    + rewrite lookup_insert in Hk'. injection Hk' as <-.
      constructor; cbn; try lia; try reflexivity.
      * constructor; cbn; try lia; try exact I. intros ? ? [].
      * intros ? ? [].
      * pose proof (visible_bounds 0 ts _ (h_grow _ i_hist)). unfold visible. lia.
    + rewrite lookup_insert_ne in Hk' by congruence. eauto.
  - intros d Hd. rewrite msum_insert_new by assumption. specialize (i_gap d Hd).
    unfold eff at 1. cbn. lia.
  - intros Hs d Hd. rewrite msum_insert_new by assumption. specialize (i_eq Hs d Hd).
    unfold eff at 1. cbn. lia.
  - rewrite msum_insert_new by assumption. unfold owed at 1, accrual. cbn [wm m mining_initialize m_unclaimed m_index].
    rewrite (accrual_ext 0 (eff m) (fun _ => 0) 0 (wp_ci w)); [|apply i_hist|reflexivity].
    assert (E : forall prev, accrual_from 0 (fun _ => 0) prev (wp_ci w) = 0).
    { generalize (wp_ci w). induction t as [|[a b] r IH]; intros prev; cbn [accrual_from]; [reflexivity|].
      rewrite IH. lia. }
    rewrite E. lia.
Qed.

Lemma inv_close s w M v ts k m m1 :
  Inv s w M v ts -> M !! k = Some m -> refresh ts (wp_ci w) m = Ok m1 ->
  (s -> forall d, bod ts <= d -> eff m1 d = 0) ->
  Inv s w (delete k M) v ts.
Proof.
  intros HI Hk H Hs. pose proof (inv_refresh _ _ _ _ _ _ _ _ HI Hk H) as HI1.
  pose proof (i_min _ _ _ _ _ HI1 k m1 (lookup_insert _ _ _)) as Hm1.
  rewrite <- (delete_insert_delete M k m1).
  pose proof (owed_nonneg _ _ _ (i_hist _ _ _ _ _ HI) Hm1) as Hw.
  pose proof (mo_unclaimed _ (mi_ok _ _ _ Hm1)) as Hu.
  destruct HI1. constructor; try assumption.
  - intros k' m' Hk'. apply lookup_delete_Some in Hk' as [_ Hk']. eauto.
  - intros d Hd. specialize (i_gap d Hd).
    rewrite (msum_delete _ _ k m1 (lookup_insert _ _ _)) in i_gap.
    pose proof (eff_nonneg _ _ _ d Hm1). lia.
  - intros Hs' d Hd. specialize (i_eq Hs' d Hd).
    rewrite (msum_delete _ _ k m1 (lookup_insert _ _ _)) in i_eq.
    rewrite (Hs Hs' d Hd) in i_eq. lia.
  - rewrite (msum_delete _ _ k m1 (lookup_insert _ _ _)) in i_solv.
    unfold PRECISION in *. lia.
Qed.
