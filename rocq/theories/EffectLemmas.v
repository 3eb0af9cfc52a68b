(** The methods of State.v in terms of EffectSpec.v. *)
From Verif Require Import Base OMap State Spec EffectSpec ResLemmas TreeLemmas AccrualLemmas RefreshLemmas
  FrameLemmas WfLemmas.

(** ** Lists *)
Lemma upto_none b t : dates (fun k => b < k) t -> upto b t = [].
Proof.
  induction t as [|[k v] r IH]; intros H; [reflexivity|]. unfold upto in *. cbn [filter fst].
  pose proof (H k v (or_introl eq_refl)). cbv beta in *. rewrite (proj2 (Z.leb_gt k b)) by assumption.
  apply IH. intros ? ? ?. eapply H; right; eauto.
Qed.
Lemma upto_cons b k v t : k <= b -> upto b ((k, v) :: t) = (k, v) :: upto b t.
Proof. intros H. unfold upto. cbn [filter fst]. rewrite (proj2 (Z.leb_le k b)) by assumption. reflexivity. Qed.
Lemma upto_processed b t : ascending t -> map fst (upto b t) = processed b t.
Proof.
  induction t as [|[k v] r IH]; intros Ha; [reflexivity|]. cbn [processed].
  destruct (Z.ltb_spec b k).
  - rewrite upto_none; [reflexivity|]. intros k' v' [E|E]; [congruence|]. apply Ha in E. lia.
  - rewrite upto_cons by assumption. cbn [map fst]. f_equal. apply IH. apply Ha.
Qed.
Lemma upto_app b t u : upto b (t ++ u) = upto b t ++ upto b u.
Proof. unfold upto. apply filter_app. Qed.
Lemma upto_all b t : dates (fun k => k <= b) t -> upto b t = t.
Proof.
  induction t as [|[k v] r IH]; intros H; [reflexivity|].
  rewrite upto_cons by (apply (H k v); left; reflexivity). f_equal. apply IH.
  intros ? ? ?. eapply H; right; eauto.
Qed.
Lemma in_upto b t k v : In (k, v) (upto b t) <-> In (k, v) t /\ k <= b.
Proof. unfold upto. rewrite filter_In. cbn [fst]. rewrite Z.leb_le. tauto. Qed.
Lemma total_upto b t : total (upto b t) = due b t.
Proof.
  induction t as [|[k v] r IH]; [reflexivity|]. unfold upto in *. cbn [filter fst due].
  destruct (k <=? b); cbn [total]; lia.
Qed.
Lemma upto_after_split b t : ascending t -> t = upto b t ++ after b t.
Proof.
  induction t as [|[k v] r IH]; intros Ha; [reflexivity|].
  destruct (Z_le_gt_dec k b).
  - rewrite upto_cons by assumption. unfold after. cbn [filter fst app].
    rewrite (proj2 (Z.ltb_ge b k)) by assumption. f_equal. apply IH. apply Ha.
  - rewrite upto_none by (intros k' v' [E|E]; [injection E as <- <-; lia|apply Ha in E; lia]).
    rewrite after_all by (intros k' v' [E|E]; [injection E as <- <-; lia|apply Ha in E; lia]).
    reflexivity.
Qed.
Lemma ascending_upto b t : ascending t -> ascending (upto b t).
Proof.
  induction t as [|[k v] r IH]; [auto|]. intros [H1 H2]. unfold upto in *. cbn [filter fst].
  destruct (k <=? b); [|auto]. split; [|auto].
  intros k' v' Hin. apply filter_In in Hin. destruct Hin. eauto.
Qed.
Lemma has_date_oget d t : ascending t -> has_date d t <-> oget d t <> None.
Proof.
  intros Ha. unfold has_date. split.
  - intros (v & H). rewrite (in_oget _ _ _ Ha H). discriminate.
  - intros H. destruct (oget d t) as [v|] eqn:E; [|congruence]. exists v. apply oget_in. assumption.
Qed.

(** ** Accrual over a prefix *)
Lemma accrual_before j f prev ts t :
  ascending t -> growing prev t -> j <= visible_from prev ts t ->
  accrual_from j f prev t =
    accrual_from j f prev (before ts t) + accrual_from (visible_from prev ts t) f prev t.
Proof.
  revert prev. induction t as [|[k i] r IH]; intros prev Ha Hg Hj; [reflexivity|].
  destruct Hg as [H1 H2]. unfold before in *. cbn [visible_from filter fst] in *.
  destruct (Z.ltb_spec k ts).
  - cbn [accrual_from]. rewrite (IH i) by (try assumption; apply Ha).
    pose proof (visible_bounds i ts r H2). rewrite !(Z.max_r _ (visible_from i ts r)) by lia. lia.
  - assert (filter (fun kv : Z * Z => fst kv <? ts) r = []) as ->.
    { clear IH H2 Hj. destruct Ha as [Ha _]. induction r as [|[k' v'] r IH]; [reflexivity|].
      cbn [filter fst]. rewrite (proj2 (Z.ltb_ge k' ts)).
      - apply IH. intros k1 v1 Hin. apply (Ha k1 v1). right. assumption.
      - pose proof (Ha k' v' (or_introl eq_refl)). lia. }
    change (accrual_from j f prev ((k, i) :: r) = 0 + accrual_from prev f prev ((k, i) :: r)).
    rewrite (accrual_above j prev f prev); [lia| |assumption|lia]. split; assumption.
Qed.

(** ** Refresh *)
Lemma loop_earned ci b ts : forall l s u j s' u' j' ds,
  ascending ci -> ascending l -> values (fun v => 0 <= v) l -> 0 <= s ->
  mining_consume_loop ci b l s u j = Ok (s', u', j', ds) ->
  u' + (visible ts ci - j') * s' / PRECISION = u + earned ci s j (upto b l) ts /\
  (forall d v, In (d, v) l -> d <= b -> j <= visible d ci \/ exists d' v', In (d', v') l /\ d' < d).
Proof.
  intros l s u j s' u' j' ds Hc. revert s u j ds.
  induction l as [|[d v] r IH]; cbn [mining_consume_loop]; intros s u j ds Hl Hv Hs H.
  - inv. split; [reflexivity|]. intros ? ? [].
  - destruct (Z.ltb_spec b d).
    + inv. rewrite upto_none by (intros k' v' [E|E]; [injection E as <- <-; lia|apply Hl in E; lia]).
      split; [reflexivity|]. intros k' v' [E|E] Hk; [injection E as <- <-; lia|apply Hl in E; lia].
    + inv. apply update_index_ok in E as (-> & Hjv & ->); [|assumption|assumption].
      apply IH in E1 as [E1 _]; [|apply Hl|intros ? ? ?; eapply Hv; right; eauto|lia].
      rewrite upto_cons by assumption. cbn [earned]. rewrite E1. split.
      * change 10000000000000000 with PRECISION. lia.
      * intros k' v' [E|E] _; [injection E as <- <-; left; assumption|].
        right. exists d, v. split; [left; reflexivity|]. eapply Hl; eassumption.
Qed.

Lemma loop_first ci b : forall l s u j s' u' j' ds d v r,
  ascending ci -> 0 <= s -> l = (d, v) :: r -> d <= b ->
  mining_consume_loop ci b l s u j = Ok (s', u', j', ds) -> j <= visible d ci.
Proof.
  intros l s u j s' u' j' ds d v r Hc Hs -> Hd H. cbn [mining_consume_loop] in H.
  rewrite (proj2 (Z.ltb_ge b d)) in H by assumption. inv.
  match goal with H : mining_update_index _ _ _ _ _ = _ |- _ => apply update_index_ok in H as (? & ? & ?) end;
    [subst; assumption|assumption|assumption].
Qed.

Lemma refresh_refreshed ts ci m m' :
  hist_ok ci -> min_ok m -> refresh ts ci m = Ok m' -> refreshed ts ci m m'.
Proof.
  intros Hh Hm H. pose proof (refresh_ok ts ci m m' Hh Hm H) as R. cbv zeta in R.
  destruct R as (Rd & Rs & Ri & Rle & Rf & Rp & Ro & Rm & Rb & Rt & Ru & Rs0 & Rsum & Rcr).
  destruct Hm as [Ha Hv Hj Hs Hf Hu].
  assert (Hfirst : forall d v, In (d, v) (wm_diffs m) -> d <= bod ts -> m_index (wm m) <= visible d ci).
  { intros d v Hin Hd. unfold refresh in H. cbv zeta in H. inv. unfold mining_consume in *. inv.
    destruct (wm_diffs m) as [|[d0 v0] r] eqn:Ed; [contradiction|].
    assert (Hle : d0 <= d).
    { destruct Hin as [E'|E']; [injection E' as <- <-; lia|]. apply Ha in E'. lia. }
    assert (m_index (wm m) <= visible d0 ci).
    { match goal with H : mining_consume_loop _ _ _ _ _ _ = _ |- _ =>
        refine (loop_first _ _ _ _ _ _ _ _ _ _ d0 v0 r (h_asc _ Hh) _ eq_refl _ H) end; lia. }
    pose proof (visible_mono 0 d0 d ci (h_grow _ Hh)). unfold visible in *. lia. }
  assert (Hue : m_unclaimed (wm m') = m_unclaimed (wm m) +
      earned ci (m_share (wm m) + m_sfo (wm m)) (m_index (wm m)) (upto (bod ts) (wm_diffs m)) ts).
  { clear Hfirst. unfold refresh in H. cbv zeta in H. inv. unfold mining_consume in *. inv. cbn [wm set_share set_rewards m_unclaimed].
    assert (H0 : 0 <= m_share (wm m) + m_sfo (wm m)) by lia.
    match goal with H : mining_consume_loop _ _ _ _ _ _ = _ |- _ =>
      pose proof (consume_loop_ok _ _ _ _ _ _ _ _ _ _ Hh Ha Hv Hj H0 H) as (? & ? & _);
      apply (loop_earned ci (bod ts) ts) in H as [H _] end; [|apply Hh|assumption|assumption|lia].
    match goal with H : mining_update_index _ _ _ _ _ = _ |- _ => apply update_index_ok in H as (? & ? & ?) end;
      [|apply Hh|assumption].
    subst. lia. }
  rewrite bod_day_start in *.
  constructor; try assumption.
  - repeat split; assumption.
  - congruence.
  - unfold owed in Rcr. rewrite Ri in Rcr.
    assert (Hacc : accrual (m_index (wm m)) (eff m) ci =
              accrual (m_index (wm m)) (eff m) (before ts ci) + accrual (visible ts ci) (eff m) ci).
    { apply (accrual_before (m_index (wm m)) (eff m) 0 ts ci); [apply Hh|apply Hh|]. fold (visible ts ci). lia. }
    assert (Heff : accrual (visible ts ci) (eff m') ci = accrual (visible ts ci) (eff m) ci).
    { apply accrual_ext; [apply Hh|]. intros k i Hin Hi.
      pose proof (visible_above 0 ts ci k i (h_grow _ Hh) (h_asc _ Hh) Hin Hi) as Hk.
      unfold eff. rewrite Rd, Rs, Rf, due_after; [lia|].
      unfold day_start. pose proof (Z.mod_pos_bound ts 86400). pose proof (Z.div_mod ts 86400). lia. }
    unfold segments. rewrite <- (map_length fst (upto _ _)), upto_processed by assumption.
    unfold PRECISION in *. lia.
Qed.

(** the description determines the result *)
Lemma refreshed_unique ts ci m a b : refreshed ts ci m a -> refreshed ts ci m b -> a = b.
Proof.
  intros [A1 A2 A3 A4 A5 _ _ A6 _] [B1 B2 B3 B4 B5 _ _ B6 _].
  destruct a as [[] da], b as [[] db]. cbn in *. unfold same_mining in *. cbn in *.
  destruct A1 as (A11 & A12 & A13 & A14 & A15), B1 as (B11 & B12 & B13 & B14 & B15). congruence.
Qed.

(** a mining that is already up to date *)
Lemma refresh_fixed ts ci m :
  ascending ci -> m_index (wm m) = visible ts ci -> after (bod ts) (wm_diffs m) = wm_diffs m ->
  m_share (wm m) + m_sfo (wm m) < U64 -> 0 <= m_share (wm m) ->
  refresh ts ci m = Ok m.
Proof.
  intros Hc Hi Hd Hs H0. unfold refresh. cbv zeta.
  rewrite (proj2 (safe_add64_ok _ _ (m_share (wm m) + m_sfo (wm m)))) by auto. cbn [rbind].
  assert (E : mining_consume (bod ts) (m_share (wm m) + m_sfo (wm m)) ci (m_unclaimed (wm m)) (m_index (wm m)) (wm_diffs m)
     = Ok (m_share (wm m) + m_sfo (wm m), m_unclaimed (wm m), m_index (wm m), wm_diffs m)).
  { unfold mining_consume. destruct (wm_diffs m) as [|[k v] r] eqn:E; [reflexivity|]. cbn [mining_consume_loop].
    assert (bod ts < k).
    { assert (In (k, v) (after (bod ts) ((k, v) :: r))) by (rewrite Hd; left; reflexivity).
      apply in_after in H. tauto. }
    rewrite (proj2 (Z.ltb_lt (bod ts) k)) by assumption. reflexivity. }
  rewrite E. cbn [rbind].
  assert (E2 : mining_update_index ci ts (m_share (wm m) + m_sfo (wm m)) (m_unclaimed (wm m)) (m_index (wm m))
      = Ok (m_unclaimed (wm m), m_index (wm m))).
  { unfold mining_update_index. rewrite (find_lt_visible ts ci 0 Hc).
    change (visible_from 0 ts ci) with (visible ts ci). rewrite <- Hi.
    rewrite (proj2 (safe_sub_ok _ _ 0)) by lia. cbn [rbind].
    rewrite (proj2 (safe_mul128_ok _ _ 0)) by (split; [reflexivity|lia]). reflexivity. }
  rewrite E2. cbn [rbind].
  rewrite (proj2 (safe_sub_ok _ _ (m_share (wm m)))) by lia. cbn [rbind].
  destruct m as [[] ds]. reflexivity.
Qed.

Lemma refreshed_fixed ts ci m m' :
  hist_ok ci -> refreshed ts ci m m' -> min_ok m ->
  m_share (wm m) + m_sfo (wm m) < U64 -> 0 <= m_share (wm m') -> refresh ts ci m' = Ok m'.
Proof.
  intros Hh R Hm Hs H0. destruct R as [_ R2 R3 R4 R5 _ _ _ _].
  pose proof (due_bounds (day_start ts) _ (mo_vals _ Hm)).
  apply refresh_fixed; [apply Hh|assumption| |lia|assumption].
  rewrite bod_day_start, R3. apply after_after. lia.
Qed.

Lemma refresh_idempotent ts ci m m' :
  hist_ok ci -> min_ok m -> refresh ts ci m = Ok m' -> refresh ts ci m' = Ok m'.
Proof.
  intros Hh Hm H. pose proof (refresh_ok ts ci m m' Hh Hm H) as R. cbv zeta in R.
  apply (refreshed_fixed ts ci m m'); [assumption|apply refresh_refreshed; assumption|assumption|apply R|apply R].
Qed.

(** ** Path independence *)
Lemma floor_sum a b : 0 <= (a + b) / PRECISION - (a / PRECISION + b / PRECISION) <= 1.
Proof.
  pose proof (floor_bounds a). pose proof (floor_bounds b). pose proof (floor_bounds (a + b)).
  unfold PRECISION in *. lia.
Qed.

Lemma earned_cut ci s j v l ts :
  0 <= earned ci s j l ts - ((v - j) * s / PRECISION + earned ci s v l ts) <= 1.
Proof.
  destruct l as [|[d x] r]; cbn [earned]; change 10000000000000000 with PRECISION.
  - pose proof (floor_sum ((v - j) * s) ((visible ts ci - v) * s)) as H.
    replace ((v - j) * s + (visible ts ci - v) * s) with ((visible ts ci - j) * s) in H by lia. lia.
  - pose proof (floor_sum ((v - j) * s) ((visible d ci - v) * s)) as H.
    replace ((v - j) * s + (visible d ci - v) * s) with ((visible d ci - j) * s) in H by lia. lia.
Qed.

Lemma earned_path ci1 ci2 t1 t2 l2 : forall l1 s j,
  dates (fun d => visible d ci1 = visible d ci2) l1 ->
  0 <= earned ci2 s j (l1 ++ l2) t2
       - (earned ci1 s j l1 t1 + earned ci2 (s - total l1) (visible t1 ci1) l2 t2) <= 1.
Proof.
  induction l1 as [|[d x] r IH]; intros s j Hd; cbn [app total].
  - rewrite Z.sub_0_r. apply earned_cut.
  - cbn [earned]. change 10000000000000000 with PRECISION.
    pose proof (Hd d x (or_introl eq_refl)) as E. cbv beta in E. rewrite E.
    specialize (IH (s - x) (visible d ci2) ltac:(intros ? ? ?; eapply Hd; right; eauto)).
    replace (s - (x + total r)) with (s - x - total r) by lia. lia.
Qed.

Lemma visible_app_later prev d a b : dates (fun k => d <= k) b -> visible_from prev d (a ++ b) = visible_from prev d a.
Proof.
  intros Hb. revert prev. induction a as [|[k i] r IH]; intros prev; cbn [app visible_from].
  - destruct b as [|[k i] b]; [reflexivity|]. cbn [visible_from].
    pose proof (Hb k i (or_introl eq_refl)). cbv beta in *. rewrite (proj2 (Z.ltb_ge k d)) by assumption. reflexivity.
  - destruct (k <? d); [apply IH|reflexivity].
Qed.

Lemma refreshed_path t1 t2 ci1 more m m1 m2 m2' :
  t1 <= t2 -> dates (fun k => day_start t1 <= k) more -> ascending (wm_diffs m) ->
  refreshed t1 ci1 m m1 -> refreshed t2 (ci1 ++ more) m1 m2 -> refreshed t2 (ci1 ++ more) m m2' ->
  same_mining m2' m2 /\ m_share (wm m2) = m_share (wm m2') /\ m_sfo (wm m2) = m_sfo (wm m2') /\
  wm_diffs m2 = wm_diffs m2' /\ m_index (wm m2) = m_index (wm m2') /\
  m_unclaimed (wm m2) <= m_unclaimed (wm m2') <= m_unclaimed (wm m2) + 1.
Proof.
  intros Ht Hm Ha [A1 A2 A3 A4 A5 _ _ A6 _] [B1 B2 B3 B4 B5 _ _ B6 _] [C1 C2 C3 C4 C5 _ _ C6 _].
  assert (Hb : day_start t1 <= day_start t2) by (rewrite <- !bod_day_start; apply bod_mono; assumption).
  split. { unfold same_mining in *. intuition congruence. }
  split. { rewrite B4, A4, C4, A3, due_after by assumption. lia. }
  split; [congruence|].
  split. { rewrite B3, A3, C3, after_after by assumption. reflexivity. }
  split; [congruence|].
  rewrite B6, A6, C6, A2, A4, A5, A3.
  pose proof (earned_path ci1 (ci1 ++ more) t1 t2 (upto (day_start t2) (after (day_start t1) (wm_diffs m)))
    (upto (day_start t1) (wm_diffs m)) (m_share (wm m) + m_sfo (wm m)) (m_index (wm m))) as H.
  assert (E : upto (day_start t2) (wm_diffs m)
            = upto (day_start t1) (wm_diffs m) ++ upto (day_start t2) (after (day_start t1) (wm_diffs m))).
  { rewrite (upto_after_split (day_start t1) (wm_diffs m) Ha) at 1. rewrite upto_app. f_equal.
    apply upto_all. intros k v Hin. apply in_upto in Hin. lia. }
  rewrite <- E, total_upto in H.
  replace (m_share (wm m) - due (day_start t1) (wm_diffs m) + m_sfo (wm m))
    with (m_share (wm m) + m_sfo (wm m) - due (day_start t1) (wm_diffs m)) by lia.
  enough (dates (fun d => visible d ci1 = visible d (ci1 ++ more)) (upto (day_start t1) (wm_diffs m))) as Hd by (specialize (H Hd); lia).
  intros d v Hin. apply in_upto in Hin as [_ Hin]. unfold visible. symmetry. apply visible_app_later.
  intros k i Hk. apply Hm in Hk. lia.
Qed.

(** ** Monotonicity and splitting *)
Lemma earned_mono ci ts : forall l1 l2 s1 s2 j,
  growing 0 ci -> ascending l1 -> map fst l1 = map fst l2 -> j <= visible ts ci ->
  dates (fun d => j <= visible d ci /\ d <= ts) l1 ->
  (forall d, s1 - due d l1 <= s2 - due d l2) ->
  earned ci s1 j l1 ts <= earned ci s2 j l2 ts.
Proof.
  intros l1 l2 s1 s2 j Hg. revert l2 s1 s2 j.
  induction l1 as [|[d x] r IH]; intros l2 s1 s2 j Ha E Hj Hd Hs; destruct l2 as [|[d' x'] r']; cbn in E; try discriminate.
  - cbn [earned]. apply Z.div_le_mono; [reflexivity|]. specialize (Hs 0). cbn in Hs. nia.
  - injection E as <- E. cbn [earned].
    destruct (Hd d x (or_introl eq_refl)) as [Hjd Hdt].
    assert (Hge : forall k v, In (k, v) r -> d < k) by (intros; eapply Ha; eassumption).
    assert (Hge' : forall k v, In (k, v) r' -> d < k).
    { intros k v Hin. apply (in_map fst) in Hin. rewrite <- E in Hin. apply in_map_iff in Hin as ([k2 v2] & E2 & Hin).
      cbn in E2. subst k2. eauto. }
    apply Z.add_le_mono.
    + apply Z.div_le_mono; [reflexivity|]. apply Z.mul_le_mono_nonneg_l; [lia|].
      specialize (Hs (d - 1)). cbn [due] in Hs. rewrite (proj2 (Z.leb_gt d (d - 1))) in Hs by lia.
      rewrite !due_nil_below in Hs; [lia| |]; intros k v Hin; [apply Hge' in Hin|apply Hge in Hin]; lia.
    + apply IH; [apply Ha|assumption|apply visible_mono; assumption| |].
      * intros k v Hin. split; [|eapply Hd; right; eassumption].
        apply visible_mono; [assumption|]. apply Hge in Hin. lia.
      * intros k. destruct (Z_le_gt_dec d k).
        -- specialize (Hs k). cbn [due] in Hs. rewrite (proj2 (Z.leb_le d k)) in Hs by assumption. lia.
        -- rewrite !due_nil_below; [|intros k' v Hin; apply Hge' in Hin; lia|intros k' v Hin; apply Hge in Hin; lia].
           specialize (Hs d). cbn [due] in Hs. rewrite Z.leb_refl in Hs.
           rewrite !due_nil_below in Hs; [lia| |]; intros k' v Hin; [apply Hge' in Hin|apply Hge in Hin]; lia.
Qed.

Lemma earned_split ci ts : forall l1 l2 l s1 s2 j,
  merged l1 l2 l ->
  0 <= earned ci (s1 + s2) j l ts - (earned ci s1 j l1 ts + earned ci s2 j l2 ts)
    <= 1 + Z.of_nat (length l).
Proof.
  induction l1 as [|[d1 x1] r1 IH]; intros [|[d2 x2] r2] [|[d x] r] s1 s2 j H; try contradiction.
  - cbn [earned length]. change 10000000000000000 with PRECISION.
    pose proof (floor_sum ((visible ts ci - j) * s1) ((visible ts ci - j) * s2)) as F.
    replace ((visible ts ci - j) * s1 + (visible ts ci - j) * s2) with ((visible ts ci - j) * (s1 + s2)) in F by lia. lia.
  - destruct H as (-> & -> & -> & H). cbn [earned length]. change 10000000000000000 with PRECISION.
    pose proof (floor_sum ((visible d ci - j) * s1) ((visible d ci - j) * s2)) as F.
    replace ((visible d ci - j) * s1 + (visible d ci - j) * s2) with ((visible d ci - j) * (s1 + s2)) in F by lia.
    specialize (IH r2 r (s1 - x1) (s2 - x2) (visible d ci) H).
    replace (s1 - x1 + (s2 - x2)) with (s1 + s2 - (x1 + x2)) in IH by lia. lia.
Qed.

Lemma merged_upto b : forall l1 l2 l, merged l1 l2 l -> merged (upto b l1) (upto b l2) (upto b l).
Proof.
  induction l1 as [|[d1 x1] r1 IH]; intros [|[d2 x2] r2] [|[d x] r] H; try contradiction; [exact I|].
  destruct H as (-> & -> & -> & H). unfold upto in *. cbn [filter fst].
  destruct (d <=? b); [|apply IH; assumption]. cbn. split; [reflexivity|]. split; [reflexivity|]. split; [reflexivity|].
  apply IH. assumption.
Qed.

(** the same dates without drops *)
Definition no_drops (l : sched) : sched := map (fun kv => (fst kv, 0)) l.
Lemma merged_no_drops l : merged l (no_drops l) l.
Proof. induction l as [|[d x] r IH]; cbn; [exact I|]. split; [reflexivity|]. split; [reflexivity|]. split; [lia|assumption]. Qed.

Lemma earned_flat ci ts a : forall l j,
  0 <= (visible ts ci - j) * a - PRECISION * earned ci a j (no_drops l) ts
    <= (PRECISION - 1) * (1 + Z.of_nat (length l)).
Proof.
  induction l as [|[d x] r IH]; intros j; cbn [no_drops map fst earned length]; change 10000000000000000 with PRECISION.
  - pose proof (floor_bounds ((visible ts ci - j) * a)). lia.
  - pose proof (floor_bounds ((visible d ci - j) * a)). specialize (IH (visible d ci)).
    rewrite Z.sub_0_r. fold (no_drops r). unfold PRECISION in *. lia.
Qed.

(** adding [a] to a stake from the beginning adds [a] times the index difference, up to
    less than two tokens per segment *)
Lemma earned_more ci ts s a j l :
  let n := 1 + Z.of_nat (length l) in
  - ((PRECISION - 1) * n) <= PRECISION * (earned ci (s + a) j l ts - earned ci s j l ts) - (visible ts ci - j) * a
    <= PRECISION * n.
Proof.
  cbv zeta. pose proof (earned_split ci ts l (no_drops l) l s a j (merged_no_drops l)).
  pose proof (earned_flat ci ts a l j). unfold PRECISION in *. lia.
Qed.

Lemma earned_nonneg ci ts : forall l s j,
  growing 0 ci -> ascending l -> j <= visible ts ci ->
  dates (fun d => j <= visible d ci /\ d <= ts) l -> values (fun v => 0 <= v) l -> total l <= s ->
  0 <= earned ci s j l ts.
Proof.
  induction l as [|[d x] r IH]; intros s j Hg Ha Hj Hd Hv Hs; cbn [earned total] in *.
  - apply Z.div_pos; [nia|reflexivity].
  - destruct (Hd d x (or_introl eq_refl)). pose proof (Hv d x (or_introl eq_refl)) as Hx. cbv beta in Hx.
    assert (Hvr : values (fun v => 0 <= v) r) by (intros ? ? ?; eapply Hv; right; eauto).
    pose proof (due_bounds 0 r Hvr).
    assert (0 <= (visible d ci - j) * s / 10000000000000000) by (apply Z.div_pos; [nia|reflexivity]).
    enough (0 <= earned ci (s - x) (visible d ci) r ts) by lia.
    apply IH; [assumption|apply Ha|apply visible_mono; assumption| |assumption|lia].
    intros k v Hin. split; [|eapply Hd; right; eassumption].
    apply visible_mono; [assumption|]. apply Ha in Hin. lia.
Qed.
