(** Proofs of C96: the rewards of two histories together. *)
From stdpp Require Import gmap.
From Verif Require Import Base OMap State Spec EffectSpec Ledger Program ResLemmas TreeLemmas AccrualLemmas RefreshLemmas WfLemmas LedgerLemmas LedgerSpec
  CodecLemmas History HistoryLemmas Changes AccessLemmas HistoryThms ReachThms EffectLemmas EffectMethods EffectThms EffectMore EffectCompare
  SuccessSpec SuccessThms LedgerCore Determined Commute CompleteSpec Complete PowerSpec Powers FreezeSpec Choice GapSpec Gap CapSpec Cap
  CoreInv Split DustSpec DebtSpec Debt IncomeSpec Income DiarySpec Diary LogSpec Log CompareSpec Compare LongerSpec Longer OwnSpec Own PartsSpec Parts ScaleSpec Scale RichSpec Rich TogetherSpec.

Local Notation P16 := 10000000000000000.

(** ** Two histories of distributions added up *)
Fixpoint summed (s t : sched) : sched :=
  match s, t with (d, i) :: r, (_, j) :: q => (d, i + j) :: summed r q | _, _ => [] end.
Lemma summed_keys : forall s t, map fst s = map fst t -> map fst (summed s t) = map fst s.
Proof. induction s as [|[d i] s IH]; intros [|[e j] t] H; cbn in *; try discriminate; [reflexivity|]. injection H as -> H. rewrite IH by assumption. reflexivity. Qed.
Lemma summed_last n : forall s t a b, map fst s = map fst t ->
  last_from (a + b) (firstn n (summed s t)) = last_from a (firstn n s) + last_from b (firstn n t).
Proof.
  induction n as [|n IH]; intros [|[d i] s] [|[e j] t] a b H; cbn [map fst] in H; try discriminate; cbn [summed firstn last_from]; try reflexivity.
  injection H as _ H. apply IH. exact H.
Qed.
Lemma summed_growing : forall s t a b, growing a s -> growing b t -> growing (a + b) (summed s t).
Proof.
  induction s as [|[d i] s IH]; intros [|[e j] t] a b G1 G2; cbn [summed growing] in *; try exact I. destruct G1, G2. split; [lia|auto].
Qed.
Lemma summed_app : forall s t r q, map fst s = map fst t -> summed (s ++ r) (t ++ q) = summed s t ++ summed r q.
Proof.
  induction s as [|[d i] s IH]; intros [|[e j] t] r q H; cbn in *; try discriminate; [reflexivity|]. injection H as _ H. rewrite IH by assumption. reflexivity.
Qed.
Lemma summed_length s t : map fst s = map fst t -> length (summed s t) = length s.
Proof. intros H. apply keys_length. apply summed_keys. exact H. Qed.
Lemma summed_all s t : map fst s = map fst t -> last_from 0 (summed s t) = last_from 0 s + last_from 0 t.
Proof.
  intros H. pose proof (summed_last (length s) s t 0 0 H) as E. rewrite firstn_all in E.
  rewrite (keys_length _ _ H), firstn_all, <- (keys_length _ _ H), <- (summed_length s t H), firstn_all in E. exact E.
Qed.

(** ** What is credited *)
Lemma floors3 a b c u w : - w <= c - (a + b) <= u ->
  P16 * (c / P16 - (a / P16 + b / P16)) <= u + 2 * (P16 - 1) /\ P16 * ((a / P16 + b / P16) - c / P16) <= w + (P16 - 1).
Proof.
  intros H. pose proof (Z.div_mod a P16 ltac:(lia)). pose proof (Z.div_mod b P16 ltac:(lia)). pose proof (Z.div_mod c P16 ltac:(lia)).
  pose proof (Z.mod_pos_bound a P16 ltac:(lia)). pose proof (Z.mod_pos_bound b P16 ltac:(lia)). pose proof (Z.mod_pos_bound c P16 ltac:(lia)). lia.
Qed.
Lemma segment3 u1 u2 u3 s S u w : within (u3 - 1 * (u1 + u2)) u w -> 0 <= s <= S -> - (S * w) <= u3 * s - (u1 * s + u2 * s) <= S * u.
Proof. intros (H1 & H2 & H3) H. replace (u3 * s - (u1 * s + u2 * s)) with (s * (u3 - 1 * (u1 + u2))) by ring. nia. Qed.

Lemma earned3 S ci1 ci2 ci3 cs ts :
  (forall d d', d <= d' -> within ((visible d' ci3 - visible d ci3) - 1 * ((visible d' ci1 - visible d ci1) + (visible d' ci2 - visible d ci2)))
     (up_to 1 d' cs ci3 - up_to 1 d cs ci3) (down_to 1 d' cs ci3 - down_to 1 d cs ci3)) ->
  forall l1 l2 l3 s1 s2 s3 j1 j2 j3 g h, ascending l1 -> map fst l1 = map fst l2 -> map fst l1 = map fst l3 ->
  within ((visible ts ci3 - j3) - 1 * ((visible ts ci1 - j1) + (visible ts ci2 - j2))) (up_to 1 ts cs ci3 - g) (down_to 1 ts cs ci3 - h) ->
  dates (fun d => d <= ts /\ within ((visible d ci3 - j3) - 1 * ((visible d ci1 - j1) + (visible d ci2 - j2))) (up_to 1 d cs ci3 - g) (down_to 1 d cs ci3 - h)) l1 ->
  (forall d, s2 - Spec.due d l2 = s1 - Spec.due d l1 /\ s3 - Spec.due d l3 = s1 - Spec.due d l1 /\ 0 <= s1 - Spec.due d l1 <= S) ->
  P16 * (earned ci3 s3 j3 l3 ts - (earned ci1 s1 j1 l1 ts + earned ci2 s2 j2 l2 ts)) <= S * (up_to 1 ts cs ci3 - g) + 2 * (P16 - 1) * (1 + Z.of_nat (length l1)) /\
  P16 * ((earned ci1 s1 j1 l1 ts + earned ci2 s2 j2 l2 ts) - earned ci3 s3 j3 l3 ts) <= S * (down_to 1 ts cs ci3 - h) + (P16 - 1) * (1 + Z.of_nat (length l1)).
Proof.
  intros St. induction l1 as [|[d x] r IH]; intros l2 l3 s1 s2 s3 j1 j2 j3 g h Ha E E' Hj Hd Hs; destruct l2 as [|[d2 x2] r2]; cbn in E; try discriminate;
    destruct l3 as [|[d3 x3] r3]; cbn in E'; try discriminate.
  - cbn [earned length]. destruct (Hs 0) as (Hs1 & Hs2 & Hs3). cbn [Spec.due] in Hs1, Hs2, Hs3. replace s2 with s1 by lia. replace s3 with s1 by lia.
    pose proof (floors3 _ _ _ _ _ (segment3 _ _ _ s1 S _ _ Hj ltac:(lia))). lia.
  - injection E as <- E. injection E' as <- E'. cbn [earned length].
    destruct (Hd d x (or_introl eq_refl)) as [Hdt Hjd].
    assert (Hge : forall k v, In (k, v) r -> d < k) by (intros; eapply Ha; eassumption).
    assert (Hge2 : forall k v, In (k, v) r2 -> d < k).
    { intros k v Hin. destruct (keys_in r2 r k (eq_sym E)) as (v2 & H2); eauto. }
    assert (Hge3 : forall k v, In (k, v) r3 -> d < k).
    { intros k v Hin. destruct (keys_in r3 r k (eq_sym E')) as (v2 & H2); eauto. }
    assert (B0 : s2 = s1 /\ s3 = s1 /\ 0 <= s1 <= S).
    { specialize (Hs (d - 1)). cbn [Spec.due] in Hs. rewrite (proj2 (Z.leb_gt d (d - 1))) in Hs by lia.
      rewrite !due_nil_below in Hs; [lia| | |]; intros k v Hin; first [apply Hge in Hin|apply Hge3 in Hin|apply Hge2 in Hin]; lia. }
    destruct B0 as (-> & -> & B0). pose proof (floors3 _ _ _ _ _ (segment3 _ _ _ s1 S _ _ Hjd B0)) as F.
    destruct (IH r2 r3 (s1 - x) (s1 - x2) (s1 - x3) (visible d ci1) (visible d ci2) (visible d ci3) (up_to 1 d cs ci3) (down_to 1 d cs ci3)) as [I1 I2].
    + apply Ha.
    + exact E.
    + exact E'.
    + apply St. exact Hdt.
    + intros k v Hin. destruct (Hd k v (or_intror Hin)) as [Hk _]. split; [assumption|]. apply Hge in Hin. apply St. lia.
    + intros k. destruct (Z_le_gt_dec d k).
      * specialize (Hs k). cbn [Spec.due] in Hs. rewrite (proj2 (Z.leb_le d k)) in Hs by assumption. lia.
      * rewrite !due_nil_below; try (intros k' v Hin; first [apply Hge in Hin|apply Hge3 in Hin|apply Hge2 in Hin]; lia).
        specialize (Hs d). cbn [Spec.due] in Hs. rewrite Z.leb_refl in Hs.
        rewrite !due_nil_below in Hs; [lia| | |]; intros k' v Hin; first [apply Hge in Hin|apply Hge3 in Hin|apply Hge2 in Hin]; lia.
    + lia.
Qed.

(** ** Minings *)
Definition put3 (ci1 ci2 ci3 : sched) (m n o : wmining) (g h : Z) : Prop :=
  exists k : nat, (k <= length ci1)%nat /\ m_index (wm m) = last_from 0 (firstn k ci1) /\ m_index (wm n) = last_from 0 (firstn k ci2) /\
    m_index (wm o) = last_from 0 (firstn k ci3) /\
    g = above 1 0 0 (firstn k (summed ci1 ci2)) (firstn k ci3) /\ h = below 1 0 0 (firstn k (summed ci1 ci2)) (firstn k ci3).
Definition excess3 (m n o : wmining) : Z := m_unclaimed (wm o) - (m_unclaimed (wm m) + m_unclaimed (wm n)).

Lemma level3 ci1 ci2 ci3 n n' : map fst ci1 = map fst ci2 -> map fst ci1 = map fst ci3 -> growing 0 ci1 -> growing 0 ci2 -> growing 0 ci3 ->
  last_from 0 (firstn n ci1) <= last_from 0 (firstn n' ci1) -> last_from 0 (firstn n ci2) <= last_from 0 (firstn n' ci2) -> last_from 0 (firstn n ci3) <= last_from 0 (firstn n' ci3) ->
  within ((last_from 0 (firstn n' ci3) - last_from 0 (firstn n ci3)) -
      1 * ((last_from 0 (firstn n' ci1) - last_from 0 (firstn n ci1)) + (last_from 0 (firstn n' ci2) - last_from 0 (firstn n ci2))))
    (above 1 0 0 (firstn n' (summed ci1 ci2)) (firstn n' ci3) - above 1 0 0 (firstn n (summed ci1 ci2)) (firstn n ci3))
    (below 1 0 0 (firstn n' (summed ci1 ci2)) (firstn n' ci3) - below 1 0 0 (firstn n (summed ci1 ci2)) (firstn n ci3)).
Proof.
  intros K2 K3 G1 G2 G3 H1 H2 H3.
  pose proof (summed_last n ci1 ci2 0 0 K2) as E1. pose proof (summed_last n' ci1 ci2 0 0 K2) as E2. rewrite Z.add_0_l in E1, E2.
  pose proof (level_up 1 (summed ci1 ci2) ci3 n n') as L. rewrite E1, E2 in L.
  replace (last_from 0 (firstn n' ci1) - last_from 0 (firstn n ci1) + (last_from 0 (firstn n' ci2) - last_from 0 (firstn n ci2)))
    with (last_from 0 (firstn n' ci1) + last_from 0 (firstn n' ci2) - (last_from 0 (firstn n ci1) + last_from 0 (firstn n ci2))) by ring.
  apply L; [rewrite (summed_keys _ _ K2); exact K3|exact (summed_growing _ _ 0 0 G1 G2)|exact G3|lia|exact H3].
Qed.

Lemma refresh3 S ts ci1 ci2 ci3 m n o m' n' o' g h :
  map fst ci1 = map fst ci2 -> map fst ci1 = map fst ci3 -> growing 0 ci1 -> growing 0 ci2 -> growing 0 ci3 ->
  ascending (wm_diffs m) -> values is_u64 (wm_diffs m) -> 0 <= own m (day_start ts) -> 0 <= m_sfo (wm m) -> m_share (wm m) + m_sfo (wm m) <= S ->
  mining_times 1 m n -> mining_times 1 m o -> put3 ci1 ci2 ci3 m n o g h -> refreshed ts ci1 m m' -> refreshed ts ci2 n n' -> refreshed ts ci3 o o' ->
  exists g' h', put3 ci1 ci2 ci3 m' n' o' g' h' /\ bounds 2 S (excess3 m' n' o' - excess3 m n o) g h g' h' (1 + len m - len m').
Proof.
  intros K2 K3 G1 G2 G3 A V Hown Hsfo HS [D2 O2 Sf2] [D3 O3 Sf3] (k & Hk & I1 & I2 & I3 & -> & ->) R1 R2 R3.
  set (cs := summed ci1 ci2) in *. assert (KS : map fst cs = map fst ci1) by (apply summed_keys; exact K2).
  assert (LD : forall d, visible d ci1 = last_from 0 (firstn (lead d (map fst cs)) ci1) /\ visible d ci2 = last_from 0 (firstn (lead d (map fst cs)) ci2) /\
    visible d ci3 = last_from 0 (firstn (lead d (map fst cs)) ci3)).
  { intros d. rewrite (visible_lead2 d cs ci1 KS), (visible_lead2 d cs ci2 ltac:(congruence)), (visible_lead2 d cs ci3 ltac:(congruence)). auto. }
  exists (up_to 1 ts cs ci3), (down_to 1 ts cs ci3). split.
  - exists (lead ts (map fst cs)). split; [rewrite <- (map_length fst ci1), KS; apply lead_length|]. destruct (LD ts) as (L1 & L2 & L3).
    rewrite (rf_index _ _ _ _ R1), (rf_index _ _ _ _ R2), (rf_index _ _ _ _ R3), L1, L2, L3. unfold up_to, down_to, cs. auto 6.
  - unfold bounds, excess3. rewrite (rf_unclaimed _ _ _ _ R1), (rf_unclaimed _ _ _ _ R2), (rf_unclaimed _ _ _ _ R3).
    assert (NV : forall d, m_index (wm m) <= visible d ci1 -> m_index (wm n) <= visible d ci2 -> m_index (wm o) <= visible d ci3 ->
      within ((visible d ci3 - m_index (wm o)) - 1 * ((visible d ci1 - m_index (wm m)) + (visible d ci2 - m_index (wm n))))
        (up_to 1 d cs ci3 - above 1 0 0 (firstn k cs) (firstn k ci3)) (down_to 1 d cs ci3 - below 1 0 0 (firstn k cs) (firstn k ci3))).
    { intros d H1 H2 H3. destruct (LD d) as (L1 & L2 & L3). rewrite L1, L2, L3, I1, I2, I3 in *. unfold up_to, down_to. apply level3; assumption. }
    destruct (earned3 S ci1 ci2 ci3 cs ts) with (l1 := upto (day_start ts) (wm_diffs m)) (l2 := upto (day_start ts) (wm_diffs n)) (l3 := upto (day_start ts) (wm_diffs o))
      (s1 := m_share (wm m) + m_sfo (wm m)) (s2 := m_share (wm n) + m_sfo (wm n)) (s3 := m_share (wm o) + m_sfo (wm o))
      (j1 := m_index (wm m)) (j2 := m_index (wm n)) (j3 := m_index (wm o))
      (g := above 1 0 0 (firstn k cs) (firstn k ci3)) (h := below 1 0 0 (firstn k cs) (firstn k ci3)) as [E1 E2].
    + intros d d' Hd. pose proof (visible_mono 0 d d' ci1 G1 Hd) as M1. pose proof (visible_mono 0 d d' ci2 G2 Hd) as M2. pose proof (visible_mono 0 d d' ci3 G3 Hd) as M3.
      fold (visible d ci1) (visible d' ci1) in M1. fold (visible d ci2) (visible d' ci2) in M2. fold (visible d ci3) (visible d' ci3) in M3.
      destruct (LD d) as (L1 & L2 & L3). destruct (LD d') as (L1' & L2' & L3'). rewrite L1, L2, L3, L1', L2', L3' in *. unfold up_to, down_to. apply level3; assumption.
    + apply ascending_upto. exact A.
    + apply keys_upto. exact D2.
    + apply keys_upto. exact D3.
    + apply NV; [exact (rf_index_le _ _ _ _ R1)|exact (rf_index_le _ _ _ _ R2)|exact (rf_index_le _ _ _ _ R3)].
    + intros d v Hin. apply in_upto in Hin as [Hin Hd]. pose proof (day_start_le ts). split; [lia|]. apply NV.
      * exact (rf_first _ _ _ _ R1 _ _ Hin Hd).
      * destruct (keys_in _ _ d D2) as (v2 & H2); [eauto|]. exact (rf_first _ _ _ _ R2 _ _ H2 Hd).
      * destruct (keys_in _ _ d D3) as (v2 & H2); [eauto|]. exact (rf_first _ _ _ _ R3 _ _ H2 Hd).
    + intros d. rewrite !due_upto. pose proof (O2 (Z.min d (day_start ts))) as Od. pose proof (O3 (Z.min d (day_start ts))) as Od3. unfold own in Od, Od3.
      pose proof (own_mono m (Z.min d (day_start ts)) (day_start ts) V ltac:(lia)) as OM. unfold own in *.
      assert (0 <= Spec.due (Z.min d (day_start ts)) (wm_diffs m)).
      { apply due_bounds. intros k' v Hin. apply V in Hin. unfold is_u64 in Hin. lia. }
      split; [rewrite Sf2; lia|]. split; [rewrite Sf3; lia|lia].
    + assert (EL : 1 + Z.of_nat (length (upto (day_start ts) (wm_diffs m))) = 1 + len m - len m').
      { unfold len. rewrite (rf_diffs _ _ _ _ R1). pose proof (length_split (day_start ts) (wm_diffs m)). lia. }
      rewrite EL in *. split; lia.
Qed.

Lemma stake3 ci1 ci2 ci3 a1 a2 a3 g h m n o : put3 ci1 ci2 ci3 a1 a2 a3 g h -> only_stake a1 m -> only_stake a2 n -> only_stake a3 o ->
  put3 ci1 ci2 ci3 m n o g h /\ excess3 m n o = excess3 a1 a2 a3.
Proof.
  intros (k & Hk & J1 & J2 & J3 & R) (_ & I1 & U1 & _) (_ & I2 & U2 & _) (_ & I3 & U3 & _).
  split; [exists k; rewrite I1, I2, I3; auto|]. unfold excess3. congruence.
Qed.

Lemma page3 S1 S2 ts i j h0 l ci1 ci2 ci3 m n o p q r m' n' o' g h :
  map fst ci1 = map fst ci2 -> map fst ci1 = map fst ci3 -> growing 0 ci1 -> growing 0 ci2 -> growing 0 ci3 ->
  mining_wf m -> mining_wf n -> mining_wf o -> mining_wf m' -> mining_wf n' -> mining_wf o' ->
  m_share (wm m) <= S1 -> m_sfo (wm m) <= S2 -> m_sfo (wm m') <= S2 -> times 1 i j -> times 1 i h0 -> base_ok i -> sound_page ts i l m ->
  mining_times 1 m n -> mining_times 1 m o -> put3 ci1 ci2 ci3 m n o g h ->
  page (ts, i, l, ci1) m p m' -> page (ts, j, l, ci2) n q n' -> page (ts, h0, l, ci3) o r o' ->
  mining_times 1 m' n' /\ mining_times 1 m' o' /\ exists g' h', put3 ci1 ci2 ci3 m' n' o' g' h' /\
    bounds 2 (S1 + S2) ((r + excess3 m' n' o' - (p + q)) - excess3 m n o) g h g' h' (1 + len m - len m' + one (puts i)).
Proof.
  intros K2 K3 G1 G2 G3 W1 W2 W3 W1' W2' W3' HS1 HS2 HS2' T T' BO SO MT MT' PL P1 P2 P3.
  assert (L2 : mining_times 1 m' n').
  { destruct PL as (k & Hk & I1 & I2 & I3 & _).
    exact (proj1 (page_rich 1 ltac:(lia) S1 S2 ts i j l ci1 ci2 m n p q m' n' _ _ K2 G1 G2 W1 W2 W1' W2' HS1 HS2 HS2' T BO SO MT
      (ex_intro _ k (conj Hk (conj I1 (conj I2 (conj eq_refl eq_refl))))) P1 P2)). }
  assert (L3 : mining_times 1 m' o').
  { destruct PL as (k & Hk & I1 & I2 & I3 & _).
    exact (proj1 (page_rich 1 ltac:(lia) S1 S2 ts i h0 l ci1 ci3 m o p r m' o' _ _ K3 G1 G3 W1 W3 W1' W3' HS1 HS2 HS2' T' BO SO MT'
      (ex_intro _ k (conj Hk (conj I1 (conj I3 (conj eq_refl eq_refl))))) P1 P3)). }
  split; [exact L2|]. split; [exact L3|]. clear L2 L3.
  pose proof (mw_asc _ W1) as A1. pose proof (mw_vals _ W1) as V1. pose proof (mw_asc _ W1') as B1.
  pose proof (mw_sfo _ W1) as Q1. pose proof (mw_sfo _ W1') as Q2. pose proof (mw_share _ W1') as Q3. unfold is_u64 in Q1, Q2, Q3.
  assert (RT : forall m1 n1 o1, refreshed ts ci1 m m1 -> refreshed ts ci2 n n1 -> refreshed ts ci3 o o1 -> 0 <= own m (day_start ts) ->
     exists g' h', put3 ci1 ci2 ci3 m1 n1 o1 g' h' /\ bounds 2 (S1 + S2) (excess3 m1 n1 o1 - excess3 m n o) g h g' h' (1 + len m - len m1)).
  { intros m1 n1 o1 R1 R2 R3 HO. eapply refresh3; try eassumption; lia. }
  assert (RL : forall a b c m1 n1 o1, refreshed ts ci1 (with_delegated m a) m1 -> refreshed ts ci2 (with_delegated n b) n1 -> refreshed ts ci3 (with_delegated o c) o1 ->
     0 <= own m (day_start ts) -> b = 1 * a -> c = 1 * a -> 0 <= a <= S2 ->
     exists g' h', put3 ci1 ci2 ci3 m1 n1 o1 g' h' /\ bounds 2 (S1 + S2) (excess3 m1 n1 o1 - excess3 m n o) g h g' h' (1 + len m - len m1)).
  { intros a b c m1 n1 o1 R1 R2 R3 HO E E' Ha. apply (refresh3 (S1 + S2) ts ci1 ci2 ci3 (with_delegated m a) (with_delegated n b) (with_delegated o c)); try assumption; cbn [with_delegated wm m_share m_sfo]; try lia.
    - apply (delegated_times 1); assumption.
    - apply (delegated_times 1); assumption. }
  assert (OW : forall x a, refreshed ts ci1 x a -> wm_diffs x = wm_diffs m -> m_share (wm x) = m_share (wm m) -> own m (day_start ts) = m_share (wm a)).
  { intros x a R E1 E2. unfold own. rewrite (rf_share _ _ _ _ R), E1, E2. reflexivity. }
  pose proof (mt_sfo _ _ _ MT) as Z2. pose proof (mt_sfo _ _ _ MT') as Z3.
  assert (SL : forall a, refreshed ts ci1 m a -> ascending (wm_diffs a)) by (intros a R; exact (refreshed_asc _ _ _ _ A1 R)).
  destruct i, j; cbn [times] in T; try contradiction; destruct h0; cbn [times] in T'; try contradiction; cbn [page sound_page base_ok puts one] in *; try contradiction.
  - (* DepositMining *)
    destruct P1 as [-> P1], P2 as [-> P2], P3 as [-> P3]. destruct T as [<- ->], T' as [<- ->]. destruct (here 1 l).
    + destruct P1 as (a1 & R1 & O1 & E1 & S3 & _), P2 as (a2 & R2 & O2 & _), P3 as (a3 & R3 & O3 & _).
      destruct (RT _ _ _ R1 R2 R3 (SO eq_refl)) as (g' & h' & PL1 & B). destruct (stake3 _ _ _ _ _ _ _ _ m' n' o' PL1 O1 O2 O3) as [PL2 EL].
      exists g', h'. split; [exact PL2|]. pose proof (scheduled_length _ _ _ _ _ (SL _ R1) B1 S3). unfold len in *. refine (bounds_more 2 ltac:(lia) _ _ _ _ _ _ _ _ _ B _ _); lia.
    + destruct (RL _ _ _ _ _ _ P1 P2 P3 ltac:(rewrite (OW _ _ P1 eq_refl eq_refl); lia) ltac:(lia) ltac:(lia) ltac:(pose proof (rf_sfo _ _ _ _ P1) as X; cbn [with_delegated wm m_sfo] in X; lia))
        as (g' & h' & PL1 & B).
      exists g', h'. split; [exact PL1|]. refine (bounds_more 2 ltac:(lia) _ _ _ _ _ _ _ _ _ B _ _); lia.
  - (* WithdrawMining *)
    destruct P1 as [-> P1], P2 as [-> P2], P3 as [-> P3]. subst. destruct (here 1 l).
    + destruct P1 as (a1 & R1 & O1 & E1 & S3), P2 as (a2 & R2 & O2 & _), P3 as (a3 & R3 & O3 & _).
      destruct (RT _ _ _ R1 R2 R3 ltac:(rewrite (OW _ _ R1 eq_refl eq_refl); lia)) as (g' & h' & PL1 & B). destruct (stake3 _ _ _ _ _ _ _ _ m' n' o' PL1 O1 O2 O3) as [PL2 EL].
      exists g', h'. split; [exact PL2|]. unfold len in *. rewrite S3. refine (bounds_more 2 ltac:(lia) _ _ _ _ _ _ _ _ _ B _ _); lia.
    + destruct (RL _ _ _ _ _ _ P1 P2 P3 ltac:(rewrite (OW _ _ P1 eq_refl eq_refl); lia) ltac:(lia) ltac:(lia) ltac:(pose proof (rf_sfo _ _ _ _ P1) as X; cbn [with_delegated wm m_sfo] in X; lia))
        as (g' & h' & PL1 & B).
      exists g', h'. split; [exact PL1|]. refine (bounds_more 2 ltac:(lia) _ _ _ _ _ _ _ _ _ B _ _); lia.
  - (* Claim *)
    destruct P1 as (a1 & R1 & -> & ->), P2 as (a2 & R2 & -> & ->), P3 as (a3 & R3 & -> & ->).
    destruct (RT _ _ _ R1 R2 R3 ltac:(rewrite (OW _ _ R1 eq_refl eq_refl); exact (proj1 Q3))) as (g' & h' & PL1 & B).
    exists g', h'. split; [exact PL1|]. unfold excess3, len in *. cbn [emptied wm m_unclaimed wm_diffs] in *. refine (bounds_more 2 ltac:(lia) _ _ _ _ _ _ _ _ _ B _ _); lia.
  - (* ExtendStake *)
    destruct P1 as [-> P1], P2 as [-> P2], P3 as [-> P3]. destruct T as (<- & <- & <- & -> & ->), T' as (<- & <- & <- & -> & ->). destruct (here 1 l).
    + destruct P1 as (a1 & t1 & R1 & O1 & E1 & L1 & S3 & _), P2 as (a2 & t2 & R2 & O2 & _), P3 as (a3 & t3 & R3 & O3 & _).
      destruct (RT _ _ _ R1 R2 R3 SO) as (g' & h' & PL1 & B). destruct (stake3 _ _ _ _ _ _ _ _ m' n' o' PL1 O1 O2 O3) as [PL2 EL].
      assert (LL : ascending t1 /\ length t1 = length (wm_diffs a1)).
      { destruct (unexpired _ _ ts); [|subst; split; [exact (SL _ R1)|reflexivity]]. pose proof L1 as (_ & _ & K1 & _).
        split; [eapply ascending_keys; [symmetry; exact K1|exact (SL _ R1)]|exact (keys_length _ _ K1)]. }
      destruct LL as [D1 LE].
      exists g', h'. split; [exact PL2|]. pose proof (scheduled_length _ _ _ _ _ D1 B1 S3). unfold len in *. refine (bounds_more 2 ltac:(lia) _ _ _ _ _ _ _ _ _ B _ _); lia.
    + destruct P1 as (b1 & R1 & ->), P2 as (b2 & R2 & ->), P3 as (b3 & R3 & ->). cbn [with_delegated wm m_share m_sfo] in *.
      destruct (RL _ _ _ _ _ _ R1 R2 R3 ltac:(rewrite (OW _ _ R1 eq_refl eq_refl); lia) ltac:(lia) ltac:(lia) ltac:(lia)) as (g' & h' & PL1 & B).
      exists g', h'. split; [exact PL1|]. unfold excess3, len in *. cbn [with_delegated wm m_unclaimed wm_diffs] in *. refine (bounds_more 2 ltac:(lia) _ _ _ _ _ _ _ _ _ B _ _); lia.
  - (* ChangeDelegate *)
    destruct P1 as [-> P1], P2 as [-> P2], P3 as [-> P3]. subst. destruct (here 1 l); [|destruct (here 4 l)].
    + destruct (RT _ _ _ P1 P2 P3 ltac:(rewrite (OW _ _ P1 eq_refl eq_refl); lia)) as (g' & h' & PL1 & B).
      exists g', h'. split; [exact PL1|]. refine (bounds_more 2 ltac:(lia) _ _ _ _ _ _ _ _ _ B _ _); lia.
    + destruct (RL _ _ _ _ _ _ P1 P2 P3 ltac:(rewrite (OW _ _ P1 eq_refl eq_refl); lia) ltac:(lia) ltac:(lia) ltac:(pose proof (rf_sfo _ _ _ _ P1) as X; cbn [with_delegated wm m_sfo] in X; lia))
        as (g' & h' & PL1 & B).
      exists g', h'. split; [exact PL1|]. refine (bounds_more 2 ltac:(lia) _ _ _ _ _ _ _ _ _ B _ _); lia.
    + destruct (RL _ _ _ _ _ _ P1 P2 P3 ltac:(rewrite (OW _ _ P1 eq_refl eq_refl); lia) ltac:(lia) ltac:(lia) ltac:(pose proof (rf_sfo _ _ _ _ P1) as X; cbn [with_delegated wm m_sfo] in X; lia))
        as (g' & h' & PL1 & B).
      exists g', h'. split; [exact PL1|]. refine (bounds_more 2 ltac:(lia) _ _ _ _ _ _ _ _ _ B _ _); lia.
  - (* Slash *)
    destruct P1 as [-> P1], P2 as [-> P2], P3 as [-> P3].
    destruct P1 as (a1 & R1 & O1 & E1 & T1), P2 as (a2 & R2 & O2 & _), P3 as (a3 & R3 & O3 & _).
    destruct (RT _ _ _ R1 R2 R3 ltac:(rewrite (OW _ _ R1 eq_refl eq_refl); lia)) as (g' & h' & PL1 & B). destruct (stake3 _ _ _ _ _ _ _ _ m' n' o' PL1 O1 O2 O3) as [PL2 EL].
    exists g', h'. split; [exact PL2|]. assert (LL : length (wm_diffs m') = length (wm_diffs a1)).
    { match type of T1 with match ?d with _ => _ end => destruct d as [u|] end; [|rewrite T1; reflexivity]. pose proof T1 as (_ & _ & K1 & _). exact (keys_length _ _ K1). }
    unfold len in *. rewrite LL. refine (bounds_more 2 ltac:(lia) _ _ _ _ _ _ _ _ _ B _ _); lia.
  - (* DecreaseRewards *)
    destruct P1 as [-> P1], P2 as [-> P2], P3 as [-> P3]. subst. pose proof P1 as (O1 & E1 & K1 & _). pose proof P2 as (O2 & _). pose proof P3 as (O3 & _).
    destruct (stake3 _ _ _ _ _ _ _ _ m' n' o' PL O1 O2 O3) as [PL2 EL].
    exists g, h. split; [exact PL2|]. unfold len in *. rewrite (keys_length _ _ K1). rewrite EL. apply (bounds_none 2 ltac:(lia)); lia.
Qed.

(** ** Pools *)
Definition akin (i j : ix) : Prop := match i, j with FillVault _ d, FillVault _ e => d = e | _, _ => times 1 i j end.
Lemma joint_akin i j h : joint i j h -> akin i j /\ akin i h.
Proof. destruct i, j, h; cbn [joint akin times]; intros H; destruct H; auto; try contradiction. destruct H0. auto. Qed.

Lemma total_same v w v' w' : same_stakes v w -> only_total v v' -> only_total w w' ->
  map fst (wp_diffs v') = map fst (wp_diffs w') -> (forall d, all w' d = all v' d) -> same_stakes v' w'.
Proof.
  intros [D A E C] (_ & _ & _ & _ & I1 & E1 & B1 & _ & _ & C1) (_ & _ & _ & _ & I2 & E2 & B2 & _ & _ & C2) K H.
  constructor; [exact K|exact H| |]; rewrite ?E1, ?E2, ?B1, ?B2, ?C1, ?C2; assumption.
Qed.
Lemma pstep_same ts i j b v w v' w' : akin i j ->
  ascending (wp_diffs v) -> ascending (wp_diffs w) -> ascending (wp_diffs v') -> ascending (wp_diffs w') ->
  same_stakes v w -> pstep (ts, i, b) v v' -> pstep (ts, j, b) w w' -> same_stakes v' w'.
Proof.
  intros LE A1 A2 A1' A2' U P1 P2.
  destruct i, j; cbn [akin times] in LE; try contradiction; cbn [pstep] in P1, P2; try (subst; exact U).
  - (* FillVault *) subst. destruct U as [D A E C]. constructor; try assumption; reflexivity.
  - (* DepositMining *)
    destruct LE as [<- ->]. destruct P1 as (O1 & T1 & S1 & _), P2 as (O2 & T2 & S2 & _).
    destruct (scheduled_both _ _ _ _ _ _ _ _ (ss_dates _ _ U) A1 A2 A1' A2' S1 S2) as (K & cc & HH).
    eapply total_same; [exact U|exact O1|exact O2|exact K|]. intros d. destruct (HH d) as [H1 H2]. pose proof (ss_all _ _ U d) as Q.
    unfold all in *. rewrite T1, T2, H1, H2, (there_times 1). destruct (cc d); lia.
  - (* WithdrawMining *)
    subst. destruct P1 as (O1 & T1 & S1), P2 as (O2 & T2 & S2).
    eapply total_same; [exact U|exact O1|exact O2|rewrite S1, S2; apply keys_after; exact (ss_dates _ _ U)|].
    intros d. pose proof (ss_all _ _ U (Z.max d (day_start ts))) as Q. unfold all in *. rewrite T1, T2, S1, S2, !due_late, (there_times 1). lia.
  - (* ExtendStake *)
    destruct LE as (<- & <- & <- & -> & ->). destruct P1 as (O1 & T1 & S1 & _), P2 as (O2 & T2 & S2 & _).
    destruct (scheduled_both _ _ _ _ _ _ _ _ (ss_dates _ _ U) A1 A2 A1' A2' S1 S2) as (K & cc & HH).
    eapply total_same; [exact U|exact O1|exact O2|exact K|]. intros d. destruct (HH d) as [H1 H2]. pose proof (ss_all _ _ U d) as Q.
    unfold all in *. rewrite T1, T2, H1, H2, (there_times 1). unfold counted. destruct (cc d), (unexpired _ _ ts); lia.
  - (* DistributeRewards *)
    destruct P1 as (O1 & T1 & S1 & Y1 & N1), P2 as (O2 & T2 & S2 & Y2 & N2). pose proof U as [D A E K].
    assert (SS : map fst (wp_ci v') = map fst (wp_ci w') -> same_stakes v' w').
    { constructor; [rewrite S1, S2; apply keys_after; exact D| | |assumption].
      - intros d. specialize (A (Z.max d (day_start ts))). unfold all in *. rewrite T1, T2, S1, S2, !due_late. pose proof (ss_all _ _ U (day_start ts)). unfold all in *. lia.
      - destruct O1 as (_ & _ & _ & _ & -> & _), O2 as (_ & _ & _ & _ & -> & _). exact E. }
    apply SS. destruct (date_or_not (day_start ts) (wp_ci v)) as [HD|HD].
    + destruct (Y1 HD) as (C1 & _). destruct (Y2 (proj1 (has_keys _ _ _ K) HD)) as (C2 & _). rewrite C1, C2. exact K.
    + destruct (N1 HD) as (_ & _ & C1). destruct (N2 (fun H => HD (proj2 (has_keys _ _ _ K) H))) as (_ & _ & C2).
      rewrite (keys_length _ _ K) in C1. rewrite C1, C2. destruct (Z.of_nat (length (wp_ci w)) <? 1095); [|exact K]. rewrite !map_app, K. reflexivity.
  - (* ChangeDelegate *)
    subst. destruct P1 as (O1 & S1 & T1), P2 as (O2 & S2 & T2).
    eapply total_same; [exact U|exact O1|exact O2|rewrite S1, S2; exact (ss_dates _ _ U)|].
    intros d. pose proof (ss_all _ _ U d) as Q. unfold all in *. rewrite T1, T2, S1, S2, !(there_times 1). lia.
  - (* Slash *)
    destruct LE as (<- & -> & ->). destruct P1 as (O1 & T1 & S1), P2 as (O2 & T2 & S2).
    match type of S1 with match ?d with _ => _ end => destruct d as [u|] end.
    + pose proof S1 as (_ & _ & K1 & _). pose proof S2 as (_ & _ & K2 & _).
      eapply total_same; [exact U|exact O1|exact O2|rewrite K1, K2; apply keys_after; exact (ss_dates _ _ U)|].
      intros d. pose proof (ss_all _ _ U (Z.max d (day_start ts))) as Q. unfold all in *.
      rewrite (lowered_less _ _ _ _ d (ascending_after _ _ A1) S1), (lowered_less _ _ _ _ d (ascending_after _ _ A2) S2), T1, T2, !due_late.
      destruct (_ <=? d); lia.
    + eapply total_same; [exact U|exact O1|exact O2|rewrite S1, S2; apply keys_after; exact (ss_dates _ _ U)|].
      intros d. pose proof (ss_all _ _ U (Z.max d (day_start ts))) as Q. unfold all in *. rewrite T1, T2, S1, S2, !due_late. lia.
Qed.

(** calls that hand nothing out and fill nothing in leave the budget and the history alone *)
Lemma pstep_quiet ts i b v v' : (match i with FillVault _ _ | DistributeRewards => False | _ => True end) -> pstep (ts, i, b) v v' ->
  p_avail (wp v') = p_avail (wp v) /\ wp_ci v' = wp_ci v.
Proof.
  intros Hi P. assert (OT : only_total v v' -> p_avail (wp v') = p_avail (wp v) /\ wp_ci v' = wp_ci v).
  { intros (_ & _ & _ & _ & I1 & E1 & B1 & _ & _ & C1). split; assumption. }
  destruct i; cbn [pstep] in P; try contradiction; try (subst; split; reflexivity); apply OT; apply P.
Qed.

(** [n] distributions at stakes of [T] or more, since the rises differed by [A0] and [B0] *)
Record ample3 (A0 B0 T n : Z) (v w u : wpool) : Prop := {
  a3_w : same_stakes v w;
  a3_u : same_stakes v u;
  a3_gap : 0 <= p_avail (wp v) + p_avail (wp w) - p_avail (wp u);
  a3_room : exists pos neg, 0 <= neg /\ pos <= n /\ pos - neg = p_avail (wp v) + p_avail (wp w) - p_avail (wp u) /\
    T * (above 1 0 0 (summed (wp_ci v) (wp_ci w)) (wp_ci u) - A0) <= P16 * pos + 2 * T * n /\
    T * (below 1 0 0 (summed (wp_ci v) (wp_ci w)) (wp_ci u) - B0) <= P16 * neg + T * n }.

Lemma parts3 a b c x ts : 0 <= a -> 0 <= b -> 0 <= c -> 0 <= a + b - c ->
  let d := daily_part c x ts - (daily_part a x ts + daily_part b x ts) in 0 <= a + b - c + d /\ d <= 1.
Proof.
  intros Ha Hb Hc Hg. cbv zeta. unfold daily_part. set (n := Z.max 0 (x - ts) / 86400). assert (0 <= n) by (apply Z.div_pos; lia). clearbody n.
  destruct (Z.eqb_spec n 0); [lia|].
  pose proof (Z.div_mod a n ltac:(lia)) as Da. pose proof (Z.div_mod b n ltac:(lia)) as Db. pose proof (Z.div_mod c n ltac:(lia)) as Dc.
  pose proof (Z.mod_pos_bound a n ltac:(lia)) as Ma. pose proof (Z.mod_pos_bound b n ltac:(lia)) as Mb. pose proof (Z.mod_pos_bound c n ltac:(lia)) as Mc.
  set (qa := a / n) in *. set (qb := b / n) in *. set (qc := c / n) in *. set (ra := a mod n) in *. set (rb := b mod n) in *. set (rc := c mod n) in *.
  clearbody qa qb qc ra rb rc. subst a b c.
  set (k := qa + qb - qc). assert (E : n * qa + ra + (n * qb + rb) - (n * qc + rc) = n * k + (ra + rb - rc)) by (unfold k; ring). rewrite E in *.
  replace (qc - (qa + qb)) with (- k) by (unfold k; ring). clearbody k. split.
  - destruct (Z_le_gt_dec k 0) as [P|P]; [lia|nia].
  - destruct (Z_le_gt_dec (- 1) k) as [P|P]; [lia|]. assert (n * k <= n * (- 2)) by nia. lia.
Qed.
Lemma rises3 T0 t r1 r2 r3 : 0 <= T0 <= t -> 0 < t ->
  let z := P16 * r3 / t - (P16 * r1 / t + P16 * r2 / t) in let d := r3 - (r1 + r2) in
  T0 * Z.max 0 z <= P16 * Z.max 0 d + 2 * T0 /\ T0 * Z.max 0 (- z) <= P16 * Z.max 0 (- d) + T0.
Proof.
  intros HT Ht. cbv zeta.
  pose proof (Z.div_mod (P16 * r1) t ltac:(lia)) as D1. pose proof (Z.div_mod (P16 * r2) t ltac:(lia)) as D2. pose proof (Z.div_mod (P16 * r3) t ltac:(lia)) as D3.
  pose proof (Z.mod_pos_bound (P16 * r1) t Ht) as M1. pose proof (Z.mod_pos_bound (P16 * r2) t Ht) as M2. pose proof (Z.mod_pos_bound (P16 * r3) t Ht) as M3.
  set (i1 := P16 * r1 / t) in *. set (i2 := P16 * r2 / t) in *. set (i3 := P16 * r3 / t) in *.
  set (k1 := (P16 * r1) mod t) in *. set (k2 := (P16 * r2) mod t) in *. set (k3 := (P16 * r3) mod t) in *. clearbody i1 i2 i3 k1 k2 k3.
  set (z := i3 - (i1 + i2)). assert (Z1 : t * z = P16 * (r3 - (r1 + r2)) + (k1 + k2) - k3) by (unfold z; lia).
  set (d := r3 - (r1 + r2)) in *. clearbody z d. clear D1 D2 D3 i1 i2 i3 r1 r2 r3. split.
  - destruct (Z_le_gt_dec z 2) as [H|H]; [assert (T0 * Z.max 0 z <= T0 * 2) by (apply Z.mul_le_mono_nonneg_l; lia); lia|].
    rewrite (Z.max_r 0 z) by lia. assert (X : T0 * (z - 2) <= t * (z - 2)) by (apply Z.mul_le_mono_nonneg_r; lia). lia.
  - destruct (Z_le_gt_dec (- z) 1) as [H|H]; [assert (T0 * Z.max 0 (- z) <= T0 * 1) by (apply Z.mul_le_mono_nonneg_l; lia); lia|].
    rewrite (Z.max_r 0 (- z)) by lia. assert (X : T0 * (- z - 1) <= t * (- z - 1)) by (apply Z.mul_le_mono_nonneg_r; lia). lia.
Qed.

Lemma pstep3 A0 B0 T n ts i j h b v w u v' w' u' :
  0 <= T -> (i = DistributeRewards -> T <= p_total (wp v')) -> joint i j h -> sound_pool ts i v ->
  0 <= p_avail (wp v) -> 0 <= p_avail (wp w) -> 0 <= p_avail (wp u) ->
  (Z.of_nat (length (wp_ci v)) < 1095 -> p_index (wp v) = last_from 0 (wp_ci v)) ->
  (Z.of_nat (length (wp_ci w)) < 1095 -> p_index (wp w) = last_from 0 (wp_ci w)) ->
  (Z.of_nat (length (wp_ci u)) < 1095 -> p_index (wp u) = last_from 0 (wp_ci u)) ->
  ascending (wp_diffs v) -> ascending (wp_diffs w) -> ascending (wp_diffs u) -> ascending (wp_diffs v') -> ascending (wp_diffs w') -> ascending (wp_diffs u') ->
  ample3 A0 B0 T n v w u -> pstep (ts, i, b) v v' -> pstep (ts, j, b) w w' -> pstep (ts, h, b) u u' ->
  ample3 A0 B0 T (n + if hands_out (ts, i, b, []) then 1 else 0) v' w' u'.
Proof.
  intros HT QT LE SO Hav Haw Hau Lv Lw Lu A1 A2 A3 A1' A2' A3' U P1 P2 P3.
  destruct (joint_akin _ _ _ LE) as [K2 K3].
  pose proof (pstep_same _ _ _ _ _ _ _ _ K2 A1 A2 A1' A2' (a3_w _ _ _ _ _ _ _ U) P1 P2) as S2.
  pose proof (pstep_same _ _ _ _ _ _ _ _ K3 A1 A3 A1' A3' (a3_u _ _ _ _ _ _ _ U) P1 P3) as S3.
  assert (QU : hands_out (ts, i, b, []) = false ->
    (p_avail (wp v') = p_avail (wp v) /\ wp_ci v' = wp_ci v) -> (p_avail (wp w') = p_avail (wp w) /\ wp_ci w' = wp_ci w) ->
    (p_avail (wp u') = p_avail (wp u) /\ wp_ci u' = wp_ci u) -> ample3 A0 B0 T (n + if hands_out (ts, i, b, []) then 1 else 0) v' w' u').
  { intros -> [X1 Y1] [X2 Y2] [X3 Y3]. rewrite Z.add_0_r. destruct U as [_ _ G R].
    constructor; [exact S2|exact S3| |]; rewrite X1, X2, X3, ?Y1, ?Y2, ?Y3; assumption. }
  destruct i, j; cbn [joint times] in LE; try (destruct LE; contradiction); destruct h; cbn [joint times] in LE; try (destruct LE; contradiction);
    try (apply QU; [reflexivity|refine (pstep_quiet _ _ _ _ _ _ P1); exact I|refine (pstep_quiet _ _ _ _ _ _ P2); exact I|refine (pstep_quiet _ _ _ _ _ _ P3); exact I]); clear QU.
  - (* FillVault *)
    destruct LE as (-> & -> & ->). cbn [pstep] in P1, P2, P3. cbn [hands_out]. rewrite Z.add_0_r. destruct U as [_ _ G (pos & neg & R)].
    constructor; [exact S2|exact S3| |]; subst; cbn [filled wp p_avail p_ends_at wp_ci]; [lia|]. exists pos, neg. repeat split; try apply R. lia.
  - (* DistributeRewards *)
    cbn [pstep] in P1, P2, P3. cbn [hands_out].
    destruct P1 as (O1 & T1 & C1 & Y1 & N1), P2 as (O2 & T2 & C2 & Y2 & N2), P3 as (O3 & T3 & C3 & Y3 & N3).
    destruct (SO eq_refl) as (_ & HL & SD). fold (all v (day_start ts)) in T1, HL, SD. fold (all w (day_start ts)) in T2. fold (all u (day_start ts)) in T3.
    clear C1 C2 C3. pose proof U as [[_ B2 E2 D2] [_ B3 E3 D3] G (pos & neg & Hn & Hp & Hg & Hu & Hb)].
    destruct (date_or_not (day_start ts) (wp_ci v)) as [HD|HD].
    + destruct (Y1 HD) as (C1 & X1 & V1). destruct (Y2 (proj1 (has_keys _ _ _ D2) HD)) as (C2 & X2 & V2). destruct (Y3 (proj1 (has_keys _ _ _ D3) HD)) as (C3 & X3 & V3).
      constructor; [exact S2|exact S3|rewrite V1, V2, V3; exact G|]. rewrite C1, C2, C3, V1, V2, V3.
      exists pos, neg. repeat split; try assumption; lia.
    + destruct SD as [SD|[SD _]]; [contradiction|].
      destruct (N1 HD) as (X1 & V1 & C1). destruct (N2 (fun H => HD (proj2 (has_keys _ _ _ D2) H))) as (X2 & V2 & C2). destruct (N3 (fun H => HD (proj2 (has_keys _ _ _ D3) H))) as (X3 & V3 & C3).
      pose proof (keys_length _ _ D2) as LL2. pose proof (keys_length _ _ D3) as LL3. rewrite <- LL2 in C2, Lw. rewrite <- LL3 in C3, Lu. rewrite <- E2 in X2, V2. rewrite <- E3 in X3, V3.
      set (r1 := daily_part (p_avail (wp v)) (p_ends_at (wp v)) ts) in *. set (r2 := daily_part (p_avail (wp w)) (p_ends_at (wp v)) ts) in *. set (r3 := daily_part (p_avail (wp u)) (p_ends_at (wp v)) ts) in *.
      pose proof (parts3 (p_avail (wp v)) (p_avail (wp w)) (p_avail (wp u)) (p_ends_at (wp v)) ts Hav Haw Hau G) as PP. cbv zeta in PP. fold r1 r2 r3 in PP.
      assert (TT : 0 <= T <= all v (day_start ts)) by (split; [exact HT|]; rewrite <- T1; exact (QT eq_refl)).
      pose proof (rises3 T (all v (day_start ts)) r1 r2 r3 TT ltac:(lia)) as RR. cbv zeta in RR.
      constructor; [exact S2|exact S3|rewrite V1, V2, V3; lia|].
      exists (pos + Z.max 0 (r3 - (r1 + r2))), (neg + Z.max 0 (- (r3 - (r1 + r2)))).
      split; [lia|]. split; [lia|]. split; [rewrite V1, V2, V3; lia|]. rewrite C1, C2, C3.
      destruct (Z.ltb_spec (Z.of_nat (length (wp_ci v))) 1095) as [HH|HH]; [|split; lia].
      rewrite (summed_app _ _ _ _ D2). cbn [summed].
      destruct (above_snoc 1 (day_start ts) (p_index (wp v') + p_index (wp w')) (p_index (wp u')) (summed (wp_ci v) (wp_ci w)) (wp_ci u) 0 0
        ltac:(rewrite (summed_keys _ _ D2); exact D3)) as [-> ->].
      rewrite (summed_all _ _ D2). rewrite X1, X2, X3, T1, T2, T3, (Lv HH), (Lw HH), (Lu HH), (B2 (day_start ts)), (B3 (day_start ts)) in *.
      set (z1 := P16 * r1 / all v (day_start ts)) in *. set (z2 := P16 * r2 / all v (day_start ts)) in *. set (z3 := P16 * r3 / all v (day_start ts)) in *.
      match goal with |- context [Z.max 0 ?z] => replace z with (z3 - (z1 + z2)) by ring end.
      split; [lia|]. match goal with |- context [below 1 _ _ _ _ + Z.max 0 ?z] => replace z with (- (z3 - (z1 + z2))) by ring end. lia.
Qed.

(** ** One step after the other *)
Lemma put3_more ci1 ci2 ci3 r1 r2 r3 m n o g h : map fst ci1 = map fst ci2 -> map fst ci1 = map fst ci3 ->
  put3 ci1 ci2 ci3 m n o g h -> put3 (ci1 ++ r1) (ci2 ++ r2) (ci3 ++ r3) m n o g h.
Proof.
  intros K K' (k & Hk & I1 & I2 & I3 & E). exists k. pose proof (keys_length _ _ K). pose proof (keys_length _ _ K'). pose proof (summed_length _ _ K).
  rewrite (summed_app _ _ _ _ K), app_length, !take_app_le by lia. split; [lia|auto].
Qed.

Lemma rwalks3 A0 B0 S1 S2 T b1 v m x v' m' : 0 <= T -> rwalk (fun w m => m_share (wm m) <= S1 /\ m_sfo (wm m) <= S2 /\ T <= p_total (wp w)) b1 v m x v' m' ->
  forall b2 b3, Forall3 together b1 b2 b3 -> forall w n y w' n' u o q u' o' g h z, rwalk (fun _ _ => True) b2 w n y w' n' -> rwalk (fun _ _ => True) b3 u o q u' o' ->
  ample3 A0 B0 T z v w u -> mining_times 1 m n -> mining_times 1 m o -> put3 (wp_ci v) (wp_ci w) (wp_ci u) m n o g h ->
  ample3 A0 B0 T (z + how_many hands_out b1) v' w' u' /\ mining_times 1 m' n' /\ mining_times 1 m' o' /\ exists g' h', put3 (wp_ci v') (wp_ci w') (wp_ci u') m' n' o' g' h' /\
    bounds 2 (S1 + S2) ((q + excess3 m' n' o' - (x + y)) - excess3 m n o) g h g' h' (how_many works b1 + how_many plans b1 + len m - len m').
Proof.
  intros HT. induction 1 as [v m G M Q|ts i bs l b v m p v1 m1 x v' m' G M (Q1 & Q2 & Q3) LV BO S P H IH]; intros b2 b3 B w n y w' n' u o q u' o' g h z W V PT MT MT' PL.
  - inversion B; subst. inversion W; subst. inversion V; subst. change (how_many hands_out []) with 0. rewrite Z.add_0_r. split; [exact PT|]. split; [exact MT|]. split; [exact MT'|]. exists g, h. split; [exact PL|].
    unfold how_many. cbn [filter length]. apply (bounds_none 2 ltac:(lia)); lia.
  - inversion B as [|? [[[ts2 j] cs] l2] [[[ts3 h0] ds] l3] ? c2 c3 BT BF]; subst.
    inversion W as [|? ? ? ? ? ? ? p2 w1 n1 y1 ? ? G2 M2 _ LW BO2 SS2 P2 W2]; subst. inversion V as [|? ? ? ? ? ? ? p3 u1 o1 q1 ? ? G3 M3 _ LU BO3 SS3 P3 V2]; subst.
    destruct BT as ((-> & ->) & (-> & ->) & (-> & ->) & E). destruct P as [P1 PM1], P2 as [P2 PM2], P3 as [P3 PM3].
    destruct (rwalk_good _ _ _ _ _ _ _ H) as (G1' & M1' & Q1' & Q2' & Q3'). destruct (rwalk_good _ _ _ _ _ _ _ W2) as (G2' & M2' & _). destruct (rwalk_good _ _ _ _ _ _ _ V2) as (G3' & M3' & _).
    destruct G as (t1 & G), G2 as (t2 & G2), G3 as (t3 & G3), G1' as (t4 & G1'), G2' as (t5 & G2'), G3' as (t6 & G3').
    assert (PT1 : ample3 A0 B0 T (z + if hands_out (ts, i, bs, []) then 1 else 0) v1 w1 u1).
    { eapply (pstep3 A0 B0 T z ts i j h0 bs v w u); [exact HT|intros _; exact Q3'|exact E|apply S| | | |exact LV|exact LW|exact LU|exact (pw_diffs_asc _ _ G)|exact (pw_diffs_asc _ _ G2)|exact (pw_diffs_asc _ _ G3)
        |exact (pw_diffs_asc _ _ G1')|exact (pw_diffs_asc _ _ G2')|exact (pw_diffs_asc _ _ G3')|exact PT|exact P1|exact P2|exact P3].
      - pose proof (pw_avail _ _ G) as X. unfold is_u64 in X. lia.
      - pose proof (pw_avail _ _ G2) as X. unfold is_u64 in X. lia.
      - pose proof (pw_avail _ _ G3) as X. unfold is_u64 in X. lia. }
    destruct (pstep_ci _ _ _ P1) as (s1 & F1). destruct (pstep_ci _ _ _ P2) as (s2 & F2). destruct (pstep_ci _ _ _ P3) as (s3 & F3).
    pose proof (ss_days _ _ (a3_w _ _ _ _ _ _ _ PT)) as KC. pose proof (ss_days _ _ (a3_u _ _ _ _ _ _ _ PT)) as KC3.
    assert (ST : mining_times 1 m1 n1 /\ mining_times 1 m1 o1 /\ exists g' h', put3 (wp_ci v) (wp_ci w) (wp_ci u) m1 n1 o1 g' h' /\
      bounds 2 (S1 + S2) ((p3 + excess3 m1 n1 o1 - (p + p2)) - excess3 m n o) g h g' h' (how_many works [(ts, i, bs, l)] + how_many plans [(ts, i, bs, l)] + len m - len m1)).
    { destruct l as [|l0 l].
      - destruct PM1 as [-> ->], PM2 as [-> ->], PM3 as [-> ->]. split; [exact MT|]. split; [exact MT'|]. exists g, h. split; [exact PL|]. unfold how_many. cbn [filter works plans length]. apply (bounds_none 2 ltac:(lia)); lia.
      - assert (TI : times 1 i j /\ times 1 i h0).
        { destruct i; cbn [page] in PM1; try contradiction; exact E. }
        destruct (page3 S1 S2 ts i j h0 (l0 :: l) (wp_ci v) (wp_ci w) (wp_ci u) m n o p p2 p3 m1 n1 o1 g h KC KC3 (pw_ci_grow _ _ G) (pw_ci_grow _ _ G2) (pw_ci_grow _ _ G3) M M2 M3 M1' M2' M3'
          Q1 Q2 Q2' (proj1 TI) (proj2 TI) BO ltac:(apply S; discriminate) MT MT' PL PM1 PM2 PM3) as (MT1 & MT1' & g' & h' & PL1 & B1).
        split; [exact MT1|]. split; [exact MT1'|]. exists g', h'. split; [exact PL1|]. destruct (works_cons ts i bs l0 l []) as [-> ->]. unfold how_many. cbn [filter length]. refine (bounds_more 2 ltac:(lia) _ _ _ _ _ _ _ _ _ B1 _ _); lia. }
    destruct ST as (MT1 & MT1' & g1 & h1 & PL1 & B1).
    assert (PL2 : put3 (wp_ci v1) (wp_ci w1) (wp_ci u1) m1 n1 o1 g1 h1) by (rewrite F1, F2, F3; apply put3_more; assumption).
    destruct (IH _ _ BF _ _ _ _ _ _ _ _ _ _ _ _ _ W2 V2 PT1 MT1 MT1' PL2) as (PT3 & MT3 & MT3' & g3 & h3 & PL3 & B3).
    rewrite !how_many_cons in *. change (how_many works []) with 0 in B1. change (how_many plans []) with 0 in B1.
    replace (z + ((if hands_out (ts, i, bs, l) then 1 else 0) + how_many hands_out b)) with (z + (if hands_out (ts, i, bs, []) then 1 else 0) + how_many hands_out b) by (cbn [hands_out]; lia).
    split; [exact PT3|]. split; [exact MT3|]. split; [exact MT3'|]. exists g3, h3. split; [exact PL3|]. refine (bounds_add 2 _ _ _ _ _ _ _ _ _ _ _ _ _ B1 B3 _ _); lia.
Qed.

Lemma rewards_together e1 e2 e3 : env_ok e1 -> env_ok e2 -> env_ok e3 ->
  forall P1 P2 P3 k1 k2 k3 now1 L1 now1' L1' now2 L2 now2' L2' now3 L3 now3' L3' b d f x y z v w u v' w' u' m n o m' n' o' s t T,
  0 <= T -> reached e1 now1 L1 -> reached e2 now2 L2 -> reached e3 now3 L3 ->
  full_log e1 P1 k1 now1 L1 now1' L1' b x -> full_log e2 P2 k2 now2 L2 now2' L2' d y -> full_log e3 P3 k3 now3 L3 now3' L3' f z -> Forall3 together b d f ->
  throughout e1 P1 k1 now1 L1 b (fun w m => m_share (wm m) <= s /\ m_sfo (wm m) <= t /\ T <= p_total (wp w)) ->
  is_pool e1 L1 P1 v -> is_pool e2 L2 P2 w -> is_pool e3 L3 P3 u -> same_stakes v w -> same_stakes v u ->
  p_avail (wp u) = p_avail (wp v) + p_avail (wp w) ->
  is_mining e1 L1 k1 m -> is_mining e2 L2 k2 n -> is_mining e3 L3 k3 o -> mining_times 1 m n -> mining_times 1 m o ->
  credited v m -> credited w n -> credited u o -> m_unclaimed (wm o) = m_unclaimed (wm m) + m_unclaimed (wm n) ->
  is_pool e1 L1' P1 v' -> is_pool e2 L2' P2 w' -> is_pool e3 L3' P3 u' -> is_mining e1 L1' k1 m' -> is_mining e2 L2' k2 n' -> is_mining e3 L3' k3 o' ->
  let N := how_many hands_out b in let K := how_many works b + how_many plans b + Z.of_nat (length (wm_diffs m)) in
  (same_stakes v' w' /\ same_stakes v' u' /\ mining_times 1 m' n' /\ mining_times 1 m' o') /\
  0 <= p_avail (wp v') + p_avail (wp w') - p_avail (wp u') <= N /\
  let apart := x + m_unclaimed (wm m') + (y + m_unclaimed (wm n')) in let whole := z + m_unclaimed (wm o') in
  T * (P16 * (whole - apart)) <= (s + t) * (P16 * N + 2 * T * N) + T * (2 * (P16 - 1) * K) /\
  T * (P16 * (apart - whole)) <= (s + t) * (P16 * N + T * N) + T * ((P16 - 1) * K).
Proof.
  intros H1 H2 H3 P1 P2 P3 k1 k2 k3 now1 L1 now1' L1' now2 L2 now2' L2' now3 L3 now3' L3' b d f x y z v w u v' w' u' m n o m' n' o' s t T HT R1 R2 R3 D1 D2 D3 F Q V W U SS SS3 EA M N O MT MT3 I1 I2 I3 UN V' W' U' M' N' O'.
  destruct (full_log_running e1 _ _ _ _ _ _ _ _ D1) as [RU1 OP1]. destruct (full_log_running e2 _ _ _ _ _ _ _ _ D2) as [RU2 OP2]. destruct (full_log_running e3 _ _ _ _ _ _ _ _ D3) as [RU3 OP3].
  destruct (full_log_rwalk e1 H1 _ _ _ now1 L1 b _ _ _ _ _ _ D1 R1 [] 0 (fl_nil _ _ _ _ _ RU1 OP1) eq_refl Q v m V M) as (v1 & m1 & X1 & Y1 & S1).
  rewrite (pool_fun e1 _ _ _ _ X1 V'), (mining_fun e1 _ _ _ _ Y1 M') in S1.
  destruct (full_log_rwalk e2 H2 (fun _ _ => True) _ _ now2 L2 d _ _ _ _ _ _ D2 R2 [] 0 (fl_nil _ _ _ _ _ RU2 OP2) eq_refl ltac:(intros ? ? ? ? ? ? ? _ _ _ _; exact I) w n W N) as (w1 & n1 & X2 & Y2 & S2).
  rewrite (pool_fun e2 _ _ _ _ X2 W'), (mining_fun e2 _ _ _ _ Y2 N') in S2.
  destruct (full_log_rwalk e3 H3 (fun _ _ => True) _ _ now3 L3 f _ _ _ _ _ _ D3 R3 [] 0 (fl_nil _ _ _ _ _ RU3 OP3) eq_refl ltac:(intros ? ? ? ? ? ? ? _ _ _ _; exact I) u o U O) as (u1 & o1 & X3 & Y3 & S3).
  rewrite (pool_fun e3 _ _ _ _ X3 U'), (mining_fun e3 _ _ _ _ Y3 O') in S3.
  pose proof (ss_days _ _ SS) as KW. pose proof (ss_days _ _ SS3) as KU.
  set (c0 := summed (wp_ci v) (wp_ci w)). set (A0 := above 1 0 0 c0 (wp_ci u)). set (B0 := below 1 0 0 c0 (wp_ci u)).
  assert (AM : ample3 A0 B0 T 0 v w u).
  { constructor; [exact SS|exact SS3|rewrite EA; lia|]. exists 0, 0. fold c0 A0 B0. rewrite EA. lia. }
  assert (PL0 : put3 (wp_ci v) (wp_ci w) (wp_ci u) m n o A0 B0).
  { assert (FW : firstn (length (wp_ci v)) (wp_ci w) = wp_ci w) by (rewrite (keys_length _ _ KW); apply firstn_all).
    assert (FU : firstn (length (wp_ci v)) (wp_ci u) = wp_ci u) by (rewrite (keys_length _ _ KU); apply firstn_all).
    assert (FC : firstn (length (wp_ci v)) c0 = c0) by (rewrite <- (summed_length _ _ KW); apply firstn_all).
    exists (length (wp_ci v)). fold c0. rewrite firstn_all, FW, FU, FC. auto 7 with lia. }
  destruct (rwalks3 A0 B0 s t T _ _ _ _ _ _ HT S1 _ _ F _ _ _ _ _ _ _ _ _ _ A0 B0 0 S2 S3 AM MT MT3 PL0) as (PT' & MT' & MT3' & g' & h' & (k' & Hk' & J1 & J2 & J3 & -> & ->) & B).
  destruct PT' as [SS' SS3' G' (pos & neg & Hn & Hp & Hg & Hu & Hb)]. cbv zeta. split; [auto|]. split; [lia|].
  destruct (rwalk_good _ _ _ _ _ _ _ S1) as (_ & Wm & Q1 & Q2 & _). pose proof (mw_share _ Wm) as B1. pose proof (mw_sfo _ Wm) as B2. unfold is_u64 in B1, B2.
  set (cs := summed (wp_ci v') (wp_ci w')) in *. assert (KS : map fst cs = map fst (wp_ci u')) by (unfold cs; rewrite (summed_keys _ _ (ss_days _ _ SS')); exact (ss_days _ _ SS3')).
  assert (LS : length cs = length (wp_ci v')) by (apply summed_length; exact (ss_days _ _ SS')).
  rewrite <- LS in Hk'. pose proof (level_levels 1 k' (length cs) Hk' cs (wp_ci u') 0 0 KS) as (Z1 & Z2 & _).
  assert (FW : firstn (length cs) (wp_ci u') = wp_ci u') by (rewrite (keys_length _ _ KS); apply firstn_all).
  rewrite firstn_all, FW in Z1, Z2.
  set (K := how_many works b + how_many plans b + Z.of_nat (length (wm_diffs m))).
  apply (bounds_more 2 ltac:(lia) _ _ _ _ _ _ _ ((z + m_unclaimed (wm o')) - (x + m_unclaimed (wm m') + (y + m_unclaimed (wm n')))) K) in B; [|unfold excess3; lia|unfold len, K; lia].
  destruct B as [C1 C2]. rewrite !Z.add_0_l in *. set (N0 := how_many hands_out b) in *.
  set (q := z + m_unclaimed (wm o') - (x + m_unclaimed (wm m') + (y + m_unclaimed (wm n')))) in *.
  replace (x + m_unclaimed (wm m') + (y + m_unclaimed (wm n')) - (z + m_unclaimed (wm o'))) with (- q) by (unfold q; ring).
  set (g := above 1 0 0 (firstn k' cs) (firstn k' (wp_ci u'))) in *. set (h := below 1 0 0 (firstn k' cs) (firstn k' (wp_ci u'))) in *.
  assert (G1 : T * (g - A0) <= P16 * N0 + 2 * T * N0) by (assert (T * g <= T * above 1 0 0 cs (wp_ci u')) by (apply Z.mul_le_mono_nonneg_l; lia); lia).
  assert (G2 : T * (h - B0) <= P16 * N0 + T * N0) by (assert (T * h <= T * below 1 0 0 cs (wp_ci u')) by (apply Z.mul_le_mono_nonneg_l; lia); lia).
  apply (Z.mul_le_mono_nonneg_l _ _ T HT) in C1, C2. apply (Z.mul_le_mono_nonneg_l _ _ (s + t) ltac:(lia)) in G1, G2. clearbody A0 B0 g h q N0 K. split; lia.
Qed.
