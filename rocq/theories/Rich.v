(** Proofs of C94: the same history with other amounts of rewards. *)
From stdpp Require Import gmap.
From Verif Require Import Base OMap State Spec EffectSpec Ledger Program ResLemmas TreeLemmas AccrualLemmas RefreshLemmas WfLemmas LedgerLemmas LedgerSpec
  CodecLemmas History HistoryLemmas Changes AccessLemmas HistoryThms ReachThms EffectLemmas EffectMethods EffectThms EffectMore EffectCompare
  SuccessSpec SuccessThms LedgerCore Determined Commute CompleteSpec Complete PowerSpec Powers FreezeSpec Choice GapSpec Gap CapSpec Cap
  CoreInv Split DustSpec DebtSpec Debt IncomeSpec Income DiarySpec Diary LogSpec Log CompareSpec Compare LongerSpec Longer OwnSpec Own PartsSpec Parts ScaleSpec Scale RichSpec.

Local Notation P16 := 10000000000000000.

Section rich.
Context (c : Z) (Hc : 1 <= c).

(** ** Histories of distributions *)
(** [x] is at most [u] above and [w] below nought *)
Definition within (x u w : Z) : Prop := 0 <= u /\ 0 <= w /\ - w <= x <= u.
(** by how much the rises of the second index are above [c] times those of the first, and below *)
Fixpoint above (a b : Z) (s t : sched) : Z :=
  match s, t with (_, i) :: r, (_, j) :: q => Z.max 0 ((j - b) - c * (i - a)) + above i j r q | _, _ => 0 end.
Fixpoint below (a b : Z) (s t : sched) : Z :=
  match s, t with (_, i) :: r, (_, j) :: q => Z.max 0 (c * (i - a) - (j - b)) + below i j r q | _, _ => 0 end.
Lemma above_snoc d i j : forall s t a b, map fst s = map fst t ->
  above a b (s ++ [(d, i)]) (t ++ [(d, j)]) = above a b s t + Z.max 0 ((j - last_from b t) - c * (i - last_from a s)) /\
  below a b (s ++ [(d, i)]) (t ++ [(d, j)]) = below a b s t + Z.max 0 (c * (i - last_from a s) - (j - last_from b t)).
Proof.
  induction s as [|[k x] s IH]; intros [|[e y] t] a b H; cbn [map fst] in H; try discriminate; cbn [app above below last_from]; [split; ring|].
  injection H as _ H. destruct (IH t x y H) as [-> ->]. split; ring.
Qed.
Lemma level_first n : forall s t a b, map fst s = map fst t ->
  within ((last_from b (firstn n t) - b) - c * (last_from a (firstn n s) - a)) (above a b (firstn n s) (firstn n t)) (below a b (firstn n s) (firstn n t)).
Proof.
  unfold within. induction n as [|n IH]; intros [|[d i] s] [|[e j] t] a b H; cbn [map fst] in H; try discriminate; cbn [firstn last_from above below]; try lia.
  injection H as _ H. specialize (IH _ _ i j H). lia.
Qed.
Lemma level_levels n n' : (n <= n')%nat -> forall s t a b, map fst s = map fst t ->
  within ((last_from b (firstn n' t) - last_from b (firstn n t)) - c * (last_from a (firstn n' s) - last_from a (firstn n s)))
    (above a b (firstn n' s) (firstn n' t) - above a b (firstn n s) (firstn n t)) (below a b (firstn n' s) (firstn n' t) - below a b (firstn n s) (firstn n t)).
Proof.
  revert n'. induction n as [|n IH]; intros n' Hn s t a b H.
  - pose proof (level_first n' _ _ a b H) as F. rewrite !take_0. cbn [last_from above below]. unfold within in *. lia.
  - destruct n' as [|n']; [lia|]. destruct s as [|[k i] s], t as [|[e j] t]; cbn [map fst] in H; try discriminate; [cbn; unfold within; lia|].
    injection H as _ H. cbn [firstn last_from above below]. specialize (IH n' ltac:(lia) _ _ i j H). unfold within in *. lia.
Qed.
Lemma flat_both : forall s t a b, growing a s -> growing b t -> last_from a s = a -> last_from b t = b -> above a b s t = 0 /\ below a b s t = 0.
Proof.
  induction s as [|[k i] s IH]; intros [|[e j] t] a b G1 G2 E1 E2; try (split; reflexivity). cbn [growing last_from above below] in *.
  destruct G1 as [G1 G1'], G2 as [G2 G2']. pose proof (growing_last _ _ G1'). pose proof (growing_last _ _ G2').
  assert (X : i = a) by lia. assert (Y : j = b) by lia. rewrite X, Y in *. destruct (IH t a b) as [-> ->]; try assumption. lia.
Qed.
Lemma flat_places n n' : (n <= n')%nat -> forall s t a b, map fst s = map fst t -> growing a s -> growing b t ->
  last_from a (firstn n' s) = last_from a (firstn n s) -> last_from b (firstn n' t) = last_from b (firstn n t) ->
  above a b (firstn n' s) (firstn n' t) = above a b (firstn n s) (firstn n t) /\ below a b (firstn n' s) (firstn n' t) = below a b (firstn n s) (firstn n t).
Proof.
  revert n'. induction n as [|n IH]; intros n' Hn s t a b H G1 G2 E1 E2.
  - rewrite take_0 in *. cbn [last_from above below] in *. apply flat_both; try assumption; apply growing_first; assumption.
  - destruct n' as [|n']; [lia|]. destruct s as [|[k i] s], t as [|[e j] t]; cbn [map fst] in H; try discriminate; [split; reflexivity|].
    injection H as _ H. cbn [firstn last_from above below growing] in *. destruct (IH n' ltac:(lia) _ _ i j H (proj2 G1) (proj2 G2) E1 E2) as [-> ->]. split; reflexivity.
Qed.
Lemma growing_firsts n n' : (n <= n')%nat -> forall t a, growing a t -> last_from a (firstn n t) <= last_from a (firstn n' t).
Proof.
  revert n'. induction n as [|n IH]; intros n' Hn t a G.
  - rewrite take_0. cbn [last_from]. apply growing_last. apply growing_first. exact G.
  - destruct n' as [|n']; [lia|]. destruct t as [|[k i] t]; [cbn; lia|]. cbn [firstn last_from growing] in *. apply IH; [lia|apply G].
Qed.
(** from one place of the histories to another further up *)
Lemma level_up s t n n' : map fst s = map fst t -> growing 0 s -> growing 0 t ->
  last_from 0 (firstn n s) <= last_from 0 (firstn n' s) -> last_from 0 (firstn n t) <= last_from 0 (firstn n' t) ->
  within ((last_from 0 (firstn n' t) - last_from 0 (firstn n t)) - c * (last_from 0 (firstn n' s) - last_from 0 (firstn n s)))
    (above 0 0 (firstn n' s) (firstn n' t) - above 0 0 (firstn n s) (firstn n t)) (below 0 0 (firstn n' s) (firstn n' t) - below 0 0 (firstn n s) (firstn n t)).
Proof.
  intros F G1 G2 H1 H2. destruct (Nat.le_ge_cases n n') as [H|H]; [apply level_levels; assumption|].
  pose proof (growing_firsts n' n H s 0 G1) as Q1. pose proof (growing_firsts n' n H t 0 G2) as Q2.
  assert (E1 : last_from 0 (firstn n s) = last_from 0 (firstn n' s)) by lia. assert (E2 : last_from 0 (firstn n t) = last_from 0 (firstn n' t)) by lia.
  destruct (flat_places n' n H s t 0 0 F G1 G2 E1 E2) as [-> ->]. rewrite E1, E2. unfold within. lia.
Qed.

(** ** What is credited *)
Lemma floors2 a b u w : - w <= b - c * a <= u -> P16 * (b / P16 - c * (a / P16)) <= u + c * (P16 - 1) /\ P16 * (c * (a / P16) - b / P16) <= w + (P16 - 1).
Proof.
  intros H. pose proof (Z.div_mod a P16 ltac:(lia)). pose proof (Z.div_mod b P16 ltac:(lia)).
  pose proof (Z.mod_pos_bound a P16 ltac:(lia)). pose proof (Z.mod_pos_bound b P16 ltac:(lia)). nia.
Qed.
Lemma segment2 u1 u2 s S u w : within (u2 - c * u1) u w -> 0 <= s <= S -> - (S * w) <= u2 * s - c * (u1 * s) <= S * u.
Proof. intros (H1 & H2 & H3) H. replace (u2 * s - c * (u1 * s)) with (s * (u2 - c * u1)) by ring. nia. Qed.

Definition up_to (d : Z) (s t : sched) : Z := above 0 0 (firstn (lead d (map fst s)) s) (firstn (lead d (map fst s)) t).
Definition down_to (d : Z) (s t : sched) : Z := below 0 0 (firstn (lead d (map fst s)) s) (firstn (lead d (map fst s)) t).
Lemma earned_rich S ci1 ci2 ts :
  (forall d d', d <= d' -> within ((visible d' ci2 - visible d ci2) - c * (visible d' ci1 - visible d ci1)) (up_to d' ci1 ci2 - up_to d ci1 ci2) (down_to d' ci1 ci2 - down_to d ci1 ci2)) ->
  forall l1 l2 s1 s2 j1 j2 g h, ascending l1 -> map fst l1 = map fst l2 ->
  within ((visible ts ci2 - j2) - c * (visible ts ci1 - j1)) (up_to ts ci1 ci2 - g) (down_to ts ci1 ci2 - h) ->
  dates (fun d => d <= ts /\ within ((visible d ci2 - j2) - c * (visible d ci1 - j1)) (up_to d ci1 ci2 - g) (down_to d ci1 ci2 - h)) l1 ->
  (forall d, s2 - Spec.due d l2 = s1 - Spec.due d l1 /\ 0 <= s1 - Spec.due d l1 <= S) ->
  P16 * (earned ci2 s2 j2 l2 ts - c * earned ci1 s1 j1 l1 ts) <= S * (up_to ts ci1 ci2 - g) + c * (P16 - 1) * (1 + Z.of_nat (length l1)) /\
  P16 * (c * earned ci1 s1 j1 l1 ts - earned ci2 s2 j2 l2 ts) <= S * (down_to ts ci1 ci2 - h) + (P16 - 1) * (1 + Z.of_nat (length l1)).
Proof.
  intros St. induction l1 as [|[d x] r IH]; intros l2 s1 s2 j1 j2 g h Ha E Hj Hd Hs; destruct l2 as [|[d' x'] r']; cbn in E; try discriminate.
  - cbn [earned length]. destruct (Hs 0) as [Hs1 Hs2]. cbn [Spec.due] in Hs1, Hs2. replace s2 with s1 by lia.
    pose proof (floors2 _ _ _ _ (segment2 _ _ s1 S _ _ Hj ltac:(lia))). lia.
  - injection E as <- E. cbn [earned length].
    destruct (Hd d x (or_introl eq_refl)) as [Hdt Hjd].
    assert (Hge : forall k v, In (k, v) r -> d < k) by (intros; eapply Ha; eassumption).
    assert (Hge' : forall k v, In (k, v) r' -> d < k).
    { intros k v Hin. destruct (keys_in r' r k (eq_sym E)) as (v2 & H2); eauto. }
    assert (B0 : s2 = s1 /\ 0 <= s1 <= S).
    { specialize (Hs (d - 1)). cbn [Spec.due] in Hs. rewrite (proj2 (Z.leb_gt d (d - 1))) in Hs by lia.
      rewrite !due_nil_below in Hs; [lia| |]; intros k v Hin; [apply Hge in Hin|apply Hge' in Hin]; lia. }
    destruct B0 as [-> B0]. pose proof (floors2 _ _ _ _ (segment2 _ _ s1 S _ _ Hjd B0)) as F.
    destruct (IH r' (s1 - x) (s1 - x') (visible d ci1) (visible d ci2) (up_to d ci1 ci2) (down_to d ci1 ci2)) as [I1 I2].
    + apply Ha.
    + exact E.
    + apply St. exact Hdt.
    + intros k v Hin. destruct (Hd k v (or_intror Hin)) as [Hk _]. split; [assumption|]. apply Hge in Hin. apply St. lia.
    + intros k. destruct (Z_le_gt_dec d k).
      * specialize (Hs k). cbn [Spec.due] in Hs. rewrite (proj2 (Z.leb_le d k)) in Hs by assumption. lia.
      * rewrite !due_nil_below; [|intros k' v Hin; apply Hge in Hin; lia|intros k' v Hin; apply Hge' in Hin; lia].
        specialize (Hs d). cbn [Spec.due] in Hs. rewrite Z.leb_refl in Hs.
        rewrite !due_nil_below in Hs; [lia| |]; intros k' v Hin; [apply Hge in Hin|apply Hge' in Hin]; lia.
    + lia.
Qed.

(** ** Minings *)
Definition put_at (ci1 ci2 : sched) (m n : wmining) (g h : Z) : Prop :=
  exists k : nat, (k <= length ci1)%nat /\ m_index (wm m) = last_from 0 (firstn k ci1) /\ m_index (wm n) = last_from 0 (firstn k ci2) /\
    g = above 0 0 (firstn k ci1) (firstn k ci2) /\ h = below 0 0 (firstn k ci1) (firstn k ci2).
Definition excess (m n : wmining) : Z := m_unclaimed (wm n) - c * m_unclaimed (wm m).
Definition bounds (S x g h g' h' k : Z) : Prop :=
  P16 * x <= S * (g' - g) + c * (P16 - 1) * k /\ P16 * (- x) <= S * (h' - h) + (P16 - 1) * k.

Lemma refresh_rich S ts ci1 ci2 m n m' n' g h :
  map fst ci1 = map fst ci2 -> growing 0 ci1 -> growing 0 ci2 ->
  ascending (wm_diffs m) -> values is_u64 (wm_diffs m) -> 0 <= own m (day_start ts) -> 0 <= m_sfo (wm m) -> m_share (wm m) + m_sfo (wm m) <= S ->
  mining_times 1 m n -> put_at ci1 ci2 m n g h -> refreshed ts ci1 m m' -> refreshed ts ci2 n n' ->
  mining_times 1 m' n' /\ exists g' h', put_at ci1 ci2 m' n' g' h' /\ bounds S (excess m' n' - excess m n) g h g' h' (1 + len m - len m').
Proof.
  intros K G1 G2 A V Hown Hsfo HS [D O Sf] (k & Hk & I1 & I2 & -> & ->) R1 R2. split.
  - constructor.
    + rewrite (rf_diffs _ _ _ _ R1), (rf_diffs _ _ _ _ R2). apply keys_after. exact D.
    + intros d. rewrite (own_refreshed _ _ _ _ d R1), (own_refreshed _ _ _ _ d R2). apply O.
    + rewrite (rf_sfo _ _ _ _ R1), (rf_sfo _ _ _ _ R2). exact Sf.
  - exists (up_to ts ci1 ci2), (down_to ts ci1 ci2). split.
    + exists (lead ts (map fst ci1)). split; [rewrite <- (map_length fst ci1); apply lead_length|].
      rewrite (rf_index _ _ _ _ R1), (rf_index _ _ _ _ R2), (visible_lead2 ts ci1 ci2 K). unfold visible. rewrite visible_lead. unfold up_to, down_to. auto.
    + unfold bounds, excess. rewrite (rf_unclaimed _ _ _ _ R1), (rf_unclaimed _ _ _ _ R2).
      assert (NV : forall d, m_index (wm m) <= visible d ci1 -> m_index (wm n) <= visible d ci2 ->
        within ((visible d ci2 - m_index (wm n)) - c * (visible d ci1 - m_index (wm m)))
          (up_to d ci1 ci2 - above 0 0 (firstn k ci1) (firstn k ci2)) (down_to d ci1 ci2 - below 0 0 (firstn k ci1) (firstn k ci2))).
      { intros d H1 H2. rewrite (visible_lead2 d ci1 ci2 K) in *. unfold visible, up_to, down_to in *. rewrite visible_lead in *. rewrite I1, I2 in *.
        apply level_up; assumption. }
      destruct (earned_rich S ci1 ci2 ts) with (l1 := upto (day_start ts) (wm_diffs m)) (l2 := upto (day_start ts) (wm_diffs n))
        (s1 := m_share (wm m) + m_sfo (wm m)) (s2 := m_share (wm n) + m_sfo (wm n)) (j1 := m_index (wm m)) (j2 := m_index (wm n))
        (g := above 0 0 (firstn k ci1) (firstn k ci2)) (h := below 0 0 (firstn k ci1) (firstn k ci2)) as [E1 E2].
      * intros d d' Hd. pose proof (visible_mono 0 d d' ci1 G1 Hd) as M1. pose proof (visible_mono 0 d d' ci2 G2 Hd) as M2. fold (visible d ci1) (visible d' ci1) in M1. fold (visible d ci2) (visible d' ci2) in M2.
        rewrite (visible_lead2 d ci1 ci2 K), (visible_lead2 d' ci1 ci2 K) in *. unfold visible, up_to, down_to in *. rewrite !visible_lead in *. apply level_up; assumption.
      * apply ascending_upto. exact A.
      * apply keys_upto. exact D.
      * apply NV; [exact (rf_index_le _ _ _ _ R1)|exact (rf_index_le _ _ _ _ R2)].
      * intros d v Hin. apply in_upto in Hin as [Hin Hd]. pose proof (day_start_le ts). split; [lia|]. apply NV.
        -- exact (rf_first _ _ _ _ R1 _ _ Hin Hd).
        -- destruct (keys_in _ _ d D) as (v2 & H2); [eauto|]. exact (rf_first _ _ _ _ R2 _ _ H2 Hd).
      * intros d. rewrite !due_upto. pose proof (O (Z.min d (day_start ts))) as Od. unfold own in Od.
        pose proof (own_mono m (Z.min d (day_start ts)) (day_start ts) V ltac:(lia)) as OM. unfold own in *.
        assert (0 <= Spec.due (Z.min d (day_start ts)) (wm_diffs m)).
        { apply due_bounds. intros k' v Hin. apply V in Hin. unfold is_u64 in Hin. lia. }
        split; [rewrite Sf; lia|lia].
      * assert (EL : 1 + Z.of_nat (length (upto (day_start ts) (wm_diffs m))) = 1 + len m - len m').
        { unfold len. rewrite (rf_diffs _ _ _ _ R1). pose proof (length_split (day_start ts) (wm_diffs m)). lia. }
        rewrite EL in *. split; lia.
Qed.

Lemma stake_rich ci1 ci2 a1 a2 g h m n : mining_times 1 a1 a2 -> put_at ci1 ci2 a1 a2 g h -> only_stake a1 m -> only_stake a2 n ->
  map fst (wm_diffs m) = map fst (wm_diffs n) -> (forall d, own n d = 1 * own m d) -> mining_times 1 m n /\ put_at ci1 ci2 m n g h /\ excess m n = excess a1 a2.
Proof.
  intros [D O Sf] (k & Hk & J1 & J2 & R) (_ & I1 & U1 & S1) (_ & I2 & U2 & S2) K H. split; [constructor; [exact K|exact H|rewrite S1, S2; exact Sf]|].
  split; [exists k; rewrite I1, I2; auto|]. unfold excess. congruence.
Qed.
Lemma bounds_more S x g h g' h' k x' k' : bounds S x g h g' h' k -> x' = x -> k <= k' -> bounds S x' g h g' h' k'.
Proof. intros [B1 B2] -> Hk. split; [|lia]. assert (0 <= c * (P16 - 1) * (k' - k)) by (apply Z.mul_nonneg_nonneg; lia). lia. Qed.
Lemma bounds_none S x g h k : x = 0 -> 0 <= k -> bounds S x g h g h k.
Proof. intros -> Hk. assert (0 <= c * (P16 - 1) * k) by (apply Z.mul_nonneg_nonneg; lia). split; lia. Qed.

Lemma page_rich S1 S2 ts i j l ci1 ci2 m n p q m' n' g h :
  map fst ci1 = map fst ci2 -> growing 0 ci1 -> growing 0 ci2 -> mining_wf m -> mining_wf n -> mining_wf m' -> mining_wf n' ->
  m_share (wm m) <= S1 -> m_sfo (wm m) <= S2 -> m_sfo (wm m') <= S2 -> times 1 i j -> base_ok i -> sound_page ts i l m ->
  mining_times 1 m n -> put_at ci1 ci2 m n g h -> page (ts, i, l, ci1) m p m' -> page (ts, j, l, ci2) n q n' ->
  mining_times 1 m' n' /\ exists g' h', put_at ci1 ci2 m' n' g' h' /\
    bounds (S1 + S2) ((q + excess m' n' - c * p) - excess m n) g h g' h' (1 + len m - len m' + one (puts i)).
Proof.
  intros F G1 G2 W1 W2 W1' W2' HS1 HS2 HS2' T BO SO MT PL P1 P2.
  pose proof (mw_asc _ W1) as A1. pose proof (mw_asc _ W2) as A2. pose proof (mw_vals _ W1) as V1. pose proof (mw_vals _ W2) as V2.
  pose proof (mw_asc _ W1') as B1. pose proof (mw_asc _ W2') as B2.
  pose proof (mw_sfo _ W1) as Q1. pose proof (mw_sfo _ W1') as Q2. pose proof (mw_share _ W1') as Q3. unfold is_u64 in Q1, Q2, Q3.
  assert (RT : forall m1 n1, refreshed ts ci1 m m1 -> refreshed ts ci2 n n1 -> 0 <= own m (day_start ts) ->
     mining_times 1 m1 n1 /\ exists g' h', put_at ci1 ci2 m1 n1 g' h' /\ bounds (S1 + S2) (excess m1 n1 - excess m n) g h g' h' (1 + len m - len m1)).
  { intros m1 n1 R1 R2 HO. eapply refresh_rich; try eassumption; lia. }
  assert (RL : forall a b m1 n1, refreshed ts ci1 (with_delegated m a) m1 -> refreshed ts ci2 (with_delegated n b) n1 -> 0 <= own m (day_start ts) -> b = 1 * a -> 0 <= a <= S2 ->
     mining_times 1 m1 n1 /\ exists g' h', put_at ci1 ci2 m1 n1 g' h' /\ bounds (S1 + S2) (excess m1 n1 - excess m n) g h g' h' (1 + len m - len m1)).
  { intros a b m1 n1 R1 R2 HO E Ha. apply (refresh_rich (S1 + S2) ts ci1 ci2 (with_delegated m a) (with_delegated n b)); try assumption; cbn [with_delegated wm m_share m_sfo]; try lia.
    apply (delegated_times 1); assumption. }
  assert (OW : forall x a, refreshed ts ci1 x a -> wm_diffs x = wm_diffs m -> m_share (wm x) = m_share (wm m) -> own m (day_start ts) = m_share (wm a)).
  { intros x a R E1 E2. unfold own. rewrite (rf_share _ _ _ _ R), E1, E2. reflexivity. }
  destruct i, j; cbn [times] in T; try contradiction; cbn [page sound_page base_ok puts one] in *; try contradiction.
  - (* DepositMining *)
    destruct P1 as [-> P1], P2 as [-> P2]. destruct T as [<- ->]. destruct (here 1 l).
    + destruct P1 as (a1 & R1 & O1 & E1 & S3 & _), P2 as (a2 & R2 & O2 & E2 & S4 & _).
      destruct (RT _ _ R1 R2 (SO eq_refl)) as (MT1 & g' & h' & PL1 & B).
      pose proof (refreshed_asc _ _ _ _ A1 R1) as C1. pose proof (refreshed_asc _ _ _ _ A2 R2) as C2.
      destruct (scheduled_both _ _ _ _ _ _ _ _ (mt_dates _ _ _ MT1) C1 C2 B1 B2 S3 S4) as (K & cc & H).
      destruct (stake_rich _ _ _ _ _ _ m' n' MT1 PL1 O1 O2 K) as (MT2 & PL2 & EL).
      { intros d. destruct (H d) as [H1 H2]. pose proof (mt_own _ _ _ MT1 d) as Q. unfold own in *. rewrite H1, H2, E1, E2. destruct (cc d); lia. }
      split; [exact MT2|]. exists g', h'. split; [exact PL2|]. pose proof (scheduled_length _ _ _ _ _ C1 B1 S3). unfold len in *. refine (bounds_more _ _ _ _ _ _ _ _ _ B _ _); lia.
    + destruct (RL _ _ _ _ P1 P2 ltac:(rewrite (OW _ _ P1 eq_refl eq_refl); lia) ltac:(rewrite (mt_sfo _ _ _ MT); lia) ltac:(pose proof (rf_sfo _ _ _ _ P1) as X; cbn [with_delegated wm m_sfo] in X; lia))
        as (MT1 & g' & h' & PL1 & B).
      split; [exact MT1|]. exists g', h'. split; [exact PL1|]. refine (bounds_more _ _ _ _ _ _ _ _ _ B _ _); lia.
  - (* WithdrawMining *)
    destruct P1 as [-> P1], P2 as [-> P2]. subst. destruct (here 1 l).
    + destruct P1 as (a1 & R1 & O1 & E1 & S3), P2 as (a2 & R2 & O2 & E2 & S4).
      destruct (RT _ _ R1 R2 ltac:(rewrite (OW _ _ R1 eq_refl eq_refl); lia)) as (MT1 & g' & h' & PL1 & B).
      destruct (stake_rich _ _ _ _ _ _ m' n' MT1 PL1 O1 O2) as (MT2 & PL2 & EL).
      { rewrite S3, S4. apply MT1. }
      { intros d. pose proof (mt_own _ _ _ MT1 d) as Q. unfold own in *. rewrite S3, S4, E1, E2. lia. }
      split; [exact MT2|]. exists g', h'. split; [exact PL2|]. unfold len in *. rewrite S3. refine (bounds_more _ _ _ _ _ _ _ _ _ B _ _); lia.
    + destruct (RL _ _ _ _ P1 P2 ltac:(rewrite (OW _ _ P1 eq_refl eq_refl); lia) ltac:(rewrite (mt_sfo _ _ _ MT); lia) ltac:(pose proof (rf_sfo _ _ _ _ P1) as X; cbn [with_delegated wm m_sfo] in X; lia))
        as (MT1 & g' & h' & PL1 & B).
      split; [exact MT1|]. exists g', h'. split; [exact PL1|]. refine (bounds_more _ _ _ _ _ _ _ _ _ B _ _); lia.
  - (* Claim *)
    destruct P1 as (a1 & R1 & -> & ->), P2 as (a2 & R2 & -> & ->).
    destruct (RT _ _ R1 R2 ltac:(rewrite (OW _ _ R1 eq_refl eq_refl); exact (proj1 Q3))) as ([D O Sf] & g' & h' & PL1 & B).
    split; [constructor; assumption|]. exists g', h'. split; [exact PL1|]. unfold excess, len in *. cbn [emptied wm m_unclaimed wm_diffs] in *. refine (bounds_more _ _ _ _ _ _ _ _ _ B _ _); lia.
  - (* ExtendStake *)
    destruct P1 as [-> P1], P2 as [-> P2]. destruct T as (<- & <- & <- & -> & ->). destruct (here 1 l).
    + destruct P1 as (a1 & t1 & R1 & O1 & E1 & L1 & S3 & _), P2 as (a2 & t2 & R2 & O2 & E2 & L2 & S4 & _).
      destruct (RT _ _ R1 R2 SO) as (MT1 & g' & h' & PL1 & B).
      pose proof (refreshed_asc _ _ _ _ A1 R1) as C1. pose proof (refreshed_asc _ _ _ _ A2 R2) as C2.
      assert (LL : map fst t1 = map fst t2 /\ ascending t1 /\ ascending t2 /\ length t1 = length (wm_diffs a1) /\
        exists hh : Z -> Z, forall d, Spec.due d t1 = Spec.due d (wm_diffs a1) - hh d /\ Spec.due d t2 = Spec.due d (wm_diffs a2) - 1 * hh d).
      { destruct (unexpired _ _ ts).
        - pose proof L1 as (_ & _ & K1 & _). pose proof L2 as (_ & _ & K2 & _).
          split; [rewrite K1, K2; exact (mt_dates _ _ _ MT1)|].
          split; [eapply ascending_keys; [symmetry; exact K1|exact C1]|]. split; [eapply ascending_keys; [symmetry; exact K2|exact C2]|].
          split; [exact (keys_length _ _ K1)|].
          eexists (fun d => if _ <=? d then _ else 0). intros d. split; [exact (lowered_less _ _ _ _ d C1 L1)|].
          cbv beta. rewrite <- (if_times 1), (lowered_less _ _ _ _ d C2 L2). destruct (_ <=? d); lia.
        - subst. split; [exact (mt_dates _ _ _ MT1)|]. split; [exact C1|]. split; [exact C2|]. split; [reflexivity|]. exists (fun _ => 0). intros d. lia. }
      destruct LL as (K' & D1 & D2 & LE & hh & HL).
      destruct (scheduled_both _ _ _ _ _ _ _ _ K' D1 D2 B1 B2 S3 S4) as (K & cc & H).
      destruct (stake_rich _ _ _ _ _ _ m' n' MT1 PL1 O1 O2 K) as (MT2 & PL2 & EL).
      { intros d. destruct (H d) as [H1 H2], (HL d) as [H3 H4]. pose proof (mt_own _ _ _ MT1 d) as Q. unfold own in *. rewrite H1, H2, E1, E2, H3, H4.
        unfold counted. destruct (cc d), (unexpired _ _ ts); lia. }
      split; [exact MT2|]. exists g', h'. split; [exact PL2|]. pose proof (scheduled_length _ _ _ _ _ D1 B1 S3). unfold len in *. refine (bounds_more _ _ _ _ _ _ _ _ _ B _ _); lia.
    + destruct P1 as (b1 & R1 & ->), P2 as (b2 & R2 & ->). cbn [with_delegated wm m_share m_sfo] in *.
      destruct (RL _ _ _ _ R1 R2 ltac:(rewrite (OW _ _ R1 eq_refl eq_refl); lia) ltac:(rewrite (mt_sfo _ _ _ MT); lia) ltac:(lia))
        as (MT1 & g' & h' & PL1 & B).
      split; [apply (delegated_times 1); [exact MT1|]; rewrite (mt_sfo _ _ _ MT); lia|]. exists g', h'. split; [exact PL1|]. unfold excess, len in *. cbn [with_delegated wm m_unclaimed wm_diffs] in *. refine (bounds_more _ _ _ _ _ _ _ _ _ B _ _); lia.
  - (* ChangeDelegate *)
    destruct P1 as [-> P1], P2 as [-> P2]. subst. destruct (here 1 l); [|destruct (here 4 l)].
    + destruct (RT _ _ P1 P2 ltac:(rewrite (OW _ _ P1 eq_refl eq_refl); lia)) as (MT1 & g' & h' & PL1 & B). split; [exact MT1|]. exists g', h'. split; [exact PL1|]. refine (bounds_more _ _ _ _ _ _ _ _ _ B _ _); lia.
    + destruct (RL _ _ _ _ P1 P2 ltac:(rewrite (OW _ _ P1 eq_refl eq_refl); lia) ltac:(rewrite (mt_sfo _ _ _ MT); lia) ltac:(pose proof (rf_sfo _ _ _ _ P1) as X; cbn [with_delegated wm m_sfo] in X; lia))
        as (MT1 & g' & h' & PL1 & B).
      split; [exact MT1|]. exists g', h'. split; [exact PL1|]. refine (bounds_more _ _ _ _ _ _ _ _ _ B _ _); lia.
    + destruct (RL _ _ _ _ P1 P2 ltac:(rewrite (OW _ _ P1 eq_refl eq_refl); lia) ltac:(rewrite (mt_sfo _ _ _ MT); lia) ltac:(pose proof (rf_sfo _ _ _ _ P1) as X; cbn [with_delegated wm m_sfo] in X; lia))
        as (MT1 & g' & h' & PL1 & B).
      split; [exact MT1|]. exists g', h'. split; [exact PL1|]. refine (bounds_more _ _ _ _ _ _ _ _ _ B _ _); lia.
  - (* Slash *)
    destruct P1 as [-> P1], P2 as [-> P2]. destruct T as (<- & -> & ->).
    destruct P1 as (a1 & R1 & O1 & E1 & T1), P2 as (a2 & R2 & O2 & E2 & T2).
    destruct (RT _ _ R1 R2 ltac:(rewrite (OW _ _ R1 eq_refl eq_refl); lia)) as (MT1 & g' & h' & PL1 & B).
    pose proof (refreshed_asc _ _ _ _ A1 R1) as C1. pose proof (refreshed_asc _ _ _ _ A2 R2) as C2.
    match type of T1 with match ?d with _ => _ end => destruct d as [u|] end.
    + pose proof T1 as (_ & _ & K1 & _). pose proof T2 as (_ & _ & K2 & _).
      destruct (stake_rich _ _ _ _ _ _ m' n' MT1 PL1 O1 O2) as (MT2 & PL2 & EL).
      { rewrite K1, K2. apply MT1. }
      { intros d. pose proof (mt_own _ _ _ MT1 d) as Q. unfold own in *. rewrite (lowered_less _ _ _ _ d C1 T1), (lowered_less _ _ _ _ d C2 T2), E1, E2. destruct (_ <=? d); lia. }
      split; [exact MT2|]. exists g', h'. split; [exact PL2|]. unfold len in *. rewrite (keys_length _ _ K1). refine (bounds_more _ _ _ _ _ _ _ _ _ B _ _); lia.
    + destruct (stake_rich _ _ _ _ _ _ m' n' MT1 PL1 O1 O2) as (MT2 & PL2 & EL).
      { rewrite T1, T2. apply MT1. }
      { intros d. pose proof (mt_own _ _ _ MT1 d) as Q. unfold own in *. rewrite T1, T2, E1, E2. lia. }
      split; [exact MT2|]. exists g', h'. split; [exact PL2|]. unfold len in *. rewrite T1. refine (bounds_more _ _ _ _ _ _ _ _ _ B _ _); lia.
  - (* DecreaseRewards *)
    destruct P1 as [-> P1], P2 as [-> P2]. subst. pose proof P1 as (O1 & E1 & K1 & _). pose proof P2 as (O2 & E2 & K2 & _).
    destruct (stake_rich _ _ _ _ _ _ m' n' MT PL O1 O2) as (MT2 & PL2 & EL).
    { rewrite K1, K2. apply MT. }
    { intros d. rewrite (own_decreased _ _ _ d V1 P1), (own_decreased _ _ _ d V2 P2), (mt_own _ _ _ MT d), (times_most _ _ _ MT), (times_least _ _ _ MT).
      rewrite <- Z.mul_sub_distr_l, <- Z.mul_sub_distr_l, Z.mul_min_distr_nonneg_l, Z.mul_max_distr_nonneg_l by lia. reflexivity. }
    split; [exact MT2|]. exists g, h. split; [exact PL2|]. unfold len in *. rewrite (keys_length _ _ K1). rewrite EL. apply bounds_none; lia.
Qed.

(** ** Pools *)
(** [n] distributions at stakes of [T] or more, since the rises differed by [A0] and [B0] *)
Context (A0 B0 : Z).
Record ample (T n : Z) (v w : wpool) : Prop := {
  am_same : same_stakes v w;
  am_gap : 0 <= c * p_avail (wp v) - p_avail (wp w);
  am_room : exists pos neg, 0 <= neg /\ pos <= (c - 1) * n /\ pos - neg = c * p_avail (wp v) - p_avail (wp w) /\
    T * (above 0 0 (wp_ci v) (wp_ci w) - A0) <= P16 * pos + c * T * n /\ T * (below 0 0 (wp_ci v) (wp_ci w) - B0) <= P16 * neg + T * n }.

Lemma total_rich T n v w v' w' : ample T n v w -> only_total v v' -> only_total w w' ->
  map fst (wp_diffs v') = map fst (wp_diffs w') -> (forall d, all w' d = all v' d) -> ample T n v' w'.
Proof.
  intros [[D A E C] G R] (_ & _ & _ & _ & I1 & E1 & B1 & _ & _ & C1) (_ & _ & _ & _ & I2 & E2 & B2 & _ & _ & C2) K H.
  constructor; [constructor; [exact K|exact H| |]| |]; rewrite ?E1, ?E2, ?B1, ?B2, ?C1, ?C2; assumption.
Qed.
(** the part of a budget that is somewhat less than [c] times another *)
Lemma parts a b x ts : 0 <= a -> 0 <= b -> 0 <= c * a - b ->
  let d := daily_part b x ts - c * daily_part a x ts in 0 <= c * a - b + d /\ d <= c - 1.
Proof.
  intros Ha Hb Hg. cbv zeta. unfold daily_part. set (n := Z.max 0 (x - ts) / 86400). assert (0 <= n) by (apply Z.div_pos; lia). clearbody n.
  destruct (Z.eqb_spec n 0); [lia|]. pose proof (Z.div_mod a n ltac:(lia)) as Da. pose proof (Z.div_mod b n ltac:(lia)) as Db.
  pose proof (Z.mod_pos_bound a n ltac:(lia)) as Ma. pose proof (Z.mod_pos_bound b n ltac:(lia)) as Mb.
  set (qa := a / n) in *. set (qb := b / n) in *. set (ra := a mod n) in *. set (rb := b mod n) in *. clearbody qa qb ra rb. subst a b.
  split.
  - (* n (c qa - qb) + c ra - rb + qb - c qa >= 0 *)
    assert (E : c * (n * qa + ra) - (n * qb + rb) = n * (c * qa - qb) + (c * ra - rb)) by ring. rewrite E in *.
    destruct (Z_le_gt_dec 0 (c * qa - qb)) as [P|P]; [|lia].
    destruct (Z.eq_dec (c * qa - qb) 0) as [Q|Q]; [rewrite Q in *; lia|].
    assert (0 <= c * ra) by nia. nia.
  - (* qb <= c qa + c - 1 *)
    destruct (Z_le_gt_dec (qb - c * qa) (c - 1)) as [P|P]; [exact P|].
    assert (E : c * (n * qa + ra) - (n * qb + rb) = n * (c * qa - qb) + c * ra - rb) by ring. rewrite E in *.
    assert (c * ra <= c * (n - 1)) by nia. assert (n * (c * qa - qb) <= n * (- c)) by nia. lia.
Qed.
(** the rises of the index for two amounts *)
Lemma rises_rich T0 t r1 r2 : 0 <= T0 <= t -> 0 < t ->
  let z := P16 * r2 / t - c * (P16 * r1 / t) in let d := r2 - c * r1 in
  T0 * Z.max 0 z <= P16 * Z.max 0 d + c * T0 /\ T0 * Z.max 0 (- z) <= P16 * Z.max 0 (- d) + T0.
Proof.
  intros HT Ht. cbv zeta. pose proof (Z.div_mod (P16 * r1) t ltac:(lia)) as D1. pose proof (Z.div_mod (P16 * r2) t ltac:(lia)) as D2.
  pose proof (Z.mod_pos_bound (P16 * r1) t Ht) as M1. pose proof (Z.mod_pos_bound (P16 * r2) t Ht) as M2.
  set (i1 := P16 * r1 / t) in *. set (i2 := P16 * r2 / t) in *. set (k1 := (P16 * r1) mod t) in *. set (k2 := (P16 * r2) mod t) in *. clearbody i1 i2 k1 k2.
  set (z := i2 - c * i1). assert (Z1 : t * z = P16 * (r2 - c * r1) + c * k1 - k2) by (unfold z; lia).
  set (d := r2 - c * r1) in *. clearbody z d. clear D1 D2 i1 i2 r1 r2. split.
  - destruct (Z_le_gt_dec z c) as [H|H]; [assert (T0 * Z.max 0 z <= T0 * c) by (apply Z.mul_le_mono_nonneg_l; lia); lia|].
    rewrite (Z.max_r 0 z) by lia. assert (X : T0 * (z - c) <= t * (z - c)) by (apply Z.mul_le_mono_nonneg_r; lia).
    assert (Y : c * k1 <= c * t) by (apply Z.mul_le_mono_nonneg_l; lia). lia.
  - destruct (Z_le_gt_dec (- z) 1) as [H|H]; [assert (T0 * Z.max 0 (- z) <= T0 * 1) by (apply Z.mul_le_mono_nonneg_l; lia); lia|].
    rewrite (Z.max_r 0 (- z)) by lia. assert (X : T0 * (- z - 1) <= t * (- z - 1)) by (apply Z.mul_le_mono_nonneg_r; lia).
    assert (Y : 0 <= c * k1) by (apply Z.mul_nonneg_nonneg; lia). lia.
Qed.

Lemma pstep_rich T n ts i j b v w v' w' :
  0 <= T -> (i = DistributeRewards -> T <= p_total (wp v')) -> endowed c i j -> sound_pool ts i v -> 0 <= p_avail (wp v) -> 0 <= p_avail (wp w) ->
  (Z.of_nat (length (wp_ci v)) < 1095 -> p_index (wp v) = last_from 0 (wp_ci v)) ->
  (Z.of_nat (length (wp_ci w)) < 1095 -> p_index (wp w) = last_from 0 (wp_ci w)) ->
  ascending (wp_diffs v) -> ascending (wp_diffs w) -> ascending (wp_diffs v') -> ascending (wp_diffs w') ->
  ample T n v w -> pstep (ts, i, b) v v' -> pstep (ts, j, b) w w' -> ample T (n + if hands_out (ts, i, b, []) then 1 else 0) v' w'.
Proof.
  intros HT QT LE SO Hav Haw Lv Lw A1 A2 A1' A2' U P1 P2.
  destruct i, j; cbn [endowed times] in LE; try contradiction; cbn [pstep] in P1, P2; cbn [hands_out]; rewrite ?Z.add_0_r; try (subst; exact U).
  - (* FillVault *)
    destruct LE as [-> <-]. subst. destruct U as [[D A E C] G (pos & neg & R)]. constructor; [constructor; try assumption; reflexivity| |]; cbn [filled wp p_avail p_ends_at wp_ci]; [lia|].
    exists pos, neg. repeat split; try apply R. lia.
  - (* DepositMining *)
    destruct LE as [<- ->]. destruct P1 as (O1 & T1 & S1 & _), P2 as (O2 & T2 & S2 & _).
    destruct (scheduled_both _ _ _ _ _ _ _ _ (ss_dates _ _ (am_same _ _ _ _ U)) A1 A2 A1' A2' S1 S2) as (K & cc & HH).
    eapply total_rich; [exact U|exact O1|exact O2|exact K|]. intros d. destruct (HH d) as [H1 H2]. pose proof (ss_all _ _ (am_same _ _ _ _ U) d) as Q.
    unfold all in *. rewrite T1, T2, H1, H2, (there_times 1). destruct (cc d); lia.
  - (* WithdrawMining *)
    subst. destruct P1 as (O1 & T1 & S1), P2 as (O2 & T2 & S2).
    eapply total_rich; [exact U|exact O1|exact O2|rewrite S1, S2; apply keys_after; exact (ss_dates _ _ (am_same _ _ _ _ U))|].
    intros d. pose proof (ss_all _ _ (am_same _ _ _ _ U) (Z.max d (day_start ts))) as Q. unfold all in *. rewrite T1, T2, S1, S2, !due_late, (there_times 1). lia.
  - (* ExtendStake *)
    destruct LE as (<- & <- & <- & -> & ->). destruct P1 as (O1 & T1 & S1 & _), P2 as (O2 & T2 & S2 & _).
    destruct (scheduled_both _ _ _ _ _ _ _ _ (ss_dates _ _ (am_same _ _ _ _ U)) A1 A2 A1' A2' S1 S2) as (K & cc & HH).
    eapply total_rich; [exact U|exact O1|exact O2|exact K|]. intros d. destruct (HH d) as [H1 H2]. pose proof (ss_all _ _ (am_same _ _ _ _ U) d) as Q.
    unfold all in *. rewrite T1, T2, H1, H2, (there_times 1). unfold counted. destruct (cc d), (unexpired _ _ ts); lia.
  - (* DistributeRewards *)
    destruct P1 as (O1 & T1 & S1 & Y1 & N1), P2 as (O2 & T2 & S2 & Y2 & N2).
    destruct (SO eq_refl) as (_ & HL & SD). fold (all v (day_start ts)) in T1, HL, SD. fold (all w (day_start ts)) in T2.
    pose proof U as [[D A E K] G (pos & neg & Hn & Hp & Hg & Hu & Hb)].
    assert (SS : map fst (wp_ci v') = map fst (wp_ci w') -> same_stakes v' w').
    { constructor; [rewrite S1, S2; apply keys_after; exact D| | |assumption].
      - intros d. specialize (A (Z.max d (day_start ts))). unfold all in *. rewrite T1, T2, S1, S2, !due_late. lia.
      - destruct O1 as (_ & _ & _ & _ & -> & _), O2 as (_ & _ & _ & _ & -> & _). exact E. }
    destruct (date_or_not (day_start ts) (wp_ci v)) as [HD|HD].
    + destruct (Y1 HD) as (C1 & X1 & V1). destruct (Y2 (proj1 (has_keys _ _ _ K) HD)) as (C2 & X2 & V2).
      constructor; [apply SS; rewrite C1, C2; exact K|rewrite V1, V2; exact G|]. rewrite C1, C2, V1, V2.
      exists pos, neg. assert (0 <= c * T) by nia. repeat split; try assumption; lia.
    + destruct SD as [SD|[SD _]]; [contradiction|].
      destruct (N1 HD) as (X1 & V1 & C1). destruct (N2 (fun H => HD (proj2 (has_keys _ _ _ K) H))) as (X2 & V2 & C2).
      rewrite (keys_length _ _ K) in C1, Lv. rewrite E in X1, V1.
      set (r1 := daily_part (p_avail (wp v)) (p_ends_at (wp w)) ts) in *. set (r2 := daily_part (p_avail (wp w)) (p_ends_at (wp w)) ts) in *.
      pose proof (parts (p_avail (wp v)) (p_avail (wp w)) (p_ends_at (wp w)) ts Hav Haw G) as PP. cbv zeta in PP. fold r1 r2 in PP.
      assert (TT : 0 <= T <= all v (day_start ts)) by (split; [exact HT|]; rewrite <- T1; exact (QT eq_refl)).
      pose proof (rises_rich T (all v (day_start ts)) r1 r2 TT ltac:(lia)) as RR. cbv zeta in RR.
      constructor.
      * apply SS. rewrite C1, C2. destruct (Z.of_nat (length (wp_ci w)) <? 1095); [|exact K]. rewrite !map_app, K. reflexivity.
      * rewrite V1, V2. lia.
      * exists (pos + Z.max 0 (r2 - c * r1)), (neg + Z.max 0 (- (r2 - c * r1))). assert (0 <= c * T) by nia.
        split; [lia|]. split; [lia|]. split; [rewrite V1, V2; lia|]. rewrite C1, C2.
        destruct (Z.ltb_spec (Z.of_nat (length (wp_ci w))) 1095) as [HH|HH]; [|split; lia].
        destruct (above_snoc (day_start ts) (p_index (wp v')) (p_index (wp w')) (wp_ci v) (wp_ci w) 0 0 K) as [-> ->].
        rewrite X1, X2, T1, T2, (Lv HH), (Lw HH), (A (day_start ts)) in *. 
        set (z1 := P16 * r1 / all v (day_start ts)) in *. set (z2 := P16 * r2 / all v (day_start ts)) in *.
        replace (last_from 0 (wp_ci w) + z2 - last_from 0 (wp_ci w) - c * (last_from 0 (wp_ci v) + z1 - last_from 0 (wp_ci v))) with (z2 - c * z1) by ring.
        replace (c * (last_from 0 (wp_ci v) + z1 - last_from 0 (wp_ci v)) - (last_from 0 (wp_ci w) + z2 - last_from 0 (wp_ci w))) with (- (z2 - c * z1)) by ring.
        split; lia.
  - (* ChangeDelegate *)
    subst. destruct P1 as (O1 & S1 & T1), P2 as (O2 & S2 & T2).
    eapply total_rich; [exact U|exact O1|exact O2|rewrite S1, S2; exact (ss_dates _ _ (am_same _ _ _ _ U))|].
    intros d. pose proof (ss_all _ _ (am_same _ _ _ _ U) d) as Q. unfold all in *. rewrite T1, T2, S1, S2, !(there_times 1). lia.
  - (* Slash *)
    destruct LE as (<- & -> & ->). destruct P1 as (O1 & T1 & S1), P2 as (O2 & T2 & S2).
    match type of S1 with match ?d with _ => _ end => destruct d as [u|] end.
    + pose proof S1 as (_ & _ & K1 & _). pose proof S2 as (_ & _ & K2 & _).
      eapply total_rich; [exact U|exact O1|exact O2|rewrite K1, K2; apply keys_after; exact (ss_dates _ _ (am_same _ _ _ _ U))|].
      intros d. pose proof (ss_all _ _ (am_same _ _ _ _ U) (Z.max d (day_start ts))) as Q. unfold all in *.
      rewrite (lowered_less _ _ _ _ d (ascending_after _ _ A1) S1), (lowered_less _ _ _ _ d (ascending_after _ _ A2) S2), T1, T2, !due_late.
      destruct (_ <=? d); lia.
    + eapply total_rich; [exact U|exact O1|exact O2|rewrite S1, S2; apply keys_after; exact (ss_dates _ _ (am_same _ _ _ _ U))|].
      intros d. pose proof (ss_all _ _ (am_same _ _ _ _ U) (Z.max d (day_start ts))) as Q. unfold all in *. rewrite T1, T2, S1, S2, !due_late. lia.
Qed.


(** ** One step after the other *)
Inductive rwalk (Q : wpool -> wmining -> Prop) : list full_entry -> wpool -> wmining -> Z -> wpool -> wmining -> Prop :=
| rr_nil w m : good w -> mining_wf m -> Q w m -> rwalk Q [] w m 0 w m
| rr_cons ts i bs l b w m p w1 m1 y w' m' : good w -> mining_wf m -> Q w m ->
    (Z.of_nat (length (wp_ci w)) < 1095 -> p_index (wp w) = last_from 0 (wp_ci w)) -> base_ok i ->
    sound (ts, i, bs, l) w m -> step (ts, i, bs, l) w m p w1 m1 -> rwalk Q b w1 m1 y w' m' -> rwalk Q ((ts, i, bs, l) :: b) w m (p + y) w' m'.
Lemma rwalk_good Q b w m y w' m' : rwalk Q b w m y w' m' -> good w /\ mining_wf m /\ Q w m.
Proof. intros H. destruct H; auto. Qed.

Lemma put_more ci1 ci2 r1 r2 m n g h : map fst ci1 = map fst ci2 -> put_at ci1 ci2 m n g h -> put_at (ci1 ++ r1) (ci2 ++ r2) m n g h.
Proof.
  intros K (k & Hk & I1 & I2 & E). exists k. pose proof (keys_length _ _ K). rewrite app_length, !take_app_le by lia. split; [lia|auto].
Qed.
Lemma bounds_add S x y g h g1 h1 g2 h2 k l z o : bounds S x g h g1 h1 k -> bounds S y g1 h1 g2 h2 l -> z = x + y -> o = k + l -> bounds S z g h g2 h2 o.
Proof. intros [A1 A2] [B1 B2] -> ->. split; lia. Qed.

Lemma rwalks_rich S1 S2 T b1 v m x v' m' : 0 <= T -> rwalk (fun w m => m_share (wm m) <= S1 /\ m_sfo (wm m) <= S2 /\ T <= p_total (wp w)) b1 v m x v' m' ->
  forall b2, Forall2 (enriched c) b1 b2 -> forall w n y w' n' g h z, rwalk (fun _ _ => True) b2 w n y w' n' ->
  ample T z v w -> mining_times 1 m n -> put_at (wp_ci v) (wp_ci w) m n g h ->
  ample T (z + how_many hands_out b1) v' w' /\ mining_times 1 m' n' /\ exists g' h', put_at (wp_ci v') (wp_ci w') m' n' g' h' /\
    bounds (S1 + S2) ((y + excess m' n' - c * x) - excess m n) g h g' h' (how_many works b1 + how_many plans b1 + len m - len m').
Proof.
  intros HT. induction 1 as [v m G M Q|ts i bs l b v m p v1 m1 x v' m' G M (Q1 & Q2 & Q3) LV BO S P H IH]; intros b2 B w n y w' n' g h z W PT MT PL.
  - inversion B; subst. inversion W; subst. change (how_many hands_out []) with 0. rewrite Z.add_0_r. split; [exact PT|]. split; [exact MT|]. exists g, h. split; [exact PL|].
    unfold how_many. cbn [filter length]. apply bounds_none; lia.
  - inversion B as [|? [[[ts2 j] cs] l2] ? c2 BT BF]; subst. inversion W as [|? ? ? ? ? ? ? q w1 n1 y1 ? ? G2 M2 _ LW BO2 SS2 P2 W2]; subst.
    destruct BT as (<- & <- & <- & E). destruct P as [P1 PM1], P2 as [P2 PM2].
    destruct (rwalk_good _ _ _ _ _ _ _ H) as (G1' & M1' & Q1' & Q2' & Q3'). destruct (rwalk_good _ _ _ _ _ _ _ W2) as (G2' & M2' & _).
    destruct G as (t1 & G), G2 as (t2 & G2), G1' as (t3 & G1'), G2' as (t4 & G2').
    assert (PT1 : ample T (z + if hands_out (ts, i, bs, []) then 1 else 0) v1 w1).
    { eapply (pstep_rich T z ts i j bs); [exact HT|intros _; exact Q3'|exact E|apply S| | |exact LV|exact LW|exact (pw_diffs_asc _ _ G)|exact (pw_diffs_asc _ _ G2)|exact (pw_diffs_asc _ _ G1')|exact (pw_diffs_asc _ _ G2')|exact PT|exact P1|exact P2].
      - pose proof (pw_avail _ _ G) as X. unfold is_u64 in X. lia.
      - pose proof (pw_avail _ _ G2) as X. unfold is_u64 in X. lia. }
    destruct (pstep_ci _ _ _ P1) as (s1 & F1). destruct (pstep_ci _ _ _ P2) as (s2 & F2).
    pose proof (ss_days _ _ (am_same _ _ _ _ PT)) as KC.
    assert (ST : mining_times 1 m1 n1 /\ exists g' h', put_at (wp_ci v) (wp_ci w) m1 n1 g' h' /\
      bounds (S1 + S2) ((q + excess m1 n1 - c * p) - excess m n) g h g' h' (how_many works [(ts, i, bs, l)] + how_many plans [(ts, i, bs, l)] + len m - len m1)).
    { destruct l as [|l0 l].
      - destruct PM1 as [-> ->], PM2 as [-> ->]. split; [exact MT|]. exists g, h. split; [exact PL|]. unfold how_many. cbn [filter works plans length]. apply bounds_none; lia.
      - assert (TI : times 1 i j) by (destruct i, j; cbn [endowed] in E; try exact E; contradiction).
        destruct (page_rich S1 S2 ts i j (l0 :: l) (wp_ci v) (wp_ci w) m n p q m1 n1 g h KC (pw_ci_grow _ _ G) (pw_ci_grow _ _ G2) M M2 M1' M2'
          Q1 Q2 Q2' TI BO ltac:(apply S; discriminate) MT PL PM1 PM2) as (MT1 & g' & h' & PL1 & B1).
        split; [exact MT1|]. exists g', h'. split; [exact PL1|]. destruct (works_cons ts i bs l0 l []) as [-> ->]. unfold how_many. cbn [filter length]. refine (bounds_more _ _ _ _ _ _ _ _ _ B1 _ _); lia. }
    destruct ST as (MT1 & g1 & h1 & PL1 & B1).
    assert (PL2 : put_at (wp_ci v1) (wp_ci w1) m1 n1 g1 h1) by (rewrite F1, F2; apply put_more; assumption).
    destruct (IH _ BF _ _ _ _ _ _ _ _ W2 PT1 MT1 PL2) as (PT3 & MT3 & g3 & h3 & PL3 & B3).
    rewrite !how_many_cons in *. change (how_many works []) with 0 in B1. change (how_many plans []) with 0 in B1.
    replace (z + ((if hands_out (ts, i, bs, l) then 1 else 0) + how_many hands_out b)) with (z + (if hands_out (ts, i, bs, []) then 1 else 0) + how_many hands_out b) by (cbn [hands_out]; lia).
    split; [exact PT3|]. split; [exact MT3|]. exists g3, h3. split; [exact PL3|]. refine (bounds_add _ _ _ _ _ _ _ _ _ _ _ _ _ B1 B3 _ _); lia.
Qed.
End rich.

Section env.
Context (e : env) (Henv : env_ok e).
Lemma full_log_rwalk Q P k now0 L0 b0 now L now' L' b x : full_log e P k now L now' L' b x -> reached e now L ->
  forall d y, full_log e P k now0 L0 now L d y -> b0 = d ++ b -> throughout e P k now0 L0 b0 Q ->
  forall w m, is_pool e L P w -> is_mining e L k m -> exists w' m', is_pool e L' P w' /\ is_mining e L' k m' /\ rwalk Q b w m x w' m'.
Proof.
  induction 1 as [now L O OM|now L ts ms i L1 r now' L' b x O OM Hts Hu Hi X HH HI IH|now L ts L1 now' L' b x O OM Hts Hu X HI IH];
    intros HR d y Hd Eb Hq w m Hw Hm; pose proof (good_pool e Henv _ _ _ _ HR Hw) as Wp; pose proof (good_mining e Henv _ _ _ _ HR Hm) as Wm; pose proof (Hq _ _ _ _ _ _ _ Eb Hd Hw Hm) as Qm.
  - exists w, m. split; [assumption|]. split; [assumption|constructor; assumption].
  - pose proof (full_log_running e _ _ _ _ _ _ _ _ HI) as [RU OP]. pose proof RU as (w1 & Hw1 & T1). pose proof OP as (m1 & Hm1 & U1). pose proof O as (w0 & Hw0 & T0).
    rewrite (pool_fun e _ _ _ _ Hw0 Hw) in T0.
    pose proof (reached_exec e now ts ms i L L1 r HR Hts Hu Hi X) as HR1.
    assert (Hd1 : full_log e P k now0 L0 ts L1 (d ++ logged_with P k ts ms i) (y + takes k ms i r)).
    { eapply full_log_app; [exact Hd|]. rewrite <- (app_nil_r (logged_with P k ts ms i)), <- (Z.add_0_r (takes k ms i r)).
      eapply fl_ix; try eassumption. constructor; assumption. }
    destruct (IH HR1 _ _ Hd1 ltac:(rewrite <- app_assoc; exact Eb) Hq w1 m1 Hw1 Hm1) as (w' & m' & Hw' & Hm' & PS). exists w', m'. split; [assumption|]. split; [assumption|].
    pose proof (exec_step e Henv now ts ms i L L1 r P k w w1 m m1 HR Hts Hi X Hw T0 Hw1 Hm Hm1 U1 HH) as E.
    destruct (logged_with P k ts ms i) as [|z t] eqn:En.
    { destruct E as (-> & E1 & E2). rewrite E1, E2 in PS. exact PS. }
    assert (Z : z = (ts, gist i, delegates ms i, places k ms i) /\ names ms (pool_position i) P = true).
    { unfold logged_with in En. destruct (names _ _ _); [|discriminate]. split; [|reflexivity]. destruct (writes_pool i), (places k ms i); congruence. }
    destruct Z as [-> Np]. pose proof (logged_with_short _ _ _ _ _ _ _ En) as ->. cbn [app] in *.
    econstructor; [exact Wp|exact Wm|exact Qm|exact (reached_logged e Henv now L HR P w Hw)| | |exact E|exact PS].
    + destruct i; cbn [gist base_ok]; try exact I. cbn [ix_in_range] in Hi. unfold is_u64 in Hi. lia.
    + split; [exact (exec_sound_pool e Henv _ _ _ _ _ _ _ _ _ HR Hts Hi X Hw Np)|]. split; [exact (exec_sound_page e Henv _ _ _ _ _ _ _ _ _ HR Hts Hi X Hm)|apply two_delegates].
  - destruct (full_log_running e _ _ _ _ _ _ _ _ HI) as [RU OP]. pose proof RU as (w1 & Hw1 & T1). pose proof OP as (m1 & Hm1 & U1).
    pose proof (ext_pool e _ _ _ _ _ X Hw Hw1) as ->. pose proof (ext_mining e _ _ _ _ _ X Hm Hm1) as ->.
    assert (Hd1 : full_log e P k now0 L0 ts L1 d y).
    { rewrite <- (app_nil_r d), <- (Z.add_0_r y). eapply full_log_app; [exact Hd|]. eapply fl_ext; try eassumption. constructor; assumption. }
    exact (IH (ext_reached e _ _ _ _ HR Hts Hu X) _ _ Hd1 Eb Hq w m Hw1 Hm1).
Qed.
End env.

Lemma other_rewards e1 e2 : env_ok e1 -> env_ok e2 -> forall c P1 P2 k1 k2 now1 L1 now1' L1' now2 L2 now2' L2' b d x y v w v' w' m n m' n' s t T,
  1 <= c -> 0 <= T -> reached e1 now1 L1 -> reached e2 now2 L2 ->
  full_log e1 P1 k1 now1 L1 now1' L1' b x -> full_log e2 P2 k2 now2 L2 now2' L2' d y -> Forall2 (enriched c) b d ->
  throughout e1 P1 k1 now1 L1 b (fun w m => m_share (wm m) <= s /\ m_sfo (wm m) <= t /\ T <= p_total (wp w)) ->
  is_pool e1 L1 P1 v -> is_pool e2 L2 P2 w -> same_stakes v w -> p_avail (wp w) = c * p_avail (wp v) ->
  is_mining e1 L1 k1 m -> is_mining e2 L2 k2 n -> mining_times 1 m n -> credited v m -> credited w n -> m_unclaimed (wm n) = c * m_unclaimed (wm m) ->
  is_pool e1 L1' P1 v' -> is_pool e2 L2' P2 w' -> is_mining e1 L1' k1 m' -> is_mining e2 L2' k2 n' ->
  let N := how_many hands_out b in let K := how_many works b + how_many plans b + Z.of_nat (length (wm_diffs m)) in
  same_stakes v' w' /\ mining_times 1 m' n' /\ 0 <= c * p_avail (wp v') - p_avail (wp w') <= (c - 1) * N /\
  let once := x + m_unclaimed (wm m') in let often := y + m_unclaimed (wm n') in
  T * (P16 * (often - c * once)) <= (s + t) * (P16 * ((c - 1) * N) + c * T * N) + T * (c * (P16 - 1) * K) /\
  T * (P16 * (c * once - often)) <= (s + t) * (P16 * ((c - 1) * N) + T * N) + T * ((P16 - 1) * K).
Proof.
  intros H1 H2 c P1 P2 k1 k2 now1 L1 now1' L1' now2 L2 now2' L2' b d x y v w v' w' m n m' n' s t T Hc HT R1 R2 D1 D2 F Q V W SS EA M N MT I1 I2 U V' W' M' N'.
  destruct (full_log_running e1 _ _ _ _ _ _ _ _ D1) as [RU1 OP1]. destruct (full_log_running e2 _ _ _ _ _ _ _ _ D2) as [RU2 OP2].
  destruct (full_log_rwalk e1 H1 _ _ _ now1 L1 b _ _ _ _ _ _ D1 R1 [] 0 (fl_nil _ _ _ _ _ RU1 OP1) eq_refl Q v m V M) as (v1 & m1 & X1 & Y1 & S1).
  rewrite (pool_fun e1 _ _ _ _ X1 V'), (mining_fun e1 _ _ _ _ Y1 M') in S1.
  destruct (full_log_rwalk e2 H2 (fun _ _ => True) _ _ now2 L2 d _ _ _ _ _ _ D2 R2 [] 0 (fl_nil _ _ _ _ _ RU2 OP2) eq_refl ltac:(intros ? ? ? ? ? ? ? _ _ _ _; exact I) w n W N) as (w1 & n1 & X2 & Y2 & S2).
  rewrite (pool_fun e2 _ _ _ _ X2 W'), (mining_fun e2 _ _ _ _ Y2 N') in S2.
  assert (FV : firstn (length (wp_ci v)) (wp_ci w) = wp_ci w) by (rewrite (keys_length _ _ (ss_days _ _ SS)); apply firstn_all).
  set (A0 := above c 0 0 (wp_ci v) (wp_ci w)). set (B0 := below c 0 0 (wp_ci v) (wp_ci w)).
  destruct (rwalks_rich c Hc A0 B0 s t T _ _ _ _ _ _ HT S1 _ F _ _ _ _ _ A0 B0 0 S2) as (PT' & MT' & g' & h' & (k' & Hk' & J1 & J2 & -> & ->) & B);
    [| |exists (length (wp_ci v)); rewrite firstn_all, FV; auto with lia|].
  { constructor; [exact SS|rewrite EA; lia|]. exists 0, 0. fold A0 B0. rewrite EA. lia. }
  { exact MT. }
  destruct PT' as [SS' G' (pos & neg & Hn & Hp & Hg & Hu & Hb)]. cbv zeta. split; [exact SS'|]. split; [exact MT'|]. split; [lia|].
  destruct (rwalk_good _ _ _ _ _ _ _ S1) as (_ & Wm & Q1 & Q2 & _). pose proof (mw_share _ Wm) as B1. pose proof (mw_sfo _ Wm) as B2. unfold is_u64 in B1, B2.
  pose proof (level_levels c k' (length (wp_ci v')) Hk' (wp_ci v') (wp_ci w') 0 0 (ss_days _ _ SS')) as (Z1 & Z2 & _).
  assert (FW : firstn (length (wp_ci v')) (wp_ci w') = wp_ci w') by (rewrite (keys_length _ _ (ss_days _ _ SS')); apply firstn_all).
  rewrite firstn_all, FW in Z1, Z2.
  set (K := how_many works b + how_many plans b + Z.of_nat (length (wm_diffs m))).
  apply (bounds_more c Hc _ _ _ _ _ _ _ ((y + m_unclaimed (wm n')) - c * (x + m_unclaimed (wm m'))) K) in B; [|unfold excess; lia|unfold len, K; lia].
  destruct B as [C1 C2]. rewrite !Z.add_0_l in *. set (N0 := how_many hands_out b) in *. set (z := y + m_unclaimed (wm n') - c * (x + m_unclaimed (wm m'))) in *.
  replace (c * (x + m_unclaimed (wm m')) - (y + m_unclaimed (wm n'))) with (- z) by (unfold z; ring).
  set (g := above c 0 0 (firstn k' (wp_ci v')) (firstn k' (wp_ci w'))) in *. set (h := below c 0 0 (firstn k' (wp_ci v')) (firstn k' (wp_ci w'))) in *.
  assert (G1 : T * (g - A0) <= P16 * ((c - 1) * N0) + c * T * N0) by (assert (T * g <= T * above c 0 0 (wp_ci v') (wp_ci w')) by (apply Z.mul_le_mono_nonneg_l; lia); lia).
  assert (G2 : T * (h - B0) <= P16 * ((c - 1) * N0) + T * N0) by (assert (T * h <= T * below c 0 0 (wp_ci v') (wp_ci w')) by (apply Z.mul_le_mono_nonneg_l; lia); lia).
  apply (Z.mul_le_mono_nonneg_l _ _ T HT) in C1, C2. apply (Z.mul_le_mono_nonneg_l _ _ (s + t) ltac:(lia)) in G1, G2. clearbody A0 B0 g h z N0 K. split; lia.
Qed.
