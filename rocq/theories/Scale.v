(** Proofs of C93: the same history with all stakes counted in a smaller unit. *)
From stdpp Require Import gmap.
From Verif Require Import Base OMap State Spec EffectSpec Ledger Program ResLemmas TreeLemmas AccrualLemmas RefreshLemmas WfLemmas LedgerLemmas LedgerSpec
  CodecLemmas History HistoryLemmas Changes AccessLemmas HistoryThms ReachThms EffectLemmas EffectMethods EffectThms EffectMore EffectCompare
  SuccessSpec SuccessThms LedgerCore Determined Commute CompleteSpec Complete PowerSpec Powers FreezeSpec Choice GapSpec Gap CapSpec Cap
  CoreInv Split DustSpec DebtSpec Debt IncomeSpec Income DiarySpec Diary LogSpec Log CompareSpec Compare LongerSpec Longer OwnSpec Own PartsSpec Parts ScaleSpec.

Local Notation P16 := 10000000000000000.

Section scale.
Context (c : Z) (Hc : 1 <= c).

(** ** Histories of distributions *)
(** how often the index rises *)
Fixpoint rises (a : Z) (t : sched) : Z :=
  match t with [] => 0 | (_, i) :: r => (if a <? i then 1 else 0) + rises i r end.
Lemma rises_pos : forall t a, 0 <= rises a t.
Proof. induction t as [|[k i] t IH]; intros a; cbn [rises]; [lia|]. specialize (IH i). destruct (a <? i); lia. Qed.
Lemma rises_length : forall t a, rises a t <= Z.of_nat (length t).
Proof. induction t as [|[k i] t IH]; intros a; cbn [rises length]; [lia|]. specialize (IH i). destruct (a <? i); lia. Qed.

Lemma finer_keys : forall s t a b, finer_from c a b s t -> map fst s = map fst t.
Proof.
  induction s as [|[d i] s IH]; intros [|[e j] t] a b H; cbn in H; try contradiction; [reflexivity|].
  destruct H as (-> & _ & _ & H). cbn. rewrite (IH _ _ _ H). reflexivity.
Qed.
Lemma finer_snoc d i j : forall s t a b, finer_from c a b s t -> 0 <= j - last_from b t -> 0 <= (i - last_from a s) - c * (j - last_from b t) <= c - 1 ->
  finer_from c a b (s ++ [(d, i)]) (t ++ [(d, j)]).
Proof.
  induction s as [|[k x] s IH]; intros [|[e y] t] a b H; cbn in H; try contradiction; cbn; intros Hj Hij.
  - auto.
  - destruct H as (-> & H1 & H2 & H3). split; [reflexivity|]. split; [assumption|]. split; [assumption|]. apply IH; assumption.
Qed.
Lemma finer_first n : forall s t a b, finer_from c a b s t ->
  0 <= last_from b (firstn n t) - b /\ 0 <= (last_from a (firstn n s) - a) - c * (last_from b (firstn n t) - b) <= (c - 1) * rises a (firstn n s).
Proof.
  induction n as [|n IH]; intros [|[d i] s] [|[e j] t] a b H; cbn in H; try contradiction; cbn [firstn last_from rises]; try lia.
  destruct H as (-> & H0 & H1 & H2). specialize (IH _ _ _ _ H2) as [I1 I2]. split; [lia|].
  destruct (Z.ltb_spec a i); [lia|]. assert (j = b) by nia. subst. lia.
Qed.
Lemma finer_levels n n' : (n <= n')%nat -> forall s t a b, finer_from c a b s t ->
  0 <= last_from b (firstn n' t) - last_from b (firstn n t) /\
  0 <= (last_from a (firstn n' s) - last_from a (firstn n s)) - c * (last_from b (firstn n' t) - last_from b (firstn n t))
    <= (c - 1) * (rises a (firstn n' s) - rises a (firstn n s)).
Proof.
  revert n'. induction n as [|n IH]; intros n' Hn s t a b H.
  - pose proof (finer_first n' _ _ _ _ H) as F. rewrite !take_0. cbn [last_from rises]. lia.
  - destruct n' as [|n']; [lia|]. destruct s as [|[k i] s], t as [|[e j] t]; cbn in H; try contradiction; [cbn; lia|].
    destruct H as (-> & _ & _ & H2). cbn [firstn last_from rises]. specialize (IH n' ltac:(lia) _ _ _ _ H2). lia.
Qed.
(** no rise in between means the same count of rises *)
Lemma flat_rises : forall t a, growing a t -> last_from a t = a -> rises a t = 0.
Proof.
  induction t as [|[k i] t IH]; intros a G E; [reflexivity|]. cbn [growing last_from rises] in *. destruct G as [G1 G2]. pose proof (growing_last _ _ G2).
  assert (X : i = a) by lia. rewrite X in *. rewrite Z.ltb_irrefl, IH by assumption. reflexivity.
Qed.
Lemma growing_first n : forall t a, growing a t -> growing a (firstn n t).
Proof. induction n as [|n IH]; intros [|[k i] t] a G; cbn in *; try exact I. destruct G. auto. Qed.
Lemma flat_levels n n' : (n <= n')%nat -> forall t a, growing a t -> last_from a (firstn n' t) = last_from a (firstn n t) ->
  rises a (firstn n' t) = rises a (firstn n t).
Proof.
  revert n'. induction n as [|n IH]; intros n' Hn t a G E.
  - rewrite take_0 in *. cbn [last_from rises] in *. apply flat_rises; [apply growing_first; exact G|exact E].
  - destruct n' as [|n']; [lia|]. destruct t as [|[k i] t]; [reflexivity|]. cbn in *. rewrite (IH n'); [reflexivity|lia|apply G|exact E].
Qed.
(** from one place of the histories to another further up *)
Lemma finer_up s t n n' : finer c s t -> growing 0 s ->
  last_from 0 (firstn n s) <= last_from 0 (firstn n' s) -> last_from 0 (firstn n t) <= last_from 0 (firstn n' t) ->
  0 <= (last_from 0 (firstn n' s) - last_from 0 (firstn n s)) - c * (last_from 0 (firstn n' t) - last_from 0 (firstn n t))
    <= (c - 1) * (rises 0 (firstn n' s) - rises 0 (firstn n s)).
Proof.
  intros F G H1 H2. destruct (Nat.le_ge_cases n n') as [H|H]; [apply (finer_levels n n' H _ _ _ _ F)|].
  pose proof (finer_levels n' n H _ _ _ _ F) as [Q1 Q2].
  assert (E : last_from 0 (firstn n t) = last_from 0 (firstn n' t)) by lia. rewrite E in *.
  assert (E2 : last_from 0 (firstn n s) = last_from 0 (firstn n' s)) by lia. rewrite (flat_levels n' n H _ _ G E2), E2. lia.
Qed.

(** ** What is credited *)
Lemma floors a b q : 0 <= a - b <= q -> 0 <= a / P16 - b / P16 /\ P16 * (a / P16 - b / P16) <= q + (P16 - 1).
Proof.
  intros H. pose proof (Z.div_mod a P16 ltac:(lia)). pose proof (Z.div_mod b P16 ltac:(lia)).
  pose proof (Z.mod_pos_bound a P16 ltac:(lia)). pose proof (Z.mod_pos_bound b P16 ltac:(lia)). lia.
Qed.
Lemma segment u1 u2 s S q : 0 <= u1 - c * u2 <= (c - 1) * q -> 0 <= s <= S ->
  0 <= u1 * s - u2 * (c * s) <= S * ((c - 1) * q).
Proof. intros H1 H2. replace (u1 * s - u2 * (c * s)) with (s * (u1 - c * u2)) by ring. nia. Qed.

Definition seen (d : Z) (ci : sched) : Z := rises 0 (firstn (lead d (map fst ci)) ci).
Lemma earned_times S ci1 ci2 ts : 
  (forall d d', d <= d' -> 0 <= (visible d' ci1 - visible d ci1) - c * (visible d' ci2 - visible d ci2) <= (c - 1) * (seen d' ci1 - seen d ci1)) ->
  forall l1 l2 s1 s2 j1 j2 g, ascending l1 -> map fst l1 = map fst l2 ->
  0 <= (visible ts ci1 - j1) - c * (visible ts ci2 - j2) <= (c - 1) * (seen ts ci1 - g) ->
  dates (fun d => d <= ts /\ 0 <= (visible d ci1 - j1) - c * (visible d ci2 - j2) <= (c - 1) * (seen d ci1 - g)) l1 ->
  (forall d, s2 - Spec.due d l2 = c * (s1 - Spec.due d l1) /\ 0 <= s1 - Spec.due d l1 <= S) ->
  0 <= earned ci1 s1 j1 l1 ts - earned ci2 s2 j2 l2 ts /\
  P16 * (earned ci1 s1 j1 l1 ts - earned ci2 s2 j2 l2 ts) <= S * ((c - 1) * (seen ts ci1 - g)) + (P16 - 1) * (1 + Z.of_nat (length l1)).
Proof.
  intros St. induction l1 as [|[d x] r IH]; intros l2 s1 s2 j1 j2 g Ha E Hj Hd Hs; destruct l2 as [|[d' x'] r']; cbn in E; try discriminate.
  - cbn [earned length]. destruct (Hs 0) as [Hs1 Hs2]. cbn [Spec.due] in Hs1, Hs2. replace s2 with (c * s1) by lia.
    pose proof (floors _ _ _ (segment _ _ s1 S _ Hj ltac:(lia))). lia.
  - injection E as <- E. cbn [earned length].
    destruct (Hd d x (or_introl eq_refl)) as [Hdt Hjd].
    assert (Hge : forall k v, In (k, v) r -> d < k) by (intros; eapply Ha; eassumption).
    assert (Hge' : forall k v, In (k, v) r' -> d < k).
    { intros k v Hin. destruct (keys_in r' r k (eq_sym E)) as (v2 & H2); eauto. }
    assert (B0 : s2 = c * s1 /\ 0 <= s1 <= S).
    { specialize (Hs (d - 1)). cbn [Spec.due] in Hs. rewrite (proj2 (Z.leb_gt d (d - 1))) in Hs by lia.
      rewrite !due_nil_below in Hs; [lia| |]; intros k v Hin; [apply Hge in Hin|apply Hge' in Hin]; lia. }
    destruct B0 as [-> B0]. pose proof (floors _ _ _ (segment _ _ s1 S _ Hjd B0)) as F.
    destruct (IH r' (s1 - x) (c * s1 - x') (visible d ci1) (visible d ci2) (seen d ci1)) as [I1 I2].
    + apply Ha.
    + exact E.
    + apply St. exact Hdt.
    + intros k v Hin. destruct (Hd k v (or_intror Hin)) as [Hk _]. split; [assumption|]. apply Hge in Hin. apply St. lia.
    + intros k. destruct (Z_le_gt_dec d k).
      * specialize (Hs k). cbn [Spec.due] in Hs. rewrite (proj2 (Z.leb_le d k)) in Hs by assumption. lia.
      * rewrite !due_nil_below; [|intros k' v Hin; apply Hge in Hin; lia|intros k' v Hin; apply Hge' in Hin; lia].
        specialize (Hs d). cbn [Spec.due] in Hs. rewrite Z.leb_refl in Hs.
        rewrite !due_nil_below in Hs; [lia| |]; intros k' v Hin; [apply Hge in Hin|apply Hge' in Hin]; lia.
    + lia.
Qed.

(** ** Minings *)
Definition placed (ci1 ci2 : sched) (m n : wmining) (r : Z) : Prop :=
  exists k : nat, (k <= length ci1)%nat /\ m_index (wm m) = last_from 0 (firstn k ci1) /\ m_index (wm n) = last_from 0 (firstn k ci2) /\ r = rises 0 (firstn k ci1).
Definition lag (m n : wmining) : Z := m_unclaimed (wm m) - m_unclaimed (wm n).
Lemma lead_length d : forall l, (lead d l <= length l)%nat.
Proof. induction l as [|k l IH]; cbn; [lia|]. destruct (k <? d); lia. Qed.
Lemma visible_lead2 d (s t : sched) : map fst s = map fst t -> visible d t = last_from 0 (firstn (lead d (map fst s)) t).
Proof. intros E. unfold visible. rewrite visible_lead, E. reflexivity. Qed.

Lemma refresh_times S ts ci1 ci2 m n m' n' r :
  finer c ci1 ci2 -> growing 0 ci1 -> growing 0 ci2 ->
  ascending (wm_diffs m) -> values is_u64 (wm_diffs m) -> 0 <= own m (day_start ts) -> 0 <= m_sfo (wm m) -> m_share (wm m) + m_sfo (wm m) <= S ->
  mining_times c m n -> placed ci1 ci2 m n r -> refreshed ts ci1 m m' -> refreshed ts ci2 n n' ->
  mining_times c m' n' /\ exists r', placed ci1 ci2 m' n' r' /\ 0 <= lag m' n' - lag m n /\
    P16 * (lag m' n' - lag m n) <= S * ((c - 1) * (r' - r)) + (P16 - 1) * (1 + len m - len m').
Proof.
  intros F G1 G2 A V Hown Hsfo HS [D O Sf] (k & Hk & I1 & I2 & ->) R1 R2. pose proof (finer_keys _ _ _ _ F) as K. split.
  - constructor.
    + rewrite (rf_diffs _ _ _ _ R1), (rf_diffs _ _ _ _ R2). apply keys_after. exact D.
    + intros d. rewrite (own_refreshed _ _ _ _ d R1), (own_refreshed _ _ _ _ d R2). apply O.
    + rewrite (rf_sfo _ _ _ _ R1), (rf_sfo _ _ _ _ R2). exact Sf.
  - exists (seen ts ci1). split.
    + exists (lead ts (map fst ci1)). split; [rewrite <- (map_length fst ci1); apply lead_length|].
      rewrite (rf_index _ _ _ _ R1), (rf_index _ _ _ _ R2), (visible_lead2 ts ci1 ci2 K). unfold visible. rewrite visible_lead. auto.
    + unfold lag. rewrite (rf_unclaimed _ _ _ _ R1), (rf_unclaimed _ _ _ _ R2).
      assert (NV : forall d, m_index (wm m) <= visible d ci1 -> m_index (wm n) <= visible d ci2 ->
        0 <= (visible d ci1 - m_index (wm m)) - c * (visible d ci2 - m_index (wm n)) <= (c - 1) * (seen d ci1 - rises 0 (firstn k ci1))).
      { intros d H1 H2. rewrite (visible_lead2 d ci1 ci2 K) in *. unfold visible, seen in *. rewrite visible_lead in *. rewrite I1, I2 in *.
        apply finer_up; assumption. }
      destruct (earned_times S ci1 ci2 ts) with (l1 := upto (day_start ts) (wm_diffs m)) (l2 := upto (day_start ts) (wm_diffs n))
        (s1 := m_share (wm m) + m_sfo (wm m)) (s2 := m_share (wm n) + m_sfo (wm n)) (j1 := m_index (wm m)) (j2 := m_index (wm n)) (g := rises 0 (firstn k ci1)) as [E1 E2].
      * intros d d' Hd. pose proof (visible_mono 0 d d' ci1 G1 Hd) as M1. pose proof (visible_mono 0 d d' ci2 G2 Hd) as M2. fold (visible d ci1) (visible d' ci1) in M1. fold (visible d ci2) (visible d' ci2) in M2.
        rewrite (visible_lead2 d ci1 ci2 K), (visible_lead2 d' ci1 ci2 K) in *. unfold visible, seen in *. rewrite !visible_lead in *. apply finer_up; assumption.
      * apply ascending_upto. exact A.
      * apply keys_upto. exact D.
      * apply NV; [exact (rf_index_le _ _ _ _ R1)|exact (rf_index_le _ _ _ _ R2)].
      * intros d v Hin. apply in_upto in Hin as [Hin Hd]. pose proof (day_start_le ts). split; [lia|]. apply NV.
        -- exact (rf_first _ _ _ _ R1 _ _ Hin Hd).
        -- destruct (keys_in _ _ d D) as (v2 & H2); [eauto|]. exact (rf_first _ _ _ _ R2 _ _ H2 Hd).
      * intros d. rewrite !due_upto. pose proof (O (Z.min d (day_start ts))) as Od. unfold own in Od.
        pose proof (own_mono m (Z.min d (day_start ts)) (day_start ts) V ltac:(lia)) as OM. unfold own in *.
        assert (0 <= Spec.due (Z.min d (day_start ts)) (wm_diffs m)).
        { apply due_bounds. intros k' v Hin. apply V in Hin. unfold is_u64 in Hin. lia. }
        split; [rewrite Sf; lia|lia].
      * rewrite (length_split (day_start ts)) in E2. unfold len. rewrite (rf_diffs _ _ _ _ R1). lia.
Qed.

Lemma stake_times ci1 ci2 a1 a2 r m n : mining_times c a1 a2 -> placed ci1 ci2 a1 a2 r -> only_stake a1 m -> only_stake a2 n ->
  map fst (wm_diffs m) = map fst (wm_diffs n) -> (forall d, own n d = c * own m d) -> mining_times c m n /\ placed ci1 ci2 m n r /\ lag m n = lag a1 a2.
Proof.
  intros [D O Sf] (k & Hk & J1 & J2 & R) (_ & I1 & U1 & S1) (_ & I2 & U2 & S2) K H. split; [constructor; [exact K|exact H|rewrite S1, S2; exact Sf]|].
  split; [exists k; rewrite I1, I2; auto|]. unfold lag. congruence.
Qed.
Lemma delegated_times m n x y : mining_times c m n -> y = c * x -> mining_times c (with_delegated m x) (with_delegated n y).
Proof. intros [D O Sf] H. constructor; assumption. Qed.

Definition base_ok (i : ix) : Prop := match i with ExtendStake _ _ _ base _ _ _ => 0 <= base | _ => True end.

Lemma times_most m n : mining_times c m n -> most n = c * most m.
Proof.
  intros [D O _]. destruct (early_date (map fst (wm_diffs m))) as (d & H). specialize (O d). unfold own in O.
  rewrite !due_nil_below in O; [unfold most; lia| |]; intros k v Hin; apply H; [|rewrite D]; apply (in_map fst) in Hin; exact Hin.
Qed.
Lemma times_least m n : mining_times c m n -> least n = c * least m.
Proof.
  intros [D O _]. destruct (far_date (map fst (wm_diffs m))) as (d & H). specialize (O d). unfold own in O.
  rewrite !due_all in O; [exact O| |]; intros k v Hin; apply H; [|rewrite D]; apply (in_map fst) in Hin; exact Hin.
Qed.
Lemma if_times (b : bool) x : (if b then c * x else 0) = c * (if b then x else 0).
Proof. destruct b; lia. Qed.

Lemma page_times S1 S2 ts i j l ci1 ci2 m n p q m' n' r :
  finer c ci1 ci2 -> growing 0 ci1 -> growing 0 ci2 -> mining_wf m -> mining_wf n -> mining_wf m' -> mining_wf n' ->
  m_share (wm m) <= S1 -> m_sfo (wm m) <= S2 -> m_sfo (wm m') <= S2 -> times c i j -> base_ok i -> sound_page ts i l m ->
  mining_times c m n -> placed ci1 ci2 m n r -> page (ts, i, l, ci1) m p m' -> page (ts, j, l, ci2) n q n' ->
  mining_times c m' n' /\ exists r', placed ci1 ci2 m' n' r' /\ 0 <= (p + lag m' n' - q) - lag m n /\
    P16 * ((p + lag m' n' - q) - lag m n) <= (S1 + S2) * ((c - 1) * (r' - r)) + (P16 - 1) * (1 + len m - len m' + one (puts i)).
Proof.
  intros F G1 G2 W1 W2 W1' W2' HS1 HS2 HS2' T BO SO MT PL P1 P2.
  pose proof (mw_asc _ W1) as A1. pose proof (mw_asc _ W2) as A2. pose proof (mw_vals _ W1) as V1. pose proof (mw_vals _ W2) as V2.
  pose proof (mw_asc _ W1') as B1. pose proof (mw_asc _ W2') as B2.
  pose proof (mw_sfo _ W1) as Q1. pose proof (mw_sfo _ W1') as Q2. pose proof (mw_share _ W1') as Q3. unfold is_u64 in Q1, Q2, Q3.
  assert (RT : forall m1 n1, refreshed ts ci1 m m1 -> refreshed ts ci2 n n1 -> 0 <= own m (day_start ts) ->
     mining_times c m1 n1 /\ exists r', placed ci1 ci2 m1 n1 r' /\ 0 <= lag m1 n1 - lag m n /\
       P16 * (lag m1 n1 - lag m n) <= (S1 + S2) * ((c - 1) * (r' - r)) + (P16 - 1) * (1 + len m - len m1)).
  { intros m1 n1 R1 R2 HO. eapply refresh_times; try eassumption; lia. }
  assert (RL : forall a b m1 n1, refreshed ts ci1 (with_delegated m a) m1 -> refreshed ts ci2 (with_delegated n b) n1 -> 0 <= own m (day_start ts) -> b = c * a -> 0 <= a <= S2 ->
     mining_times c m1 n1 /\ exists r', placed ci1 ci2 m1 n1 r' /\ 0 <= lag m1 n1 - lag m n /\
       P16 * (lag m1 n1 - lag m n) <= (S1 + S2) * ((c - 1) * (r' - r)) + (P16 - 1) * (1 + len m - len m1)).
  { intros a b m1 n1 R1 R2 HO E Ha. apply (refresh_times (S1 + S2) ts ci1 ci2 (with_delegated m a) (with_delegated n b)); try assumption; cbn [with_delegated wm m_share m_sfo]; try lia.
    apply delegated_times; assumption. }
  assert (OW : forall x a, refreshed ts ci1 x a -> wm_diffs x = wm_diffs m -> m_share (wm x) = m_share (wm m) -> own m (day_start ts) = m_share (wm a)).
  { intros x a R E1 E2. unfold own. rewrite (rf_share _ _ _ _ R), E1, E2. reflexivity. }
  destruct i, j; cbn [times] in T; try contradiction; cbn [page sound_page base_ok puts one] in *; try contradiction.
  - (* DepositMining *)
    destruct P1 as [-> P1], P2 as [-> P2]. destruct T as [<- ->]. destruct (here 1 l).
    + destruct P1 as (a1 & R1 & O1 & E1 & S3 & _), P2 as (a2 & R2 & O2 & E2 & S4 & _).
      destruct (RT _ _ R1 R2 (SO eq_refl)) as (MT1 & r' & PL1 & L1 & L2).
      pose proof (refreshed_asc _ _ _ _ A1 R1) as C1. pose proof (refreshed_asc _ _ _ _ A2 R2) as C2.
      destruct (scheduled_both _ _ _ _ _ _ _ _ (mt_dates _ _ _ MT1) C1 C2 B1 B2 S3 S4) as (K & cc & H).
      destruct (stake_times _ _ _ _ _ m' n' MT1 PL1 O1 O2 K) as (MT2 & PL2 & EL).
      { intros d. destruct (H d) as [H1 H2]. pose proof (mt_own _ _ _ MT1 d) as Q. unfold own in *. rewrite H1, H2, E1, E2. destruct (cc d); lia. }
      split; [exact MT2|]. exists r'. split; [exact PL2|]. pose proof (scheduled_length _ _ _ _ _ C1 B1 S3). unfold len in *. lia.
    + destruct (RL _ _ _ _ P1 P2 ltac:(rewrite (OW _ _ P1 eq_refl eq_refl); lia) ltac:(rewrite (mt_sfo _ _ _ MT); lia) ltac:(pose proof (rf_sfo _ _ _ _ P1) as X; cbn [with_delegated wm m_sfo] in X; lia))
        as (MT1 & r' & PL1 & L1 & L2).
      split; [exact MT1|]. exists r'. split; [exact PL1|]. lia.
  - (* WithdrawMining *)
    destruct P1 as [-> P1], P2 as [-> P2]. subst. destruct (here 1 l).
    + destruct P1 as (a1 & R1 & O1 & E1 & S3), P2 as (a2 & R2 & O2 & E2 & S4).
      destruct (RT _ _ R1 R2 ltac:(rewrite (OW _ _ R1 eq_refl eq_refl); lia)) as (MT1 & r' & PL1 & L1 & L2).
      destruct (stake_times _ _ _ _ _ m' n' MT1 PL1 O1 O2) as (MT2 & PL2 & EL).
      { rewrite S3, S4. apply MT1. }
      { intros d. pose proof (mt_own _ _ _ MT1 d) as Q. unfold own in *. rewrite S3, S4, E1, E2. lia. }
      split; [exact MT2|]. exists r'. split; [exact PL2|]. unfold len in *. rewrite S3. lia.
    + destruct (RL _ _ _ _ P1 P2 ltac:(rewrite (OW _ _ P1 eq_refl eq_refl); lia) ltac:(rewrite (mt_sfo _ _ _ MT); lia) ltac:(pose proof (rf_sfo _ _ _ _ P1) as X; cbn [with_delegated wm m_sfo] in X; lia))
        as (MT1 & r' & PL1 & L1 & L2).
      split; [exact MT1|]. exists r'. split; [exact PL1|]. lia.
  - (* Claim *)
    destruct P1 as (a1 & R1 & -> & ->), P2 as (a2 & R2 & -> & ->).
    destruct (RT _ _ R1 R2 ltac:(rewrite (OW _ _ R1 eq_refl eq_refl); exact (proj1 Q3))) as ([D O Sf] & r' & PL1 & L1 & L2).
    split; [constructor; assumption|]. exists r'. split; [exact PL1|]. unfold lag, len in *. cbn [emptied wm m_unclaimed wm_diffs] in *. lia.
  - (* ExtendStake *)
    destruct P1 as [-> P1], P2 as [-> P2]. destruct T as (<- & <- & <- & -> & ->). destruct (here 1 l).
    + destruct P1 as (a1 & t1 & R1 & O1 & E1 & L1 & S3 & _), P2 as (a2 & t2 & R2 & O2 & E2 & L2 & S4 & _).
      destruct (RT _ _ R1 R2 SO) as (MT1 & r' & PL1 & X1 & X2).
      pose proof (refreshed_asc _ _ _ _ A1 R1) as C1. pose proof (refreshed_asc _ _ _ _ A2 R2) as C2.
      assert (LL : map fst t1 = map fst t2 /\ ascending t1 /\ ascending t2 /\ length t1 = length (wm_diffs a1) /\
        exists h : Z -> Z, forall d, Spec.due d t1 = Spec.due d (wm_diffs a1) - h d /\ Spec.due d t2 = Spec.due d (wm_diffs a2) - c * h d).
      { destruct (unexpired _ _ ts).
        - pose proof L1 as (_ & _ & K1 & _). pose proof L2 as (_ & _ & K2 & _).
          split; [rewrite K1, K2; exact (mt_dates _ _ _ MT1)|].
          split; [eapply ascending_keys; [symmetry; exact K1|exact C1]|]. split; [eapply ascending_keys; [symmetry; exact K2|exact C2]|].
          split; [exact (keys_length _ _ K1)|].
          eexists (fun d => if _ <=? d then _ else 0). intros d. split; [exact (lowered_less _ _ _ _ d C1 L1)|].
          cbv beta. rewrite <- if_times, (lowered_less _ _ _ _ d C2 L2). destruct (_ <=? d); lia.
        - subst. split; [exact (mt_dates _ _ _ MT1)|]. split; [exact C1|]. split; [exact C2|]. split; [reflexivity|]. exists (fun _ => 0). intros d. lia. }
      destruct LL as (K' & D1 & D2 & LE & h & HL).
      destruct (scheduled_both _ _ _ _ _ _ _ _ K' D1 D2 B1 B2 S3 S4) as (K & cc & H).
      destruct (stake_times _ _ _ _ _ m' n' MT1 PL1 O1 O2 K) as (MT2 & PL2 & EL).
      { intros d. destruct (H d) as [H1 H2], (HL d) as [H3 H4]. pose proof (mt_own _ _ _ MT1 d) as Q. unfold own in *. rewrite H1, H2, E1, E2, H3, H4.
        unfold counted. destruct (cc d), (unexpired _ _ ts); lia. }
      split; [exact MT2|]. exists r'. split; [exact PL2|]. pose proof (scheduled_length _ _ _ _ _ D1 B1 S3). unfold len in *. lia.
    + destruct P1 as (b1 & R1 & ->), P2 as (b2 & R2 & ->). cbn [with_delegated wm m_share m_sfo] in *.
      destruct (RL _ _ _ _ R1 R2 ltac:(rewrite (OW _ _ R1 eq_refl eq_refl); lia) ltac:(rewrite (mt_sfo _ _ _ MT); lia) ltac:(lia))
        as (MT1 & r' & PL1 & L1 & L2).
      split; [apply delegated_times; [exact MT1|]; rewrite (mt_sfo _ _ _ MT); lia|]. exists r'. split; [exact PL1|]. unfold lag, len in *. cbn [with_delegated wm m_unclaimed wm_diffs] in *. lia.
  - (* ChangeDelegate *)
    destruct P1 as [-> P1], P2 as [-> P2]. subst. destruct (here 1 l); [|destruct (here 4 l)].
    + destruct (RT _ _ P1 P2 ltac:(rewrite (OW _ _ P1 eq_refl eq_refl); lia)) as (MT1 & r' & PL1 & L1 & L2). split; [exact MT1|]. exists r'. split; [exact PL1|]. lia.
    + destruct (RL _ _ _ _ P1 P2 ltac:(rewrite (OW _ _ P1 eq_refl eq_refl); lia) ltac:(rewrite (mt_sfo _ _ _ MT); lia) ltac:(pose proof (rf_sfo _ _ _ _ P1) as X; cbn [with_delegated wm m_sfo] in X; lia))
        as (MT1 & r' & PL1 & L1 & L2).
      split; [exact MT1|]. exists r'. split; [exact PL1|]. lia.
    + destruct (RL _ _ _ _ P1 P2 ltac:(rewrite (OW _ _ P1 eq_refl eq_refl); lia) ltac:(rewrite (mt_sfo _ _ _ MT); lia) ltac:(pose proof (rf_sfo _ _ _ _ P1) as X; cbn [with_delegated wm m_sfo] in X; lia))
        as (MT1 & r' & PL1 & L1 & L2).
      split; [exact MT1|]. exists r'. split; [exact PL1|]. lia.
  - (* Slash *)
    destruct P1 as [-> P1], P2 as [-> P2]. destruct T as (<- & -> & ->).
    destruct P1 as (a1 & R1 & O1 & E1 & T1), P2 as (a2 & R2 & O2 & E2 & T2).
    destruct (RT _ _ R1 R2 ltac:(rewrite (OW _ _ R1 eq_refl eq_refl); lia)) as (MT1 & r' & PL1 & L1 & L2).
    pose proof (refreshed_asc _ _ _ _ A1 R1) as C1. pose proof (refreshed_asc _ _ _ _ A2 R2) as C2.
    match type of T1 with match ?d with _ => _ end => destruct d as [u|] end.
    + pose proof T1 as (_ & _ & K1 & _). pose proof T2 as (_ & _ & K2 & _).
      destruct (stake_times _ _ _ _ _ m' n' MT1 PL1 O1 O2) as (MT2 & PL2 & EL).
      { rewrite K1, K2. apply MT1. }
      { intros d. pose proof (mt_own _ _ _ MT1 d) as Q. unfold own in *. rewrite (lowered_less _ _ _ _ d C1 T1), (lowered_less _ _ _ _ d C2 T2), E1, E2. destruct (_ <=? d); lia. }
      split; [exact MT2|]. exists r'. split; [exact PL2|]. unfold len in *. rewrite (keys_length _ _ K1). lia.
    + destruct (stake_times _ _ _ _ _ m' n' MT1 PL1 O1 O2) as (MT2 & PL2 & EL).
      { rewrite T1, T2. apply MT1. }
      { intros d. pose proof (mt_own _ _ _ MT1 d) as Q. unfold own in *. rewrite T1, T2, E1, E2. lia. }
      split; [exact MT2|]. exists r'. split; [exact PL2|]. unfold len in *. rewrite T1. lia.
  - (* DecreaseRewards *)
    destruct P1 as [-> P1], P2 as [-> P2]. subst. pose proof P1 as (O1 & E1 & K1 & _). pose proof P2 as (O2 & E2 & K2 & _).
    destruct (stake_times _ _ _ _ _ m' n' MT PL O1 O2) as (MT2 & PL2 & EL).
    { rewrite K1, K2. apply MT. }
    { intros d. rewrite (own_decreased _ _ _ d V1 P1), (own_decreased _ _ _ d V2 P2), (mt_own _ _ _ MT d), (times_most _ _ MT), (times_least _ _ MT).
      rewrite <- Z.mul_sub_distr_l, <- Z.mul_sub_distr_l, Z.mul_min_distr_nonneg_l, Z.mul_max_distr_nonneg_l by lia. reflexivity. }
    split; [exact MT2|]. exists r. split; [exact PL2|]. unfold len in *. rewrite (keys_length _ _ K1). lia.
Qed.

(** ** Pools *)
Lemma total_times v w v' w' : pool_times c v w -> only_total v v' -> only_total w w' ->
  map fst (wp_diffs v') = map fst (wp_diffs w') -> (forall d, all w' d = c * all v' d) -> pool_times c v' w'.
Proof.
  intros [D A B E C] (_ & _ & _ & _ & I1 & E1 & B1 & _ & _ & C1) (_ & _ & _ & _ & I2 & E2 & B2 & _ & _ & C2) K H.
  constructor; [exact K|exact H| | |]; rewrite ?E1, ?E2, ?B1, ?B2, ?C1, ?C2; assumption.
Qed.
Lemma rise_times x t : 0 <= x -> 0 < t -> 0 <= x / (c * t) /\ 0 <= x / t - c * (x / (c * t)) <= c - 1.
Proof.
  intros Hx Ht. rewrite (Z.mul_comm c t), <- Z.div_div by lia. pose proof (Z.div_pos x t Hx Ht). pose proof (Z.div_pos (x / t) c ltac:(lia) ltac:(lia)).
  pose proof (Z.div_mod (x / t) c ltac:(lia)). pose proof (Z.mod_pos_bound (x / t) c ltac:(lia)). lia.
Qed.
Lemma there_times b n x : if_there b n (c * x) = c * if_there b n x.
Proof. unfold if_there. destruct (nth n b false); lia. Qed.

Lemma pstep_times ts i j b v w v' w' :
  times c i j -> sound_pool ts i v -> 0 <= p_avail (wp v) ->
  (Z.of_nat (length (wp_ci v)) < 1095 -> p_index (wp v) = last_from 0 (wp_ci v)) ->
  (Z.of_nat (length (wp_ci w)) < 1095 -> p_index (wp w) = last_from 0 (wp_ci w)) ->
  ascending (wp_diffs v) -> ascending (wp_diffs w) -> ascending (wp_diffs v') -> ascending (wp_diffs w') ->
  pool_times c v w -> pstep (ts, i, b) v v' -> pstep (ts, j, b) w w' -> pool_times c v' w'.
Proof.
  intros LE SO Hav Lv Lw A1 A2 A1' A2' U P1 P2.
  destruct i, j; cbn [times] in LE; try contradiction; cbn [pstep] in P1, P2; try (subst; exact U).
  - (* FillVault *)
    destruct LE as [<- <-]. subst. destruct U as [D A B E C]. constructor; try assumption; cbn [filled wp p_avail p_ends_at]; [lia|reflexivity].
  - (* DepositMining *)
    destruct LE as [<- ->]. destruct P1 as (O1 & T1 & S1 & _), P2 as (O2 & T2 & S2 & _).
    destruct (scheduled_both _ _ _ _ _ _ _ _ (pt_dates _ _ _ U) A1 A2 A1' A2' S1 S2) as (K & cc & HH).
    eapply total_times; [exact U|exact O1|exact O2|exact K|]. intros d. destruct (HH d) as [H1 H2]. pose proof (pt_all _ _ _ U d) as Q.
    unfold all in *. rewrite T1, T2, H1, H2, there_times. destruct (cc d); lia.
  - (* WithdrawMining *)
    subst. destruct P1 as (O1 & T1 & S1), P2 as (O2 & T2 & S2).
    eapply total_times; [exact U|exact O1|exact O2|rewrite S1, S2; apply keys_after; exact (pt_dates _ _ _ U)|].
    intros d. pose proof (pt_all _ _ _ U (Z.max d (day_start ts))) as Q. unfold all in *. rewrite T1, T2, S1, S2, !due_late, there_times. lia.
  - (* ExtendStake *)
    destruct LE as (<- & <- & <- & -> & ->). destruct P1 as (O1 & T1 & S1 & _), P2 as (O2 & T2 & S2 & _).
    destruct (scheduled_both _ _ _ _ _ _ _ _ (pt_dates _ _ _ U) A1 A2 A1' A2' S1 S2) as (K & cc & HH).
    eapply total_times; [exact U|exact O1|exact O2|exact K|]. intros d. destruct (HH d) as [H1 H2]. pose proof (pt_all _ _ _ U d) as Q.
    unfold all in *. rewrite T1, T2, H1, H2, there_times. unfold counted. destruct (cc d), (unexpired _ _ ts); lia.
  - (* DistributeRewards *)
    destruct P1 as (O1 & T1 & S1 & Y1 & N1), P2 as (O2 & T2 & S2 & Y2 & N2).
    destruct (SO eq_refl) as (_ & HL & SD). fold (all v (day_start ts)) in T1, HL, SD. fold (all w (day_start ts)) in T2.
    pose proof U as [D A B E C]. pose proof (finer_keys _ _ _ _ C) as K.
    assert (DD : map fst (wp_diffs v') = map fst (wp_diffs w')) by (rewrite S1, S2; apply keys_after; exact D).
    assert (AA : forall d, all w' d = c * all v' d).
    { intros d. specialize (A (Z.max d (day_start ts))). unfold all in *. rewrite T1, T2, S1, S2, !due_late. lia. }
    assert (EE : p_ends_at (wp v') = p_ends_at (wp w')).
    { destruct O1 as (_ & _ & _ & _ & -> & _), O2 as (_ & _ & _ & _ & -> & _). exact E. }
    destruct (date_or_not (day_start ts) (wp_ci v)) as [HD|HD].
    + destruct (Y1 HD) as (C1 & X1 & V1). destruct (Y2 (proj1 (has_keys _ _ _ K) HD)) as (C2 & X2 & V2).
      constructor; [exact DD|exact AA| |exact EE|]; rewrite ?C1, ?C2, ?V1, ?V2; assumption.
    + destruct SD as [SD|[SD _]]; [contradiction|].
      destruct (N1 HD) as (X1 & V1 & C1). destruct (N2 (fun H => HD (proj2 (has_keys _ _ _ K) H))) as (X2 & V2 & C2).
      rewrite (keys_length _ _ K) in C1, Lv. rewrite E, B in X1, V1.
      constructor; [exact DD|exact AA|rewrite V1, V2; lia|exact EE|]. rewrite C1, C2.
      destruct (Z.ltb_spec (Z.of_nat (length (wp_ci w))) 1095) as [HH|HH]; [|exact C].
      rewrite B in Hav. pose proof (part_pos _ (p_ends_at (wp w)) ts Hav) as PP.
      pose proof (rise_times (P16 * daily_part (p_avail (wp w)) (p_ends_at (wp w)) ts) (all v (day_start ts)) ltac:(lia) ltac:(lia)) as RT.
      rewrite <- (A (day_start ts)) in RT.
      apply finer_snoc; [exact C| |]; rewrite ?X1, ?X2, ?T1, ?T2, ?(Lv HH), ?(Lw HH).
      * lia.
      * replace (last_from 0 (wp_ci w) + P16 * daily_part (p_avail (wp w)) (p_ends_at (wp w)) ts / all w (day_start ts) - last_from 0 (wp_ci w))
          with (P16 * daily_part (p_avail (wp w)) (p_ends_at (wp w)) ts / all w (day_start ts)) by lia. lia.
  - (* ChangeDelegate *)
    subst. destruct P1 as (O1 & S1 & T1), P2 as (O2 & S2 & T2).
    eapply total_times; [exact U|exact O1|exact O2|rewrite S1, S2; exact (pt_dates _ _ _ U)|].
    intros d. pose proof (pt_all _ _ _ U d) as Q. unfold all in *. rewrite T1, T2, S1, S2, !there_times. lia.
  - (* Slash *)
    destruct LE as (<- & -> & ->). destruct P1 as (O1 & T1 & S1), P2 as (O2 & T2 & S2).
    match type of S1 with match ?d with _ => _ end => destruct d as [u|] end.
    + pose proof S1 as (_ & _ & K1 & _). pose proof S2 as (_ & _ & K2 & _).
      eapply total_times; [exact U|exact O1|exact O2|rewrite K1, K2; apply keys_after; exact (pt_dates _ _ _ U)|].
      intros d. pose proof (pt_all _ _ _ U (Z.max d (day_start ts))) as Q. unfold all in *.
      rewrite (lowered_less _ _ _ _ d (ascending_after _ _ A1) S1), (lowered_less _ _ _ _ d (ascending_after _ _ A2) S2), T1, T2, !due_late.
      destruct (_ <=? d); lia.
    + eapply total_times; [exact U|exact O1|exact O2|rewrite S1, S2; apply keys_after; exact (pt_dates _ _ _ U)|].
      intros d. pose proof (pt_all _ _ _ U (Z.max d (day_start ts))) as Q. unfold all in *. rewrite T1, T2, S1, S2, !due_late. lia.
Qed.

(** ** One step after the other *)
Inductive kwalk (Q : wmining -> Prop) : list full_entry -> wpool -> wmining -> Z -> wpool -> wmining -> Prop :=
| kk_nil w m : good w -> mining_wf m -> Q m -> kwalk Q [] w m 0 w m
| kk_cons ts i bs l b w m p w1 m1 y w' m' : good w -> mining_wf m -> Q m ->
    (Z.of_nat (length (wp_ci w)) < 1095 -> p_index (wp w) = last_from 0 (wp_ci w)) -> base_ok i ->
    sound (ts, i, bs, l) w m -> step (ts, i, bs, l) w m p w1 m1 -> kwalk Q b w1 m1 y w' m' -> kwalk Q ((ts, i, bs, l) :: b) w m (p + y) w' m'.
Lemma kwalk_good Q b w m y w' m' : kwalk Q b w m y w' m' -> good w /\ mining_wf m /\ Q m.
Proof. intros H. destruct H; auto. Qed.

Lemma placed_more ci1 ci2 r1 r2 m n r : map fst ci1 = map fst ci2 -> placed ci1 ci2 m n r -> placed (ci1 ++ r1) (ci2 ++ r2) m n r.
Proof.
  intros K (k & Hk & I1 & I2 & E). exists k. pose proof (keys_length _ _ K). rewrite app_length, !take_app_le by lia. split; [lia|auto].
Qed.

Lemma kwalks_times S1 S2 b1 v m x v' m' : kwalk (fun m => m_share (wm m) <= S1 /\ m_sfo (wm m) <= S2) b1 v m x v' m' ->
  forall b2, Forall2 (scaled c) b1 b2 -> forall w n y w' n' r, kwalk (fun _ => True) b2 w n y w' n' ->
  pool_times c v w -> mining_times c m n -> placed (wp_ci v) (wp_ci w) m n r ->
  pool_times c v' w' /\ mining_times c m' n' /\ exists r', placed (wp_ci v') (wp_ci w') m' n' r' /\ 0 <= (x + lag m' n' - y) - lag m n /\
    P16 * ((x + lag m' n' - y) - lag m n) <= (S1 + S2) * ((c - 1) * (r' - r)) + (P16 - 1) * (how_many works b1 + how_many plans b1 + len m - len m').
Proof.
  induction 1 as [v m G M Q|ts i bs l b v m p v1 m1 x v' m' G M [Q1 Q2] LV BO S P H IH]; intros b2 B w n y w' n' r W PT MT PL.
  - inversion B; subst. inversion W; subst. split; [exact PT|]. split; [exact MT|]. exists r. split; [exact PL|]. unfold how_many. cbn [filter length]. lia.
  - inversion B as [|? [[[ts2 j] cs] l2] ? c2 BT BF]; subst. inversion W as [|? ? ? ? ? ? ? q w1 n1 y1 ? ? G2 M2 _ LW BO2 SS2 P2 W2]; subst.
    destruct BT as (<- & <- & <- & T). destruct P as [P1 PM1], P2 as [P2 PM2].
    destruct (kwalk_good _ _ _ _ _ _ _ H) as (G1' & M1' & Q1' & Q2'). destruct (kwalk_good _ _ _ _ _ _ _ W2) as (G2' & M2' & _).
    destruct G as (t1 & G), G2 as (t2 & G2), G1' as (t3 & G1'), G2' as (t4 & G2').
    assert (PT1 : pool_times c v1 w1).
    { eapply (pstep_times ts i j bs); [exact T|apply S| |exact LV|exact LW|exact (pw_diffs_asc _ _ G)|exact (pw_diffs_asc _ _ G2)|exact (pw_diffs_asc _ _ G1')|exact (pw_diffs_asc _ _ G2')|exact PT|exact P1|exact P2].
      pose proof (pw_avail _ _ G) as X. unfold is_u64 in X. lia. }
    destruct (pstep_ci _ _ _ P1) as (s1 & F1). destruct (pstep_ci _ _ _ P2) as (s2 & F2).
    pose proof (finer_keys _ _ _ _ (pt_ci _ _ _ PT)) as KC.
    assert (ST : mining_times c m1 n1 /\ exists r', placed (wp_ci v) (wp_ci w) m1 n1 r' /\ 0 <= (p + lag m1 n1 - q) - lag m n /\
      P16 * ((p + lag m1 n1 - q) - lag m n) <= (S1 + S2) * ((c - 1) * (r' - r)) + (P16 - 1) * (how_many works [(ts, i, bs, l)] + how_many plans [(ts, i, bs, l)] + len m - len m1)).
    { destruct l as [|l0 l].
      - destruct PM1 as [-> ->], PM2 as [-> ->]. split; [exact MT|]. exists r. split; [exact PL|]. unfold how_many. cbn [filter works plans length]. lia.
      - destruct (page_times S1 S2 ts i j (l0 :: l) (wp_ci v) (wp_ci w) m n p q m1 n1 r (pt_ci _ _ _ PT) (pw_ci_grow _ _ G) (pw_ci_grow _ _ G2) M M2 M1' M2'
          Q1 Q2 Q2' T BO ltac:(apply S; discriminate) MT PL PM1 PM2) as (MT1 & r' & PL1 & L1 & L2).
        split; [exact MT1|]. exists r'. split; [exact PL1|]. destruct (works_cons ts i bs l0 l []) as [-> ->]. unfold how_many. cbn [filter length]. lia. }
    destruct ST as (MT1 & r1 & PL1 & L1 & L2).
    assert (PL2 : placed (wp_ci v1) (wp_ci w1) m1 n1 r1) by (rewrite F1, F2; apply placed_more; assumption).
    destruct (IH _ BF _ _ _ _ _ _ W2 PT1 MT1 PL2) as (PT3 & MT3 & r3 & PL3 & L3 & L4).
    split; [exact PT3|]. split; [exact MT3|]. exists r3. split; [exact PL3|]. rewrite !how_many_cons in *. change (how_many works []) with 0 in L2. change (how_many plans []) with 0 in L2. lia.
Qed.
End scale.

Section env.
Context (e : env) (Henv : env_ok e).
Lemma full_log_kwalk Q P k now0 L0 b0 now L now' L' b x : full_log e P k now L now' L' b x -> reached e now L ->
  forall d y, full_log e P k now0 L0 now L d y -> b0 = d ++ b -> always e P k now0 L0 b0 Q ->
  forall w m, is_pool e L P w -> is_mining e L k m -> exists w' m', is_pool e L' P w' /\ is_mining e L' k m' /\ kwalk Q b w m x w' m'.
Proof.
  induction 1 as [now L O OM|now L ts ms i L1 r now' L' b x O OM Hts Hu Hi X HH HI IH|now L ts L1 now' L' b x O OM Hts Hu X HI IH];
    intros HR d y Hd Eb Hq w m Hw Hm; pose proof (good_pool e Henv _ _ _ _ HR Hw) as Wp; pose proof (good_mining e Henv _ _ _ _ HR Hm) as Wm; pose proof (Hq _ _ _ _ _ _ Eb Hd Hm) as Qm.
  - exists w, m. split; [assumption|]. split; [assumption|constructor; assumption].
  - pose proof (full_log_running e _ _ _ _ _ _ _ _ HI) as [RU OP]. pose proof RU as (w1 & Hw1 & T1). pose proof OP as (m1 & Hm1 & U1). pose proof O as (w0 & Hw0 & T0).
    rewrite (pool_fun e _ _ _ _ Hw0 Hw) in T0.
    pose proof (reached_exec e now ts ms i L L1 r HR Hts Hu Hi X) as HR1.
    assert (Hd1 : full_log e P k now0 L0 ts L1 (d ++ logged_with P k ts ms i) (y + takes k ms i r)).
    { eapply full_log_app; [exact Hd|]. rewrite <- (app_nil_r (logged_with P k ts ms i)), <- (Z.add_0_r (takes k ms i r)).
      eapply fl_ix; try eassumption. constructor; assumption. }
    destruct (IH HR1 _ _ Hd1 ltac:(rewrite <- app_assoc; exact Eb) Hq w1 m1 Hw1 Hm1) as (w' & m' & Hw' & Hm' & PS). exists w', m'. split; [assumption|]. split; [assumption|].
    pose proof (exec_step e Henv now ts ms i L L1 r P k w w1 m m1 HR Hts Hi X Hw T0 Hw1 Hm Hm1 U1 HH) as E.
    destruct (logged_with P k ts ms i) as [|z t] eqn:En.
    { destruct E as (-> & E1 & E2). rewrite E1, E2 in PS. exact PS. }
    assert (Z : z = (ts, gist i, delegates ms i, places k ms i) /\ names ms (pool_position i) P = true).
    { unfold logged_with in En. destruct (names _ _ _); [|discriminate]. split; [|reflexivity]. destruct (writes_pool i), (places k ms i); congruence. }
    destruct Z as [-> Np]. pose proof (logged_with_short _ _ _ _ _ _ _ En) as ->. cbn [app] in *.
    econstructor; [exact Wp|exact Wm|exact Qm|exact (reached_logged e Henv now L HR P w Hw)| | |exact E|exact PS].
    + destruct i; cbn [gist base_ok]; try exact I. cbn [ix_in_range] in Hi. unfold is_u64 in Hi. lia.
    + split; [exact (exec_sound_pool e Henv _ _ _ _ _ _ _ _ _ HR Hts Hi X Hw Np)|]. split; [exact (exec_sound_page e Henv _ _ _ _ _ _ _ _ _ HR Hts Hi X Hm)|apply two_delegates].
  - destruct (full_log_running e _ _ _ _ _ _ _ _ HI) as [RU OP]. pose proof RU as (w1 & Hw1 & T1). pose proof OP as (m1 & Hm1 & U1).
    pose proof (ext_pool e _ _ _ _ _ X Hw Hw1) as ->. pose proof (ext_mining e _ _ _ _ _ X Hm Hm1) as ->.
    assert (Hd1 : full_log e P k now0 L0 ts L1 d y).
    { rewrite <- (app_nil_r d), <- (Z.add_0_r y). eapply full_log_app; [exact Hd|]. eapply fl_ext; try eassumption. constructor; assumption. }
    exact (IH (ext_reached e _ _ _ _ HR Hts Hu X) _ _ Hd1 Eb Hq w m Hw1 Hm1).
Qed.
End env.

Lemma other_unit e1 e2 : env_ok e1 -> env_ok e2 -> forall c P1 P2 k1 k2 now1 L1 now1' L1' now2 L2 now2' L2' b d x y v w v' w' m n m' n' s t,
  1 <= c -> reached e1 now1 L1 -> reached e2 now2 L2 ->
  full_log e1 P1 k1 now1 L1 now1' L1' b x -> full_log e2 P2 k2 now2 L2 now2' L2' d y -> Forall2 (scaled c) b d ->
  always e1 P1 k1 now1 L1 b (fun m => m_share (wm m) <= s /\ m_sfo (wm m) <= t) ->
  is_pool e1 L1 P1 v -> is_pool e2 L2 P2 w -> pool_times c v w ->
  is_mining e1 L1 k1 m -> is_mining e2 L2 k2 n -> mining_times c m n -> same_place v w m n -> m_unclaimed (wm m) = m_unclaimed (wm n) ->
  is_pool e1 L1' P1 v' -> is_pool e2 L2' P2 w' -> is_mining e1 L1' k1 m' -> is_mining e2 L2' k2 n' ->
  pool_times c v' w' /\ mining_times c m' n' /\ same_place v' w' m' n' /\
  let coarse := x + m_unclaimed (wm m') in let fine := y + m_unclaimed (wm n') in
  fine <= coarse /\
  P16 * (coarse - fine) <= (s + t) * ((c - 1) * Z.of_nat (length (wp_ci v'))) + (P16 - 1) * (how_many works b + how_many plans b + Z.of_nat (length (wm_diffs m))).
Proof.
  intros H1 H2 c P1 P2 k1 k2 now1 L1 now1' L1' now2 L2 now2' L2' b d x y v w v' w' m n m' n' s t Hc R1 R2 D1 D2 F Q V W PT M N MT (k & Hk & I1 & I2) U V' W' M' N'.
  destruct (full_log_running e1 _ _ _ _ _ _ _ _ D1) as [RU1 OP1]. destruct (full_log_running e2 _ _ _ _ _ _ _ _ D2) as [RU2 OP2].
  destruct (full_log_kwalk e1 H1 _ _ _ now1 L1 b _ _ _ _ _ _ D1 R1 [] 0 (fl_nil _ _ _ _ _ RU1 OP1) eq_refl Q v m V M) as (v1 & m1 & X1 & Y1 & S1).
  rewrite (pool_fun e1 _ _ _ _ X1 V'), (mining_fun e1 _ _ _ _ Y1 M') in S1.
  destruct (full_log_kwalk e2 H2 (fun _ => True) _ _ now2 L2 d _ _ _ _ _ _ D2 R2 [] 0 (fl_nil _ _ _ _ _ RU2 OP2) eq_refl ltac:(intros ? ? ? ? ? ? _ _ _; exact I) w n W N) as (w1 & n1 & X2 & Y2 & S2).
  rewrite (pool_fun e2 _ _ _ _ X2 W'), (mining_fun e2 _ _ _ _ Y2 N') in S2.
  destruct (kwalks_times c Hc s t _ _ _ _ _ _ S1 _ F _ _ _ _ _ (rises 0 (firstn k (wp_ci v))) S2 PT MT) as (PT' & MT' & r' & (k' & Hk' & J1 & J2 & ->) & L3 & L4).
  { exists k. auto. }
  split; [exact PT'|]. split; [exact MT'|]. split; [exists k'; auto|]. cbv zeta. unfold lag, len in *. split; [lia|].
  pose proof (rises_pos (firstn k (wp_ci v)) 0) as Z1. pose proof (rises_length (firstn k' (wp_ci v')) 0) as Z2. rewrite firstn_length in Z2.
  destruct (kwalk_good _ _ _ _ _ _ _ S1) as (_ & Wm & Q1 & Q2). pose proof (mw_share _ Wm) as B1. pose proof (mw_sfo _ Wm) as B2. unfold is_u64 in B1, B2.
  assert ((s + t) * ((c - 1) * (rises 0 (firstn k' (wp_ci v')) - rises 0 (firstn k (wp_ci v)))) <= (s + t) * ((c - 1) * Z.of_nat (length (wp_ci v')))).
  { apply Z.mul_le_mono_nonneg_l; [lia|]. apply Z.mul_le_mono_nonneg_l; lia. }
  lia.
Qed.
