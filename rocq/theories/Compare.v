(** Proofs of C86: comparing two histories. *)
From stdpp Require Import gmap.
From Verif Require Import Base OMap State Spec EffectSpec Ledger Program ResLemmas TreeLemmas AccrualLemmas RefreshLemmas WfLemmas LedgerLemmas LedgerSpec
  CodecLemmas History HistoryLemmas Changes AccessLemmas HistoryThms ReachThms EffectLemmas EffectMethods EffectThms EffectMore
  SuccessSpec SuccessThms Determined Commute CompleteSpec Complete PowerSpec Powers FreezeSpec Choice GapSpec Gap CapSpec Cap
  IncomeSpec Income DiarySpec Diary LogSpec Log CompareSpec.

(** ** Schedules with the same dates *)
Lemma keys_in (t u : sched) k : map fst t = map fst u -> (exists v, In (k, v) t) -> exists v, In (k, v) u.
Proof.
  intros E (v & H). apply (in_map fst) in H. rewrite E in H. apply in_map_iff in H as ([k' v'] & E' & H). cbn in E'. subst. eauto.
Qed.
Lemma keys_after b : forall t u : sched, map fst t = map fst u -> map fst (Spec.after b t) = map fst (Spec.after b u).
Proof.
  induction t as [|[k v] t IH]; intros [|[k' v'] u] E; try discriminate; [reflexivity|]. cbn in E. injection E as <- E.
  unfold Spec.after in *. cbn. destruct (b <? k); cbn; rewrite (IH _ E); reflexivity.
Qed.
Lemma keys_upto b : forall t u : sched, map fst t = map fst u -> map fst (upto b t) = map fst (upto b u).
Proof.
  induction t as [|[k v] t IH]; intros [|[k' v'] u] E; try discriminate; [reflexivity|]. cbn in E. injection E as <- E.
  unfold upto in *. cbn. destruct (k <=? b); cbn; rewrite (IH _ E); reflexivity.
Qed.
Lemma keys_oput d x y : forall t u : sched, map fst t = map fst u -> map fst (oput d x t) = map fst (oput d y u).
Proof.
  induction t as [|[k v] t IH]; intros [|[k' v'] u] E; try discriminate; [reflexivity|]. cbn in E. injection E as <- E.
  cbn [oput]. destruct (d <? k); [cbn; rewrite E; reflexivity|]. destruct (k =? d); cbn; [rewrite E; reflexivity|]. rewrite (IH _ E). reflexivity.
Qed.
Lemma keys_length (t u : sched) : map fst t = map fst u -> length t = length u.
Proof. intros E. rewrite <- (map_length fst t), E, map_length. reflexivity. Qed.
Lemma keys_ohas d : forall t u : sched, map fst t = map fst u -> ohas d t = ohas d u.
Proof.
  intros t u E. rewrite <- !existsb_date, <- !existsb_map_fst, E. reflexivity.
Qed.
Lemma due_upto b d t : Spec.due d (upto b t) = Spec.due (Z.min d b) t.
Proof.
  induction t as [|[k v] t IH]; [reflexivity|]. unfold upto in *. cbn. destruct (Z.leb_spec k b); cbn; rewrite ?IH.
  - destruct (Z.leb_spec k d), (Z.leb_spec k (Z.min d b)); lia.
  - destruct (Z.leb_spec k (Z.min d b)); lia.
Qed.
Lemma due_since b d t : Spec.due d (Spec.after b t) = Spec.due (Z.max d b) t - Spec.due b t.
Proof.
  destruct (Z.le_gt_cases b d); [rewrite due_after by assumption; f_equal; f_equal; lia|].
  rewrite due_nil_below; [replace (Z.max d b) with b by lia; lia|]. intros k v H'. apply in_after in H'. lia.
Qed.

(** two schedules with the same dates, changed at the same date *)
Lemma scheduled_both cap d x y t u t' u' : map fst t = map fst u -> ascending t -> ascending u -> ascending t' -> ascending u' ->
  scheduled cap d x t t' -> scheduled cap d y u u' ->
  map fst t' = map fst u' /\
  exists c : Z -> bool, forall k, Spec.due k t' = Spec.due k t + (if c k then x else 0) /\ Spec.due k u' = Spec.due k u + (if c k then y else 0).
Proof.
  intros E At Au At' Au' S1 S2. split.
  - rewrite (scheduled_is _ _ _ _ _ At At' S1), (scheduled_is _ _ _ _ _ Au Au' S2). unfold oinsert.
    rewrite <- (keys_ohas d t u E), <- (keys_length t u E). destruct (ohas d t); [apply keys_oput; exact E|].
    destruct (_ <? _); [apply keys_oput|]; exact E.
  - exists (fun k => (d <=? k) && (existsb (fun kv => fst kv =? d) t || (Z.of_nat (length t) <? cap))). intros k.
    rewrite (scheduled_exact _ _ _ _ _ k At At' S1), (scheduled_exact _ _ _ _ _ k Au Au' S2).
    rewrite (lost_keys cap d y t u k) by (symmetry; exact E). unfold GapSpec.lost. destruct (_ || _), (d <=? k); cbn; lia.
Qed.

(** ** Histories of distributions *)
Lemma steeper_refl t : forall a, steeper_from a a t t.
Proof. induction t as [|[d i] t IH]; intros a; cbn; [exact I|]. split; [reflexivity|]. split; [lia|apply IH]. Qed.
Lemma steeper_keys : forall s t a b, steeper_from a b s t -> map fst s = map fst t.
Proof.
  induction s as [|[d i] s IH]; intros [|[c j] t] a b H; cbn in H; try contradiction; [reflexivity|].
  destruct H as (-> & _ & H). cbn. rewrite (IH _ _ _ H). reflexivity.
Qed.
Lemma steeper_first n : forall s t a b, steeper_from a b s t -> steeper_from a b (firstn n s) (firstn n t).
Proof.
  induction n as [|n IH]; intros [|[d i] s] [|[c j] t] a b H; cbn in *; try contradiction; try exact I. destruct H as (-> & H1 & H2). auto.
Qed.
Lemma steeper_visible d : forall s t a b, steeper_from a b s t -> visible_from b d t - b <= visible_from a d s - a.
Proof.
  induction s as [|[k i] s IH]; intros [|[c j] t] a b H; cbn in H; try contradiction; [cbn; lia|].
  destruct H as (-> & H1 & H2). cbn. destruct (c <? d); [|lia]. specialize (IH _ _ _ H2). lia.
Qed.
Lemma steeper_between d d' : d <= d' -> forall s t a b, steeper_from a b s t ->
  visible_from b d' t - visible_from b d t <= visible_from a d' s - visible_from a d s.
Proof.
  intros Hd. induction s as [|[k i] s IH]; intros [|[c j] t] a b H; cbn in H; try contradiction; [cbn; lia|].
  destruct H as (-> & H1 & H2). cbn. destruct (Z.ltb_spec c d); [rewrite (proj2 (Z.ltb_lt c d')) by lia; exact (IH _ _ _ H2)|].
  destruct (c <? d'); [|lia]. pose proof (steeper_visible d' _ _ _ _ H2). lia.
Qed.
Lemma steeper_last : forall s t a b, steeper_from a b s t -> last_from b t - b <= last_from a s - a.
Proof.
  induction s as [|[k i] s IH]; intros [|[c j] t] a b H; cbn in H; try contradiction; [cbn; lia|].
  destruct H as (-> & H1 & H2). cbn. specialize (IH _ _ _ H2). lia.
Qed.
Lemma steeper_levels n n' : (n <= n')%nat -> forall s t a b, steeper_from a b s t ->
  last_from b (firstn n' t) - last_from b (firstn n t) <= last_from a (firstn n' s) - last_from a (firstn n s).
Proof.
  revert n'. induction n as [|n IH]; intros n' Hn s t a b H.
  - cbn. exact (steeper_last _ _ _ _ (steeper_first n' _ _ _ _ H)).
  - destruct n' as [|n']; [lia|]. destruct s as [|[k i] s], t as [|[c j] t]; cbn in H; try contradiction; [cbn; lia|].
    destruct H as (-> & H1 & H2). cbn. apply IH; [lia|exact H2].
Qed.
Lemma steeper_snoc d i j : forall s t a b, steeper_from a b s t -> j - last_from b t <= i - last_from a s ->
  steeper_from a b (s ++ [(d, i)]) (t ++ [(d, j)]).
Proof.
  induction s as [|[k x] s IH]; intros [|[c y] t] a b H Hij; cbn in H; try contradiction; cbn in *.
  - auto.
  - destruct H as (-> & H1 & H2). split; [reflexivity|]. split; [assumption|]. apply IH; assumption.
Qed.
Lemma growing_levels n n' : (n <= n')%nat -> forall t a, growing a t -> last_from a (firstn n t) <= last_from a (firstn n' t).
Proof.
  revert n'. induction n as [|n IH]; intros n' Hn t a G.
  - cbn. assert (growing a (firstn n' t)) as G'.
    { clear Hn. revert t a G. induction n' as [|n' I]; intros [|[k i] t] a G; cbn in *; try exact Logic.I. destruct G. auto. }
    exact (growing_last _ _ G').
  - destruct n' as [|n']; [lia|]. destruct t as [|[k i] t]; [cbn; lia|]. cbn in *. apply IH; [lia|apply G].
Qed.

(** the index seen is that of a certain entry *)
Fixpoint lead (d : Z) (l : list Z) : nat :=
  match l with [] => 0 | k :: r => if k <? d then S (lead d r) else 0 end.
Lemma visible_lead d : forall t a, visible_from a d t = last_from a (firstn (lead d (map fst t)) t).
Proof. induction t as [|[k i] t IH]; intros a; [reflexivity|]. cbn. destruct (k <? d); [cbn; apply IH|reflexivity]. Qed.

Definition level (F1 F2 : sched) (u1 u2 : Z) : Prop := exists n, u1 = last_from 0 (firstn n F1) /\ u2 = last_from 0 (firstn n F2).
Lemma visible_level d c F1 F2 : map fst F1 = map fst F2 -> level F1 F2 (visible d (firstn c F1)) (visible d (firstn c F2)).
Proof.
  intros E. unfold visible. rewrite !visible_lead. exists (Nat.min (lead d (map fst (firstn c F1))) c).
  rewrite <- !firstn_firstn. split; [reflexivity|]. do 3 f_equal. rewrite <- !firstn_map, E. reflexivity.
Qed.

(** the index of the first mining is no further ahead of its history than that of the second *)
Definition near (F1 F2 : sched) (j1 j2 : Z) : Prop :=
  forall u1 u2, level F1 F2 u1 u2 -> j1 <= u1 -> j2 <= u2 -> u2 - j2 <= u1 - j1.
Lemma near_level F1 F2 j1 j2 : steeper F1 F2 -> growing 0 F2 -> level F1 F2 j1 j2 -> near F1 F2 j1 j2.
Proof.
  intros S G (n & -> & ->) u1 u2 (n' & -> & ->) H1 H2.
  destruct (Nat.le_ge_cases n n') as [H|H]; [exact (steeper_levels n n' H _ _ _ _ S)|].
  pose proof (growing_levels n' n H _ _ G). lia.
Qed.
Lemma near_same F1 F2 j : steeper F1 F2 -> near F1 F2 j j.
Proof.
  intros S u1 u2 (n & -> & ->) H1 H2. pose proof (steeper_levels 0 n (Nat.le_0_l n) _ _ _ _ S) as H. rewrite !take_0 in H. cbn [last_from] in H. lia.
Qed.

(** ** Tokens earned *)
Lemma earned_cmp ci1 ci2 ts : (forall d d', d <= d' -> visible d' ci2 - visible d ci2 <= visible d' ci1 - visible d ci1) -> growing 0 ci2 ->
  forall l1 l2 s1 s2 j1 j2, ascending l1 -> map fst l1 = map fst l2 ->
  0 <= visible ts ci2 - j2 <= visible ts ci1 - j1 ->
  dates (fun d => d <= ts /\ 0 <= visible d ci2 - j2 <= visible d ci1 - j1) l1 ->
  (forall d, 0 <= s2 - Spec.due d l2 <= s1 - Spec.due d l1) ->
  earned ci2 s2 j2 l2 ts <= earned ci1 s1 j1 l1 ts.
Proof.
  intros St Hg. induction l1 as [|[d x] r IH]; intros l2 s1 s2 j1 j2 Ha E Hj Hd Hs; destruct l2 as [|[d' x'] r']; cbn in E; try discriminate.
  - cbn [earned]. apply Z.div_le_mono; [reflexivity|]. specialize (Hs 0). cbn in Hs. apply Z.mul_le_mono_nonneg; lia.
  - injection E as <- E. cbn [earned].
    destruct (Hd d x (or_introl eq_refl)) as [Hdt Hjd].
    assert (Hge : forall k v, In (k, v) r -> d < k) by (intros; eapply Ha; eassumption).
    assert (Hge' : forall k v, In (k, v) r' -> d < k).
    { intros k v Hin. destruct (keys_in r' r k (eq_sym E)) as (v2 & H2); eauto. }
    apply Z.add_le_mono.
    + apply Z.div_le_mono; [reflexivity|].
      specialize (Hs (d - 1)). cbn [Spec.due] in Hs. rewrite (proj2 (Z.leb_gt d (d - 1))) in Hs by lia.
      rewrite !due_nil_below in Hs; [apply Z.mul_le_mono_nonneg; lia| |]; intros k v Hin; [apply Hge in Hin|apply Hge' in Hin]; lia.
    + apply IH; [apply Ha|assumption| | |].
      * split; [pose proof (visible_mono 0 d ts ci2 Hg Hdt); unfold visible; lia|apply St; assumption].
      * intros k v Hin. destruct (Hd k v (or_intror Hin)) as [Hk _]. split; [assumption|]. apply Hge in Hin.
        assert (Hdk : d <= k) by lia. split; [pose proof (visible_mono 0 d k ci2 Hg Hdk); unfold visible; lia|apply St; assumption].
      * intros k. destruct (Z_le_gt_dec d k).
        -- specialize (Hs k). cbn [Spec.due] in Hs. rewrite (proj2 (Z.leb_le d k)) in Hs by assumption. lia.
        -- rewrite !due_nil_below; [|intros k' v Hin; apply Hge in Hin; lia|intros k' v Hin; apply Hge' in Hin; lia].
           specialize (Hs d). cbn [Spec.due] in Hs. rewrite Z.leb_refl in Hs.
           rewrite !due_nil_below in Hs; [lia| |]; intros k' v Hin; [apply Hge in Hin|apply Hge' in Hin]; lia.
Qed.

(** ** Minings *)
(** the first mining is ahead of the second; [z] is what the second was paid more *)
Record ahead_of (F1 F2 : sched) (m1 m2 : wmining) (z : Z) : Prop := {
  ao_dates : map fst (wm_diffs m1) = map fst (wm_diffs m2);
  ao_own : forall d, own m2 d <= own m1 d;
  ao_sfo : m_sfo (wm m2) <= m_sfo (wm m1);
  ao_near : near F1 F2 (m_index (wm m1)) (m_index (wm m2));
  ao_gain : m_unclaimed (wm m2) + z <= m_unclaimed (wm m1) }.

Lemma own_refreshed ts ci m m' d : refreshed ts ci m m' -> own m' d = own m (Z.max d (day_start ts)).
Proof. intros R. unfold own. rewrite (rf_share _ _ _ _ R), (rf_diffs _ _ _ _ R), due_since. lia. Qed.

Lemma day_start_le ts : day_start ts <= ts.
Proof. unfold day_start. pose proof (Z.mul_div_le ts 86400 eq_refl). lia. Qed.

Lemma own_mono m d d' : values is_u64 (wm_diffs m) -> d <= d' -> own m d' <= own m d.
Proof. intros V H. unfold own. assert (Spec.due d (wm_diffs m) <= Spec.due d' (wm_diffs m)); [|lia]. apply due_mono; [|assumption]. intros k v Hin. apply V in Hin. unfold is_u64 in Hin. lia. Qed.

Lemma refresh_ahead F1 F2 c ts x1 x2 z a1 a2 :
  steeper F1 F2 -> growing 0 F2 -> ascending (wm_diffs x1) -> values is_u64 (wm_diffs x2) -> 0 <= own x2 (day_start ts) -> 0 <= m_sfo (wm x2) ->
  growing 0 (firstn c F2) ->
  ahead_of F1 F2 x1 x2 z -> refreshed ts (firstn c F1) x1 a1 -> refreshed ts (firstn c F2) x2 a2 ->
  ahead_of F1 F2 a1 a2 z.
Proof.
  intros S G A1 V2 Hown Hsfo Gc [D O Sf N U] R1 R2.
  assert (K : map fst F1 = map fst F2) by exact (steeper_keys _ _ _ _ S).
  assert (Sc : steeper (firstn c F1) (firstn c F2)) by (apply steeper_first; exact S).
  assert (NV : forall d, m_index (wm x1) <= visible d (firstn c F1) -> m_index (wm x2) <= visible d (firstn c F2) ->
     0 <= visible d (firstn c F2) - m_index (wm x2) <= visible d (firstn c F1) - m_index (wm x1)).
  { intros d H1 H2. split; [lia|]. apply N; [apply visible_level; exact K|assumption..]. }
  constructor.
  - rewrite (rf_diffs _ _ _ _ R1), (rf_diffs _ _ _ _ R2). apply keys_after. exact D.
  - intros d. rewrite (own_refreshed _ _ _ _ d R1), (own_refreshed _ _ _ _ d R2). apply O.
  - rewrite (rf_sfo _ _ _ _ R1), (rf_sfo _ _ _ _ R2). exact Sf.
  - rewrite (rf_index _ _ _ _ R1), (rf_index _ _ _ _ R2). apply near_level; [exact S|exact G|]. apply visible_level. exact K.
  - rewrite (rf_unclaimed _ _ _ _ R1), (rf_unclaimed _ _ _ _ R2).
    cut (earned (firstn c F2) (m_share (wm x2) + m_sfo (wm x2)) (m_index (wm x2)) (upto (day_start ts) (wm_diffs x2)) ts
         <= earned (firstn c F1) (m_share (wm x1) + m_sfo (wm x1)) (m_index (wm x1)) (upto (day_start ts) (wm_diffs x1)) ts); [lia|].
    apply earned_cmp.
    + intros d d' Hd. apply steeper_between; assumption.
    + exact Gc.
    + apply ascending_upto. exact A1.
    + apply keys_upto. exact D.
    + apply NV; [exact (rf_index_le _ _ _ _ R1)|exact (rf_index_le _ _ _ _ R2)].
    + intros d v Hin. apply in_upto in Hin as [Hin Hd]. pose proof (day_start_le ts). split; [lia|]. apply NV.
      * exact (rf_first _ _ _ _ R1 _ _ Hin Hd).
      * destruct (keys_in _ _ d D) as (v2 & H2); [eauto|]. exact (rf_first _ _ _ _ R2 _ _ H2 Hd).
    + intros d. rewrite !due_upto. specialize (O (Z.min d (day_start ts))).
      pose proof (own_mono x2 (Z.min d (day_start ts)) (day_start ts) V2 ltac:(lia)). unfold own in *. lia.
Qed.

Lemma stake_ahead F1 F2 a1 a2 z m1 m2 : ahead_of F1 F2 a1 a2 z -> only_stake a1 m1 -> only_stake a2 m2 ->
  map fst (wm_diffs m1) = map fst (wm_diffs m2) -> (forall d, own m2 d <= own m1 d) -> ahead_of F1 F2 m1 m2 z.
Proof.
  intros [D O Sf N U] (_ & I1 & U1 & S1) (_ & I2 & U2 & S2) K H. constructor; [exact K|exact H| | |]; rewrite ?I1, ?I2, ?U1, ?U2, ?S1, ?S2; assumption.
Qed.
Lemma delegated_ahead F1 F2 m1 m2 z x y : ahead_of F1 F2 m1 m2 z -> y <= x -> ahead_of F1 F2 (with_delegated m1 x) (with_delegated m2 y) z.
Proof. intros [D O Sf N U] H. constructor; assumption. Qed.

Lemma here_in n l : here n l = true <-> In n l.
Proof.
  unfold here. rewrite existsb_exists. split; [intros (k & H & E); apply Nat.eqb_eq in E; congruence|].
  intros H. exists n. split; [exact H|apply Nat.eqb_refl].
Qed.

Lemma far_date (l : list Z) : exists d, forall k, In k l -> k <= d.
Proof.
  induction l as [|x l (d & IH)]; [exists 0; intros k []|]. exists (Z.max x d). intros k [->|H]; [lia|]. apply IH in H. lia.
Qed.
Lemma early_date (l : list Z) : exists d, forall k, In k l -> d < k.
Proof.
  induction l as [|x l (d & IH)]; [exists 0; intros k []|]. exists (Z.min (x - 1) d). intros k [->|H]; [lia|]. apply IH in H. lia.
Qed.
Lemma due_all d t : (forall k v, In (k, v) t -> k <= d) -> Spec.due d t = total t.
Proof.
  induction t as [|[k v] t IH]; intros H; [reflexivity|]. cbn. rewrite (proj2 (Z.leb_le k d)) by (eapply H; left; reflexivity).
  rewrite IH; [lia|]. intros k' v' Hin. eapply H. right. exact Hin.
Qed.

Definition most (m : wmining) : Z := m_share (wm m).
Definition least (m : wmining) : Z := m_share (wm m) - total (wm_diffs m).
Lemma ahead_most F1 F2 m1 m2 z : ahead_of F1 F2 m1 m2 z -> most m2 <= most m1.
Proof.
  intros A. destruct (early_date (map fst (wm_diffs m1))) as (d & H). pose proof (ao_own _ _ _ _ _ A d) as O. unfold own in O.
  rewrite !due_nil_below in O; [unfold most; lia| |]; intros k v Hin; apply H; [|rewrite (ao_dates _ _ _ _ _ A)]; apply (in_map fst) in Hin; exact Hin.
Qed.
Lemma ahead_least F1 F2 m1 m2 z : ahead_of F1 F2 m1 m2 z -> least m2 <= least m1.
Proof.
  intros A. destruct (far_date (map fst (wm_diffs m1))) as (d & H). pose proof (ao_own _ _ _ _ _ A d) as O. unfold own in O.
  rewrite !due_all in O; [exact O| |]; intros k v Hin; apply H; [|rewrite (ao_dates _ _ _ _ _ A)]; apply (in_map fst) in Hin; exact Hin.
Qed.
Lemma own_decreased m n m' d : values is_u64 (wm_diffs m) -> decreased m n m' ->
  own m' d = Z.max (own m d - n) (Z.min (least m) (most m - n)).
Proof.
  intros V (O & Sh & K & T). unfold own, least, most. pose proof (T d) as Td.
  destruct (early_date (map fst (wm_diffs m))) as (b & H).
  assert (B : forall k v, In (k, v) (wm_diffs m) -> b < k) by (intros k v Hin; apply H; apply (in_map fst) in Hin; exact Hin).
  assert (B' : forall k v, In (k, v) (wm_diffs m') -> b < k) by (intros k v Hin; apply H; rewrite <- K; apply (in_map fst) in Hin; exact Hin).
  pose proof (T b) as Tb. rewrite !total_after in Tb, Td.
  rewrite (due_nil_below b (wm_diffs m) B), (due_nil_below b (wm_diffs m') B') in Tb.
  assert (0 <= Spec.due d (wm_diffs m)).
  { apply due_bounds. intros k v Hin. apply V in Hin. unfold is_u64 in Hin. lia. }
  lia.
Qed.

(** what a call that succeeds has checked, or the types of its amounts say *)
Definition sound_page (ts : Z) (j : ix) (l : list nat) (m : wmining) : Prop :=
  match j with
  | DepositMining _ _ _ _ => here 1 l = true -> 0 <= own m (day_start ts)
  | WithdrawMining a _ _ => 0 <= a
  | ExtendStake _ _ _ base _ _ _ => if here 1 l then 0 <= own m (day_start ts) else base <= m_sfo (wm m)
  | Slash _ _ a _ => 0 <= a
  | _ => True
  end.

Lemma page_ahead F1 F2 c ts i j l m1 m2 z p1 p2 m1' m2' :
  steeper F1 F2 -> growing 0 F2 -> growing 0 (firstn c F2) ->
  ascending (wm_diffs m1) -> ascending (wm_diffs m2) -> values is_u64 (wm_diffs m1) -> values is_u64 (wm_diffs m2) ->
  ascending (wm_diffs m1') -> ascending (wm_diffs m2') ->
  no_worse l i j ->
  sound_page ts j l m2 ->
  0 <= m_sfo (wm m2) -> 0 <= m_sfo (wm m2') -> 0 <= m_share (wm m2') ->
  ahead_of F1 F2 m1 m2 z -> page (ts, i, l, firstn c F1) m1 p1 m1' -> page (ts, j, l, firstn c F2) m2 p2 m2' ->
  ahead_of F1 F2 m1' m2' (z + p2 - p1).
Proof.
  intros S G Gc A1 A2 V1 V2 A1' A2' NW SO Hs2 Hs2' Hsh2' AH P1 P2.
  assert (RA : forall x1 x2 a1 a2, ascending (wm_diffs x1) -> values is_u64 (wm_diffs x2) -> 0 <= own x2 (day_start ts) -> 0 <= m_sfo (wm x2) ->
     ahead_of F1 F2 x1 x2 z -> refreshed ts (firstn c F1) x1 a1 -> refreshed ts (firstn c F2) x2 a2 -> ahead_of F1 F2 a1 a2 z).
  { intros x1 x2 a1 a2 B1 B2 B3 B4 B5 B6 B7. eapply (refresh_ahead F1 F2 c ts x1 x2); eassumption. }
  assert (OW : forall x a, refreshed ts (firstn c F2) x a -> wm_diffs x = wm_diffs m2 -> m_share (wm x) = m_share (wm m2) -> own m2 (day_start ts) = m_share (wm a)).
  { intros x a R E1 E2. unfold own. rewrite (rf_share _ _ _ _ R), E1, E2. reflexivity. }
  destruct i, j; cbn [no_worse] in NW; try contradiction; cbn [page sound_page] in P1, P2, SO.
  - (* DepositMining *)
    destruct P1 as [-> P1], P2 as [-> P2]. replace (z + 0 - 0) with z by lia. destruct NW as [<- Ha].
    destruct (here 1 l).
    + destruct P1 as (a1 & R1 & O1 & E1 & S1 & _), P2 as (a2 & R2 & O2 & E2 & S2 & _).
      pose proof (RA _ _ _ _ A1 V2 (SO eq_refl) Hs2 AH R1 R2) as B.
      destruct (scheduled_both _ _ _ _ _ _ _ _ (ao_dates _ _ _ _ _ B) (refreshed_asc _ _ _ _ A1 R1) (refreshed_asc _ _ _ _ A2 R2) A1' A2' S1 S2) as (K & cc & H).
      eapply stake_ahead; [exact B|exact O1|exact O2|exact K|]. intros d. destruct (H d) as [H1 H2]. pose proof (ao_own _ _ _ _ _ B d) as Q.
      unfold own in *. rewrite H1, H2, E1, E2. destruct (cc d), period; cbn [weight_of] in *; lia.
    + eapply RA; [| | | | |exact P1|exact P2]; [exact A1|exact V2| | |].
      * rewrite <- (OW _ _ P2 eq_refl eq_refl) in Hsh2'. exact Hsh2'.
      * rewrite (rf_sfo _ _ _ _ P2) in Hs2'. exact Hs2'.
      * apply delegated_ahead; [exact AH|]. pose proof (ao_sfo _ _ _ _ _ AH). lia.
  - (* WithdrawMining *)
    destruct P1 as [-> P1], P2 as [-> P2]. replace (z + 0 - 0) with z by lia.
    destruct (here 1 l).
    + destruct P1 as (a1 & R1 & O1 & E1 & S1), P2 as (a2 & R2 & O2 & E2 & S2).
      assert (OO : 0 <= own m2 (day_start ts)) by (rewrite (OW _ _ R2 eq_refl eq_refl); lia).
      pose proof (RA _ _ _ _ A1 V2 OO Hs2 AH R1 R2) as B.
      eapply stake_ahead; [exact B|exact O1|exact O2|rewrite S1, S2; exact (ao_dates _ _ _ _ _ B)|].
      intros d. pose proof (ao_own _ _ _ _ _ B d) as Q. unfold own in *. rewrite S1, S2, E1, E2. lia.
    + eapply RA; [| | | | |exact P1|exact P2]; [exact A1|exact V2| | |].
      * rewrite <- (OW _ _ P2 eq_refl eq_refl) in Hsh2'. exact Hsh2'.
      * rewrite (rf_sfo _ _ _ _ P2) in Hs2'. exact Hs2'.
      * apply delegated_ahead; [exact AH|]. pose proof (ao_sfo _ _ _ _ _ AH). lia.
  - (* Claim *)
    destruct P1 as (a1 & R1 & -> & ->), P2 as (a2 & R2 & -> & ->).
    assert (OO : 0 <= own m2 (day_start ts)) by (rewrite (OW _ _ R2 eq_refl eq_refl); exact Hsh2').
    destruct (RA _ _ _ _ A1 V2 OO Hs2 AH R1 R2) as [D O Sf N U]. constructor; try assumption. cbn [emptied wm m_unclaimed]. lia.
  - (* ExtendStake *)
    destruct P1 as [-> P1], P2 as [-> P2]. replace (z + 0 - 0) with z by lia. destruct NW as (<- & <- & <- & <- & Ha).
    destruct (here 1 l) eqn:EH.
    + destruct P1 as (a1 & t1 & R1 & O1 & E1 & L1 & S1 & _), P2 as (a2 & t2 & R2 & O2 & E2 & L2 & S2 & _).
      pose proof (RA _ _ _ _ A1 V2 SO Hs2 AH R1 R2) as B.
      pose proof (refreshed_asc _ _ _ _ A1 R1) as B1. pose proof (refreshed_asc _ _ _ _ A2 R2) as B2.
      assert (LL : map fst t1 = map fst t2 /\ ascending t1 /\ ascending t2 /\
        exists h : Z -> Z, forall d, Spec.due d t1 = Spec.due d (wm_diffs a1) - h d /\ Spec.due d t2 = Spec.due d (wm_diffs a2) - h d).
      { destruct (unexpired _ _ ts).
        - pose proof L1 as (_ & _ & K1 & _). pose proof L2 as (_ & _ & K2 & _).
          split; [rewrite K1, K2; exact (ao_dates _ _ _ _ _ B)|].
          split; [eapply ascending_keys; [symmetry; exact K1|exact B1]|]. split; [eapply ascending_keys; [symmetry; exact K2|exact B2]|].
          eexists (fun d => if _ <=? d then _ else 0). intros d. split; [exact (lowered_less _ _ _ _ d B1 L1)|exact (lowered_less _ _ _ _ d B2 L2)].
        - subst. split; [exact (ao_dates _ _ _ _ _ B)|]. split; [exact B1|]. split; [exact B2|]. exists (fun _ => 0). intros d. lia. }
      destruct LL as (K' & C1 & C2 & h & HL).
      destruct (scheduled_both _ _ _ _ _ _ _ _ K' C1 C2 A1' A2' S1 S2) as (K & cc & H).
      eapply stake_ahead; [exact B|exact O1|exact O2|exact K|]. intros d. destruct (H d) as [H1 H2], (HL d) as [H3 H4]. pose proof (ao_own _ _ _ _ _ B d) as Q.
      unfold own in *. rewrite H1, H2, E1, E2. destruct (cc d), new_period; cbn [weight_of] in *; lia.
    + destruct P1 as (b1 & R1 & ->), P2 as (b2 & R2 & ->).
      apply delegated_ahead; [|pose proof (ao_sfo _ _ _ _ _ AH); lia].
      eapply RA; [| | | | |exact R1|exact R2]; [exact A1|exact V2| | |].
      * cbn [with_delegated wm m_share] in Hsh2'. rewrite <- (OW _ _ R2 eq_refl eq_refl) in Hsh2'. exact Hsh2'.
      * cbn [with_delegated wm m_sfo]. lia.
      * apply delegated_ahead; [exact AH|]. pose proof (ao_sfo _ _ _ _ _ AH). lia.
  - (* ChangeDelegate *)
    destruct P1 as [-> P1], P2 as [-> P2]. replace (z + 0 - 0) with z by lia.
    destruct (here 1 l) eqn:EH.
    + eapply RA; [| | | | |exact P1|exact P2]; [exact A1|exact V2| | |exact AH].
      * rewrite <- (OW _ _ P2 eq_refl eq_refl) in Hsh2'. exact Hsh2'.
      * exact Hs2.
    + assert (~ In 1%nat l) as N1 by (rewrite <- here_in, EH; discriminate). destruct (NW N1) as [Q1 Q2].
      destruct (here 4 l) eqn:E4.
      * apply here_in in E4. specialize (Q1 E4). eapply RA; [| | | | |exact P1|exact P2]; [exact A1|exact V2| | |].
        -- rewrite <- (OW _ _ P2 eq_refl eq_refl) in Hsh2'. exact Hsh2'.
        -- rewrite (rf_sfo _ _ _ _ P2) in Hs2'. exact Hs2'.
        -- apply delegated_ahead; [exact AH|]. pose proof (ao_sfo _ _ _ _ _ AH). lia.
      * assert (~ In 4%nat l) as N4 by (rewrite <- here_in, E4; discriminate). specialize (Q2 N4).
        eapply RA; [| | | | |exact P1|exact P2]; [exact A1|exact V2| | |].
        -- rewrite <- (OW _ _ P2 eq_refl eq_refl) in Hsh2'. exact Hsh2'.
        -- rewrite (rf_sfo _ _ _ _ P2) in Hs2'. exact Hs2'.
        -- apply delegated_ahead; [exact AH|]. pose proof (ao_sfo _ _ _ _ _ AH). lia.
  - (* Slash *)
    destruct P1 as [-> P1], P2 as [-> P2]. replace (z + 0 - 0) with z by lia. destruct NW as (<- & Hn & Hw).
    destruct P1 as (a1 & R1 & O1 & E1 & T1), P2 as (a2 & R2 & O2 & E2 & T2).
    assert (OO : 0 <= own m2 (day_start ts)) by (rewrite (OW _ _ R2 eq_refl eq_refl); lia).
    pose proof (RA _ _ _ _ A1 V2 OO Hs2 AH R1 R2) as B.
    match type of T1 with match ?d with _ => _ end => destruct d as [u|] end.
    + pose proof T1 as (_ & _ & K1 & _). pose proof T2 as (_ & _ & K2 & _).
      eapply stake_ahead; [exact B|exact O1|exact O2|rewrite K1, K2; exact (ao_dates _ _ _ _ _ B)|].
      intros d. pose proof (ao_own _ _ _ _ _ B d) as Q. unfold own in *.
      rewrite (lowered_less _ _ _ _ d (refreshed_asc _ _ _ _ A1 R1) T1), (lowered_less _ _ _ _ d (refreshed_asc _ _ _ _ A2 R2) T2), E1, E2.
      destruct (_ <=? d); lia.
    + eapply stake_ahead; [exact B|exact O1|exact O2|rewrite T1, T2; exact (ao_dates _ _ _ _ _ B)|].
      intros d. pose proof (ao_own _ _ _ _ _ B d) as Q. unfold own in *. rewrite T1, T2, E1, E2. lia.
  - (* DecreaseRewards *)
    destruct P1 as [-> P1], P2 as [-> P2]. replace (z + 0 - 0) with z by lia.
    pose proof P1 as (O1 & E1 & K1 & _). pose proof P2 as (O2 & E2 & K2 & _).
    eapply stake_ahead; [exact AH|exact O1|exact O2|rewrite K1, K2; exact (ao_dates _ _ _ _ _ AH)|].
    intros d. rewrite (own_decreased _ _ _ d V1 P1), (own_decreased _ _ _ d V2 P2).
    pose proof (ao_own _ _ _ _ _ AH d). pose proof (ahead_most _ _ _ _ _ AH). pose proof (ahead_least _ _ _ _ _ AH). lia.
Qed.

Lemma not_less_refl m n : alike m n -> not_less m n.
Proof.
  intros (E1 & E2 & E3 & E4 & E5). constructor; [rewrite E5; reflexivity|intros d; unfold own; rewrite E2, E5; reflexivity|lia|exact E1|lia].
Qed.

(** ** Pools *)
Lemma under_refl v w : pools_alike v w -> under v w.
Proof.
  intros (E1 & E2 & E3 & E4 & E5 & E6). constructor.
  - rewrite E5. reflexivity.
  - intros d. unfold all. rewrite E2, E5. reflexivity.
  - rewrite E4. reflexivity.
  - exact E3.
  - rewrite E6. apply steeper_refl.
  - rewrite E1, E6. reflexivity.
Qed.
Lemma total_under v w v' w' : under v w -> only_total v v' -> only_total w w' ->
  map fst (wp_diffs v') = map fst (wp_diffs w') -> (forall d, all v' d <= all w' d) -> under v' w'.
Proof.
  intros [D A B E C I] (_ & _ & _ & _ & I1 & E1 & B1 & _ & _ & C1) (_ & _ & _ & _ & I2 & E2 & B2 & _ & _ & C2) K H.
  constructor; [exact K|exact H| | | |]; rewrite ?I1, ?I2, ?E1, ?E2, ?B1, ?B2, ?C1, ?C2; assumption.
Qed.

Lemma part_more a b ends ts : 0 <= b <= a -> 0 <= daily_part b ends ts <= daily_part a ends ts.
Proof.
  intros H. unfold daily_part. set (n := Z.max 0 (ends - ts) / 86400).
  assert (0 <= n) by (apply Z.div_pos; lia). destruct (Z.eqb_spec n 0); [lia|].
  split; [apply Z.div_pos; lia|apply Z.div_le_mono; lia].
Qed.
Lemma rest_more a b ends ts : 0 <= b <= a -> b - daily_part b ends ts <= a - daily_part a ends ts.
Proof.
  intros H. unfold daily_part. set (n := Z.max 0 (ends - ts) / 86400).
  assert (0 <= n) by (apply Z.div_pos; lia). destruct (Z.eqb_spec n 0); [lia|].
  assert (a / n <= (b + (a - b) * n) / n) as Q by (apply Z.div_le_mono; nia).
  rewrite Z.div_add in Q by lia. lia.
Qed.
Lemma has_keys d (t u : sched) : map fst t = map fst u -> has_date d t <-> has_date d u.
Proof. intros E. unfold has_date. split; intros H; [exact (keys_in _ _ _ E H)|exact (keys_in _ _ _ (eq_sym E) H)]. Qed.

Lemma date_or_not d (t : sched) : has_date d t \/ ~ has_date d t.
Proof.
  induction t as [|[k v] t IH]; [right; intros (v & [])|]. destruct (Z.eq_dec k d) as [->|N]; [left; exists v; left; reflexivity|].
  destruct IH as [(u & H)|H]; [left; exists u; right; exact H|]. right. intros (u & [E|Hin]); [congruence|]. apply H. exists u. exact Hin.
Qed.

Definition sound_pool (ts : Z) (i : ix) (w : wpool) : Prop := i = DistributeRewards -> can_distribute ts w.

Lemma due_late w ts d : Spec.due d (Spec.after (day_start ts) (wp_diffs w)) = Spec.due (Z.max d (day_start ts)) (wp_diffs w) - Spec.due (day_start ts) (wp_diffs w).
Proof. apply due_since. Qed.

Lemma pstep_under ts i j b v w v' w' :
  leaves_less b i j -> sound_pool ts i v -> 0 <= p_avail (wp w) ->
  ascending (wp_diffs v) -> ascending (wp_diffs w) -> ascending (wp_diffs v') -> ascending (wp_diffs w') ->
  (match i with ChangeDelegate _ _ => length b = 2%nat | _ => True end) ->
  under v w -> pstep (ts, i, b) v v' -> pstep (ts, j, b) w w' -> under v' w'.
Proof.
  intros LE SO Hav A1 A2 A1' A2' Hb U P1 P2.
  destruct i, j; cbn [leaves_less] in LE; try contradiction; cbn [pstep] in P1, P2; try (subst; exact U).
  - (* FillVault *)
    destruct LE as [<- H]. subst. destruct U as [D A B E C I]. constructor; try assumption; cbn [filled wp p_avail p_ends_at]; [lia|reflexivity].
  - (* DepositMining *)
    destruct LE as [<- H]. destruct P1 as (O1 & T1 & S1 & _), P2 as (O2 & T2 & S2 & _).
    destruct (scheduled_both _ _ _ _ _ _ _ _ (un_dates _ _ U) A1 A2 A1' A2' S1 S2) as (K & cc & HH).
    eapply total_under; [exact U|exact O1|exact O2|exact K|]. intros d. destruct (HH d) as [H1 H2]. pose proof (un_all _ _ U d) as Q.
    unfold all in *. rewrite T1, T2, H1, H2. unfold if_there. destruct (cc d), (nth 0 b false), period; cbn [weight_of] in *; lia.
  - (* WithdrawMining *)
    destruct P1 as (O1 & T1 & S1), P2 as (O2 & T2 & S2).
    eapply total_under; [exact U|exact O1|exact O2|rewrite S1, S2; apply keys_after; exact (un_dates _ _ U)|].
    intros d. pose proof (un_all _ _ U (Z.max d (day_start ts))) as Q. unfold all in *. rewrite T1, T2, S1, S2, !due_late.
    unfold if_there. destruct (nth 0 b false); lia.
  - (* ExtendStake *)
    destruct LE as (<- & <- & <- & <- & H). destruct P1 as (O1 & T1 & S1 & _), P2 as (O2 & T2 & S2 & _).
    destruct (scheduled_both _ _ _ _ _ _ _ _ (un_dates _ _ U) A1 A2 A1' A2' S1 S2) as (K & cc & HH).
    eapply total_under; [exact U|exact O1|exact O2|exact K|]. intros d. destruct (HH d) as [H1 H2]. pose proof (un_all _ _ U d) as Q.
    unfold all in *. rewrite T1, T2, H1, H2. unfold if_there. destruct (cc d), (nth 0 b false), new_period; cbn [weight_of] in *; lia.
  - (* DistributeRewards *)
    destruct P1 as (O1 & T1 & S1 & Y1 & N1), P2 as (O2 & T2 & S2 & Y2 & N2).
    destruct (SO eq_refl) as (_ & HL & SD). fold (all v (day_start ts)) in T1, HL, SD. fold (all w (day_start ts)) in T2.
    pose proof U as [D A B E C I]. pose proof (steeper_keys _ _ _ _ C) as K.
    assert (DD : map fst (wp_diffs v') = map fst (wp_diffs w')) by (rewrite S1, S2; apply keys_after; exact D).
    assert (AA : forall d, all v' d <= all w' d).
    { intros d. specialize (A (Z.max d (day_start ts))). unfold all in *. rewrite T1, T2, S1, S2, !due_late. lia. }
    assert (EE : p_ends_at (wp v') = p_ends_at (wp w')).
    { destruct O1 as (_ & _ & _ & _ & -> & _), O2 as (_ & _ & _ & _ & -> & _). exact E. }
    destruct (date_or_not (day_start ts) (wp_ci v)) as [HD|HD].
    + destruct (Y1 HD) as (C1 & X1 & V1). destruct (Y2 (proj1 (has_keys _ _ _ K) HD)) as (C2 & X2 & V2).
      constructor; [exact DD|exact AA| |exact EE| |]; rewrite ?C1, ?C2, ?X1, ?X2, ?V1, ?V2; assumption.
    + destruct SD as [SD|[SD _]]; [contradiction|].
      destruct (N1 HD) as (X1 & V1 & C1). destruct (N2 (fun H => HD (proj2 (has_keys _ _ _ K) H))) as (X2 & V2 & C2).
      rewrite (keys_length _ _ K) in C1. rewrite E in X1, V1.
      assert (BB : 0 <= p_avail (wp w) <= p_avail (wp v)) by lia.
      pose proof (part_more _ _ (p_ends_at (wp w)) ts BB) as PM. pose proof (rest_more _ _ (p_ends_at (wp w)) ts BB) as RM.
      assert (IN : p_index (wp w') - p_index (wp w) <= p_index (wp v') - p_index (wp v)).
      { rewrite X1, X2, T1, T2. specialize (A (day_start ts)).
        assert (10000000000000000 * daily_part (p_avail (wp w)) (p_ends_at (wp w)) ts / all w (day_start ts)
          <= 10000000000000000 * daily_part (p_avail (wp v)) (p_ends_at (wp w)) ts / all v (day_start ts)); [|lia].
        etransitivity; [apply Z.div_le_compat_l with (q := all v (day_start ts)); lia|apply Z.div_le_mono; lia]. }
      constructor; [exact DD|exact AA|rewrite V1, V2; exact RM|exact EE| |]; rewrite C1, C2; destruct (Z.of_nat (length (wp_ci w)) <? 1095).
      * apply steeper_snoc; [exact C|lia].
      * exact C.
      * rewrite !last_app. cbn [last_from]. lia.
      * lia.
  - (* ChangeDelegate *)
    destruct P1 as (O1 & S1 & T1), P2 as (O2 & S2 & T2).
    eapply total_under; [exact U|exact O1|exact O2|rewrite S1, S2; exact (un_dates _ _ U)|].
    intros d. pose proof (un_all _ _ U d) as Q. unfold all in *. rewrite T1, T2, S1, S2. unfold if_there.
    destruct b as [|[] [|[] [|]]]; cbn in Hb; try discriminate; cbn [nth] in *; lia.
  - (* Slash *)
    destruct LE as (<- & Hn & Hw). destruct P1 as (O1 & T1 & S1), P2 as (O2 & T2 & S2).
    match type of S1 with match ?d with _ => _ end => destruct d as [u|] end.
    + pose proof S1 as (_ & _ & K1 & _). pose proof S2 as (_ & _ & K2 & _).
      eapply total_under; [exact U|exact O1|exact O2|rewrite K1, K2; apply keys_after; exact (un_dates _ _ U)|].
      intros d. pose proof (un_all _ _ U (Z.max d (day_start ts))) as Q. unfold all in *.
      rewrite (lowered_less _ _ _ _ d (ascending_after _ _ A1) S1), (lowered_less _ _ _ _ d (ascending_after _ _ A2) S2), T1, T2, !due_late.
      destruct (_ <=? d); lia.
    + eapply total_under; [exact U|exact O1|exact O2|rewrite S1, S2; apply keys_after; exact (un_dates _ _ U)|].
      intros d. pose proof (un_all _ _ U (Z.max d (day_start ts))) as Q. unfold all in *. rewrite T1, T2, S1, S2, !due_late. lia.
Qed.

(** ** One step after the other *)
Definition good (w : wpool) : Prop := exists now, pool_wf now w.
Definition sound (x : full_entry) (w : wpool) (m : wmining) : Prop :=
  let '(ts, i, b, l) := x in sound_pool ts i w /\ (l <> [] -> sound_page ts i l m) /\ (match i with ChangeDelegate _ _ => length b = 2%nat | _ => True end).
Definition sound_entry (x : entry) (w : wpool) : Prop :=
  let '(ts, i, b) := x in sound_pool ts i w /\ (match i with ChangeDelegate _ _ => length b = 2%nat | _ => True end).
Inductive walk : list full_entry -> wpool -> wmining -> Z -> wpool -> wmining -> Prop :=
| wk_nil w m : good w -> mining_wf m -> walk [] w m 0 w m
| wk_cons x b w m p w1 m1 y w' m' : good w -> mining_wf m -> sound x w m -> step x w m p w1 m1 ->
    walk b w1 m1 y w' m' -> walk (x :: b) w m (p + y) w' m'.
Inductive pwalk : list entry -> wpool -> wpool -> Prop :=
| pk_nil w : good w -> pwalk [] w w
| pk_cons x b w w1 w' : good w -> sound_entry x w -> pstep x w w1 -> pwalk b w1 w' -> pwalk (x :: b) w w'.

Lemma walk_good b w m y w' m' : walk b w m y w' m' -> good w /\ mining_wf m.
Proof. intros H. destruct H; auto. Qed.
Lemma walk_end b w m y w' m' : walk b w m y w' m' -> good w' /\ mining_wf m'.
Proof. induction 1; auto. Qed.
Lemma pwalk_good b w w' : pwalk b w w' -> good w.
Proof. intros H. destruct H; auto. Qed.
Lemma walk_pwalk b w m y w' m' : walk b w m y w' m' -> pwalk (map without_places b) w w'.
Proof.
  induction 1 as [w m G M|[[[ts i] b0] l] b w m p w1 m1 y w' m' G M S P H IH]; [constructor; assumption|].
  cbn [map without_places]. destruct S as (S1 & S2 & S3), P as [P1 P2]. econstructor; [exact G|split; assumption|exact P1|exact IH].
Qed.
Lemma pstep_ci x w w' : pstep x w w' -> exists more, wp_ci w' = wp_ci w ++ more.
Proof.
  assert (Z0 : forall w w' : wpool, only_total w w' -> exists more, wp_ci w' = wp_ci w ++ more).
  { intros a b O. exists []. rewrite app_nil_r. apply O. }
  destruct x as [[ts i] b]. destruct i; cbn [pstep]; try (intros ->; exists []; rewrite app_nil_r; reflexivity); try (intros [O _]; exact (Z0 _ _ O)).
  intros (_ & _ & _ & Y & N). destruct (date_or_not (day_start ts) (wp_ci w)) as [D|D].
  - destruct (Y D) as [-> _]. exists []. rewrite app_nil_r. reflexivity.
  - destruct (N D) as (_ & _ & ->). destruct (_ <? _); eexists; [reflexivity|rewrite app_nil_r; reflexivity].
Qed.
Lemma pwalk_ci b w w' : pwalk b w w' -> exists more, wp_ci w' = wp_ci w ++ more.
Proof.
  induction 1 as [w G|x b w w1 w' G S P H (more & IH)]; [exists []; rewrite app_nil_r; reflexivity|].
  destruct (pstep_ci _ _ _ P) as (m0 & E). exists (m0 ++ more). rewrite IH, E, app_assoc. reflexivity.
Qed.
Lemma ix_is_distribute i : i = DistributeRewards \/ i <> DistributeRewards.
Proof. destruct i; (left; reflexivity) || (right; discriminate). Qed.
(** distributions on the same days are recorded on the same days *)
Lemma pstep_days ts i j b c v w v' w' : (i = DistributeRewards <-> j = DistributeRewards) ->
  map fst (wp_ci v) = map fst (wp_ci w) -> pstep (ts, i, b) v v' -> pstep (ts, j, c) w w' -> map fst (wp_ci v') = map fst (wp_ci w').
Proof.
  assert (Q : forall x t u, fst x = (t, u) -> u <> DistributeRewards -> forall w w', pstep x w w' -> wp_ci w' = wp_ci w).
  { intros [[t u] l] t' u' E N w0 w1. cbn in E. injection E as <- <-.
    destruct u; cbn [pstep]; try contradiction; try (intros ->; reflexivity); intros [O _]; apply O. }
  intros H K P1 P2. destruct (ix_is_distribute i) as [->|N].
  - rewrite (proj1 H eq_refl) in P2. cbn [pstep] in P1, P2. destruct P1 as (_ & _ & _ & Y1 & N1), P2 as (_ & _ & _ & Y2 & N2).
    destruct (date_or_not (day_start ts) (wp_ci v)) as [D|D].
    + destruct (Y1 D) as [-> _]. destruct (Y2 (proj1 (has_keys _ _ _ K) D)) as [-> _]. exact K.
    + destruct (N1 D) as (_ & _ & ->). destruct (N2 (fun H => D (proj2 (has_keys _ _ _ K) H))) as (_ & _ & ->).
      rewrite (keys_length _ _ K). destruct (Z.of_nat (length (wp_ci w)) <? 1095); [|exact K]. rewrite !map_app, K. reflexivity.
  - rewrite (Q (ts, i, b) ts i eq_refl N _ _ P1), (Q (ts, j, c) ts j eq_refl (fun X => N (proj2 H X)) _ _ P2). exact K.
Qed.

Lemma walks_ahead b1 v m x v' m' : walk b1 v m x v' m' -> forall b2, Forall2 better b1 b2 ->
  forall w n y w' n' z, walk b2 w n y w' n' ->
  map fst (wp_ci v) = map fst (wp_ci w) -> steeper (wp_ci v') (wp_ci w') ->
  ahead_of (wp_ci v') (wp_ci w') m n z -> ahead_of (wp_ci v') (wp_ci w') m' n' (z + y - x).
Proof.
  induction 1 as [v m G M|[[[ts i] bs] l] b v m p v1 m1 x v' m' G M S P H IH]; intros b2 B w n y w' n' z W K St A.
  - inversion B; subst. inversion W; subst. replace (z + 0 - 0) with z by lia. exact A.
  - inversion B as [|? [[[ts2 j] cs] l2] ? c BT BF]; subst. inversion W as [|? ? ? ? q w1 n1 y1 ? ? G2 M2 S2 P2 W2]; subst.
    destruct BT as (<- & <- & Hd & Hn). destruct P as [P1 PM1], P2 as [P2 PM2].
    assert (Hdd : i = DistributeRewards <-> j = DistributeRewards).
    { destruct l as [|n0 l]; [apply Hd; reflexivity|]. specialize (Hn ltac:(discriminate)).
      destruct i, j; cbn [no_worse] in Hn; try contradiction; split; discriminate. }
    assert (K1 : map fst (wp_ci v1) = map fst (wp_ci w1)) by (eapply pstep_days; eassumption).
    assert (A1 : ahead_of (wp_ci v') (wp_ci w') m1 n1 (z + q - p)).
    { destruct l as [|n0 l]; [destruct PM1 as [-> ->], PM2 as [-> ->]; replace (z + 0 - 0) with z by lia; exact A|].
      destruct (walk_good _ _ _ _ _ _ H) as [_ M1']. destruct (walk_good _ _ _ _ _ _ W2) as [_ M2'].
      destruct (pwalk_ci _ _ _ (walk_pwalk _ _ _ _ _ _ H)) as (r1 & E1). destruct (pwalk_ci _ _ _ (walk_pwalk _ _ _ _ _ _ W2)) as (r2 & E2).
      destruct (pstep_ci _ _ _ P1) as (s1 & F1). destruct (pstep_ci _ _ _ P2) as (s2 & F2).
      set (cn := length (wp_ci v)).
      assert (C1 : firstn cn (wp_ci v') = wp_ci v) by (rewrite E1, F1, <- app_assoc; apply take_app).
      assert (C2 : firstn cn (wp_ci w') = wp_ci w).
      { subst cn. rewrite (keys_length _ _ K), E2, F2, <- app_assoc. apply take_app. }
      rewrite <- C1 in PM1. rewrite <- C2 in PM2.
      assert (GF : growing 0 (wp_ci w')) by (destruct (walk_end _ _ _ _ _ _ W2) as [(nw & GW) _]; exact (pw_ci_grow _ _ GW)).
      eapply (page_ahead _ _ cn ts i j (n0 :: l) m n z); [exact St|exact GF| | | | | | | | | | | | |exact A|exact PM1|exact PM2].
      - rewrite C2. destruct G2 as (nw & G2). exact (pw_ci_grow _ _ G2).
      - exact (mw_asc _ M).
      - exact (mw_asc _ M2).
      - exact (mw_vals _ M).
      - exact (mw_vals _ M2).
      - exact (mw_asc _ M1').
      - exact (mw_asc _ M2').
      - apply Hn. discriminate.
      - apply S2. discriminate.
      - pose proof (mw_sfo _ M2) as Q. unfold is_u64 in Q. lia.
      - pose proof (mw_sfo _ M2') as Q. unfold is_u64 in Q. lia.
      - pose proof (mw_share _ M2') as Q. unfold is_u64 in Q. lia. }
    replace (z + (q + y1) - (p + x)) with ((z + q - p) + y1 - x) by lia.
    eapply IH; [exact BF|exact W2|exact K1|exact St|exact A1].
Qed.

Lemma pwalks_under b1 v v' : pwalk b1 v v' -> forall b2, Forall2 lighter b1 b2 -> forall w w', pwalk b2 w w' -> under v w -> under v' w'.
Proof.
  induction 1 as [v G|[[ts i] bs] b v v1 v' G S P H IH]; intros b2 B w w' W U.
  - inversion B; subst. inversion W; subst. exact U.
  - inversion B as [|? [[ts2 j] cs] ? c BT BF]; subst. inversion W as [|? ? ? w1 ? G2 S2 P2 W2]; subst.
    destruct BT as (<- & <- & Hn). eapply IH; [exact BF|exact W2|].
    pose proof (pwalk_good _ _ _ H) as (n1 & G1'). pose proof (pwalk_good _ _ _ W2) as (n2 & G2').
    destruct G as (t1 & G), G2 as (t2 & G2), S as [S SB].
    eapply (pstep_under ts i j bs); [exact Hn|exact S| | | | | |exact SB|exact U|exact P|exact P2].
    + pose proof (pw_avail _ _ G2) as Q. unfold is_u64 in Q. lia.
    + exact (pw_diffs_asc _ _ G).
    + exact (pw_diffs_asc _ _ G2).
    + exact (pw_diffs_asc _ _ G1').
    + exact (pw_diffs_asc _ _ G2').
Qed.

Section env.
Context (e : env) (Henv : env_ok e).

Lemma exec_sound_pool now ts ms i L L' r P w : reached e now L -> now <= ts -> ix_in_range i -> exec e ts ms i L = Ok (L', r) ->
  is_pool e L P w -> names ms (pool_position i) P = true -> sound_pool ts (gist i) w.
Proof.
  intros HR Hts Hi X Hw Hn E. pose proof (only_allowed e Henv now ts ms i L L' r HR Hts Hi X) as AL.
  destruct i; cbn [gist] in E; try discriminate. cbn [allowed] in AL.
  destruct AL as (p & au & u & [rs Hms] & Hu & CD).
  unfold names in Hn. rewrite Hms in Hn. cbn [pool_position nth_error app] in Hn. apply Z.eqb_eq in Hn. subst p.
  rewrite (pool_fun e _ _ _ _ Hu Hw) in CD. apply CD.
Qed.
Lemma exec_sound_page now ts ms i L L' r k m : reached e now L -> now <= ts -> ix_in_range i -> exec e ts ms i L = Ok (L', r) ->
  is_mining e L k m -> places k ms i <> [] -> sound_page ts (gist i) (places k ms i) m.
Proof.
  intros HR Hts Hi X Hm Hp. pose proof (only_allowed e Henv now ts ms i L L' r HR Hts Hi X) as AL.
  destruct i; cbn [gist sound_page]; try exact I; cbn [allowed] in AL; cbn [ix_in_range] in Hi.
  - destruct AL as (p & q & au & dm & u & x & D & [rs Hms] & SA & CD & (_ & CR & _)).
    unfold places, names in *. rewrite Hms in *. cbn [writes_at worked_on filter nth_error app] in *.
    destruct (Z.eqb_spec q k) as [->|N].
    + intros _. pose proof (sa_mining _ _ _ _ _ _ _ _ _ SA) as Hx. rewrite (mining_fun e _ _ _ _ Hx Hm) in CR. pose proof (cr_due _ _ _ CR). unfold own. lia.
    + destruct (dm =? k); discriminate.
  - destruct Hi as [Hi _]. unfold is_u64 in Hi. lia.
  - destruct AL as (p & q & au & dm & u & x & D & [rs Hms] & SA & [CD _] & CE). destruct CE as (_ & _ & CR & CE).
    unfold places, names in *. rewrite Hms in *. cbn [writes_at worked_on filter nth_error app] in *.
    destruct (Z.eqb_spec q k) as [->|N].
    + cbn [here existsb Nat.eqb orb]. pose proof (sa_mining _ _ _ _ _ _ _ _ _ SA) as Hx. rewrite (mining_fun e _ _ _ _ Hx Hm) in CR. pose proof (cr_due _ _ _ CR). unfold own. lia.
    + destruct (Z.eqb_spec dm k) as [->|N2]; [|contradiction]. cbn [here existsb Nat.eqb orb].
      destruct CD as [[-> _]|(_ & y & Hy & ->)]; [congruence|]. rewrite (mining_fun e _ _ _ _ Hy Hm) in CE. cbn [can_leave] in CE. tauto.
  - destruct Hi as (_ & _ & Hi & _). unfold is_u64 in Hi. lia.
Qed.
Lemma good_pool now L P w : reached e now L -> is_pool e L P w -> good w.
Proof. intros HR [Ho Hd]. destruct (reached_ok e Henv _ _ HR) as (HL & _). eexists. exact (ok_pool e _ _ _ _ HL Ho Hd). Qed.
Lemma good_mining now L k m : reached e now L -> is_mining e L k m -> mining_wf m.
Proof. intros HR [Ho Hd]. destruct (reached_ok e Henv _ _ HR) as (HL & _). exact (ok_mining e _ _ _ _ HL Ho Hd). Qed.
Lemma two_delegates ms i : match gist i with ChangeDelegate _ _ => length (delegates ms i) = 2%nat | _ => True end.
Proof. destruct i; cbn; auto. Qed.

Lemma log_pwalk P now L now' L' b : pool_log e P now L now' L' b -> reached e now L ->
  forall w, is_pool e L P w -> exists w', is_pool e L' P w' /\ pwalk b w w'.
Proof.
  induction 1 as [now L O|now L ts ms i L1 r now' L' b O Hts Hu Hi X HI IH|now L ts L1 now' L' b O Hts Hu X HI IH]; intros HR w Hw.
  - exists w. split; [assumption|constructor]. exact (good_pool _ _ _ _ HR Hw).
  - destruct (pool_log_running e _ _ _ _ _ _ HI) as (w1 & Hw1 & T1). destruct O as (w0 & Hw0 & T0).
    rewrite (pool_fun e _ _ _ _ Hw0 Hw) in T0.
    pose proof (reached_exec e now ts ms i L L1 r HR Hts Hu Hi X) as HR1.
    destruct (IH HR1 w1 Hw1) as (w' & Hw' & PS). exists w'. split; [assumption|].
    pose proof (exec_pstep e Henv now ts ms i L L1 r P w w1 HR Hts Hi X Hw T0 Hw1) as E.
    unfold logged in *. destruct (writes_pool i && names ms (pool_position i) P) eqn:En; [|rewrite E in PS; exact PS].
    apply andb_true_iff in En as [_ En].
    cbn [app]. econstructor; [exact (good_pool _ _ _ _ HR Hw)|split; [exact (exec_sound_pool _ _ _ _ _ _ _ _ _ HR Hts Hi X Hw En)|apply two_delegates]|exact E|exact PS].
  - destruct (pool_log_running e _ _ _ _ _ _ HI) as (w1 & Hw1 & T1). pose proof (ext_pool e _ _ _ _ _ X Hw Hw1) as ->.
    apply IH; [|assumption]. eapply ext_reached; eassumption.
Qed.

Lemma full_log_walk P k now L now' L' b x : full_log e P k now L now' L' b x -> reached e now L ->
  forall w m, is_pool e L P w -> is_mining e L k m -> exists w' m', is_pool e L' P w' /\ is_mining e L' k m' /\ walk b w m x w' m'.
Proof.
  induction 1 as [now L O OM|now L ts ms i L1 r now' L' b x O OM Hts Hu Hi X HH HI IH|now L ts L1 now' L' b x O OM Hts Hu X HI IH]; intros HR w m Hw Hm.
  - exists w, m. split; [assumption|]. split; [assumption|constructor]; [exact (good_pool _ _ _ _ HR Hw)|exact (good_mining _ _ _ _ HR Hm)].
  - destruct (full_log_running e _ _ _ _ _ _ _ _ HI) as [(w1 & Hw1 & T1) (m1 & Hm1 & U1)]. destruct O as (w0 & Hw0 & T0).
    rewrite (pool_fun e _ _ _ _ Hw0 Hw) in T0.
    pose proof (reached_exec e now ts ms i L L1 r HR Hts Hu Hi X) as HR1.
    destruct (IH HR1 w1 m1 Hw1 Hm1) as (w' & m' & Hw' & Hm' & PS). exists w', m'. split; [assumption|]. split; [assumption|].
    pose proof (exec_step e Henv now ts ms i L L1 r P k w w1 m m1 HR Hts Hi X Hw T0 Hw1 Hm Hm1 U1 HH) as E.
    assert (SO : forall l, logged_with P k ts ms i = l -> match l with [] => True | y :: _ => sound y w m end).
    { intros l <-. unfold logged_with. destruct (names ms (pool_position i) P) eqn:En; [|exact I].
      pose proof (exec_sound_pool _ _ _ _ _ _ _ _ _ HR Hts Hi X Hw En) as S1. pose proof (two_delegates ms i) as S3.
      pose proof (exec_sound_page _ _ _ _ _ _ _ _ _ HR Hts Hi X Hm) as S2.
      destruct (writes_pool i), (places k ms i); try exact I; (split; [exact S1|split; [exact S2|exact S3]]). }
    specialize (SO _ eq_refl).
    destruct (logged_with P k ts ms i) as [|y t] eqn:En; [destruct E as (-> & E1 & E2); rewrite E1, E2 in PS; exact PS|].
    rewrite (logged_with_short _ _ _ _ _ _ _ En).
    econstructor; [exact (good_pool _ _ _ _ HR Hw)|exact (good_mining _ _ _ _ HR Hm)|exact SO|exact E|exact PS].
  - destruct (full_log_running e _ _ _ _ _ _ _ _ HI) as [(w1 & Hw1 & T1) (m1 & Hm1 & U1)].
    pose proof (ext_pool e _ _ _ _ _ X Hw Hw1) as ->. pose proof (ext_mining e _ _ _ _ _ X Hm Hm1) as ->.
    apply IH; [|assumption|assumption]. eapply ext_reached; eassumption.
Qed.
End env.

Lemma more_stake e1 e2 : env_ok e1 -> env_ok e2 -> forall P1 P2 k1 k2 now1 L1 now1' L1' now2 L2 now2' L2' b c x y v w v' w' m n m' n',
  reached e1 now1 L1 -> reached e2 now2 L2 ->
  full_log e1 P1 k1 now1 L1 now1' L1' b x -> full_log e2 P2 k2 now2 L2 now2' L2' c y -> Forall2 better b c ->
  is_pool e1 L1 P1 v -> is_pool e2 L2 P2 w -> map fst (wp_ci v) = map fst (wp_ci w) ->
  is_mining e1 L1 k1 m -> is_mining e2 L2 k2 n -> not_less m n ->
  is_pool e1 L1' P1 v' -> is_pool e2 L2' P2 w' -> steeper (wp_ci v') (wp_ci w') ->
  is_mining e1 L1' k1 m' -> is_mining e2 L2' k2 n' ->
  y + m_unclaimed (wm n') <= x + m_unclaimed (wm m') /\ forall d, eff n' d <= eff m' d.
Proof.
  intros H1 H2 P1 P2 k1 k2 now1 L1 now1' L1' now2 L2 now2' L2' b c x y v w v' w' m n m' n' R1 R2 D1 D2 B V W K M N A V' W' St M' N'.
  destruct (full_log_walk e1 H1 _ _ _ _ _ _ _ _ D1 R1 v m V M) as (v1 & m1 & X1 & Y1 & S1).
  rewrite (pool_fun e1 _ _ _ _ X1 V'), (mining_fun e1 _ _ _ _ Y1 M') in S1.
  destruct (full_log_walk e2 H2 _ _ _ _ _ _ _ _ D2 R2 w n W N) as (w1 & n1 & X2 & Y2 & S2).
  rewrite (pool_fun e2 _ _ _ _ X2 W'), (mining_fun e2 _ _ _ _ Y2 N') in S2.
  destruct A as [E1 E2 E3 E4 E5].
  assert (A0 : ahead_of (wp_ci v') (wp_ci w') m n 0).
  { constructor; [exact E1|exact E2|exact E3| |lia]. rewrite E4. apply near_same. exact St. }
  destruct (walks_ahead _ _ _ _ _ _ S1 c B _ _ _ _ _ 0 S2 K St A0) as [D O Sf Nr U]. split; [lia|].
  intros d. specialize (O d). unfold own, eff in *. lia.
Qed.

Lemma less_stake e1 e2 : env_ok e1 -> env_ok e2 -> forall P1 P2 now1 L1 now1' L1' now2 L2 now2' L2' b c v w v' w',
  reached e1 now1 L1 -> reached e2 now2 L2 ->
  pool_log e1 P1 now1 L1 now1' L1' b -> pool_log e2 P2 now2 L2 now2' L2' c -> Forall2 lighter b c ->
  is_pool e1 L1 P1 v -> is_pool e2 L2 P2 w -> under v w ->
  is_pool e1 L1' P1 v' -> is_pool e2 L2' P2 w' -> under v' w'.
Proof.
  intros H1 H2 P1 P2 now1 L1 now1' L1' now2 L2 now2' L2' b c v w v' w' R1 R2 D1 D2 B V W A V' W'.
  destruct (log_pwalk e1 H1 _ _ _ _ _ _ D1 R1 v V) as (v1 & X1 & S1). rewrite (pool_fun e1 _ _ _ _ X1 V') in S1.
  destruct (log_pwalk e2 H2 _ _ _ _ _ _ D2 R2 w W) as (w1 & X2 & S2). rewrite (pool_fun e2 _ _ _ _ X2 W') in S2.
  exact (pwalks_under _ _ _ S1 c B _ _ S2 A).
Qed.

Lemma lighter_places b c : Forall2 (fun x y => lighter (without_places x) (without_places y)) b c -> Forall2 lighter (map without_places b) (map without_places c).
Proof. induction 1; constructor; assumption. Qed.

Lemma dilution e1 e2 : env_ok e1 -> env_ok e2 -> forall P1 P2 k1 k2 now1 L1 now1' L1' now2 L2 now2' L2' b c x y v w m n m' n',
  reached e1 now1 L1 -> reached e2 now2 L2 ->
  full_log e1 P1 k1 now1 L1 now1' L1' b x -> full_log e2 P2 k2 now2 L2 now2' L2' c y ->
  Forall2 better b c -> Forall2 (fun x y => lighter (without_places x) (without_places y)) b c ->
  is_pool e1 L1 P1 v -> is_pool e2 L2 P2 w -> under v w ->
  is_mining e1 L1 k1 m -> is_mining e2 L2 k2 n -> not_less m n ->
  is_mining e1 L1' k1 m' -> is_mining e2 L2' k2 n' ->
  y + m_unclaimed (wm n') <= x + m_unclaimed (wm m') /\ forall d, eff n' d <= eff m' d.
Proof.
  intros H1 H2 P1 P2 k1 k2 now1 L1 now1' L1' now2 L2 now2' L2' b c x y v w m n m' n' R1 R2 D1 D2 B BL V W A M N AM M' N'.
  destruct (full_log_walk e1 H1 _ _ _ _ _ _ _ _ D1 R1 v m V M) as (v1 & m1 & X1 & Y1 & S1).
  destruct (full_log_walk e2 H2 _ _ _ _ _ _ _ _ D2 R2 w n W N) as (w1 & n1 & X2 & Y2 & S2).
  destruct (pwalks_under _ _ _ (walk_pwalk _ _ _ _ _ _ S1) _ (lighter_places _ _ BL) _ _ (walk_pwalk _ _ _ _ _ _ S2) A) as [_ _ _ _ St _].
  assert (K : map fst (wp_ci v) = map fst (wp_ci w)) by exact (steeper_keys _ _ _ _ (un_ci _ _ A)).
  exact (more_stake e1 e2 H1 H2 _ _ _ _ _ _ _ _ _ _ _ _ _ _ _ _ _ _ _ _ _ _ _ _ R1 R2 D1 D2 B V W K M N AM X1 X2 St M' N').
Qed.
