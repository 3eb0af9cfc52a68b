(** Proof of C76: the discipline can be kept from records of the calls. *)
From stdpp Require Import gmap.
From Verif Require Import Base OMap State Spec EffectSpec Core Ledger Program ResLemmas TreeLemmas AccrualLemmas RefreshLemmas WfLemmas
  LedgerLemmas LedgerSpec CodecLemmas History HistoryLemmas Changes AccessLemmas HistoryThms ReachThms EffectLemmas EffectMethods EffectThms EffectMore EffectCompare
  CoreSteps LedgerView LedgerCore LedgerCoreThms Worth Commute Complete Choice LedgerDust BookSpec.

(** ** One mining *)
Record entry (s : Z) (D : list Z) (f : bool) (ci : sched) (now : Z) (m : wmining) : Prop := {
  en_stake : s <= unlocked m;
  en_dates : dates (fun d => In d D) (wm_diffs m);
  en_seen : f = true -> forall ts, now <= ts -> visible ts ci = m_index (wm m) }.

Lemma entry_later s D f ci now ts m : now <= ts -> entry s D f ci now m -> entry s D f ci ts m.
Proof. intros Ht [A B C]. constructor; [assumption..|]. intros Hf t Htt. apply C; [exact Hf|lia]. Qed.
Lemma entry_unseen s D f ci ci' now ts m : entry s D f ci now m -> entry s D false ci' ts m.
Proof. intros [A B C]. constructor; [assumption..|discriminate]. Qed.

Lemma refreshed_unlocked ts ci m m1 : refreshed ts ci m m1 -> unlocked m1 = unlocked m.
Proof. intros R. unfold unlocked. rewrite (rf_share _ _ _ _ R), (rf_diffs _ _ _ _ R), total_after. lia. Qed.
Lemma later_second_lt ts : 0 <= ts -> later_second ts = true -> day_start ts < ts.
Proof.
  unfold later_second, day_start. intros H H1. apply negb_true_iff, Z.eqb_neq in H1.
  pose proof (Z.div_mod ts 86400). pose proof (Z.mod_pos_bound ts 86400). lia.
Qed.
Lemma settled now w ts t : pool_wf now w -> now <= ts -> 0 <= ts -> later_second ts = true -> ts <= t -> visible t (wp_ci w) = visible ts (wp_ci w).
Proof.
  intros Hw Hn H0 Hl Ht. pose proof (later_second_lt _ H0 Hl).
  assert (Hd : dates (fun k => k < ts) (wp_ci w)).
  { intros k i Hin. apply (pw_ci_dates _ _ Hw) in Hin. assert (day_start now <= day_start ts) by (unfold day_start; apply Z.mul_le_mono_nonneg_r; [lia|apply Z.div_le_mono; lia]). lia. }
  unfold visible. rewrite !visible_all; [reflexivity|exact Hd|]. intros k i Hin. specialize (Hd k i Hin). cbv beta in Hd. lia.
Qed.
(** a mining brought up to date, with its stake and schedule changed *)
Lemma entry_touched now ts w s D s' D' f m m' :
  pool_wf now w -> now <= ts -> 0 <= ts -> entry s D f (wp_ci w) now m ->
  m_index (wm m') = visible ts (wp_ci w) -> s' <= unlocked m' -> dates (fun d => In d D') (wm_diffs m') ->
  entry s' D' (f || later_second ts) (wp_ci w) ts m'.
Proof.
  intros Hw Hn H0 [A B C] Hi Hs Hd. constructor; [assumption..|]. intros Hf t Ht. rewrite Hi.
  destruct f; [rewrite (C eq_refl t), (C eq_refl ts) by lia; reflexivity|]. eapply settled; eassumption.
Qed.
Lemma dates_weaken (Q Q' : Z -> Prop) t : (forall d, Q d -> Q' d) -> dates Q t -> dates Q' t.
Proof. intros H H1 k v Hin. apply H. exact (H1 k v Hin). Qed.
Lemma dates_refreshed (Q : Z -> Prop) ts ci m m1 : refreshed ts ci m m1 -> dates Q (wm_diffs m) -> dates Q (wm_diffs m1).
Proof. intros R H k v Hin. rewrite (rf_diffs _ _ _ _ R) in Hin. apply in_after in Hin as [Hin _]. exact (H k v Hin). Qed.
Lemma total_scheduled cap d x t t' : ascending t -> ascending t' -> 0 <= x -> scheduled cap d x t t' -> total t' <= total t + x.
Proof.
  intros A A' Hx S. rewrite (scheduled_is _ _ _ _ _ A A' S). unfold oinsert. rewrite at_date_oget. destruct (ohas d t) eqn:E.
  - apply ohas_true in E as (v & E). rewrite E, (total_oput_old _ _ _ _ A E). lia.
  - apply ohas_false in E. rewrite E. destruct (_ <? _); [|lia]. rewrite total_oput_new by exact E. lia.
Qed.
Lemma dates_map (Q : Z -> Prop) a b : map fst b = map fst a -> dates Q a -> dates Q b.
Proof.
  intros E H k v Hin. assert (Hk : In k (map fst a)) by (rewrite <- E; apply in_map_iff; exists (k, v); auto).
  apply in_map_iff in Hk as ([k' v'] & <- & Hk). exact (H _ _ Hk).
Qed.

(** ** All minings of a pool *)
Definition agree (b : books) (ci : sched) (M : gmap Z wmining) (now : Z) : Prop :=
  forall k m, M !! k = Some m -> entry (b_stake b k) (b_dates b k) (b_seen b k) ci now m.

Lemma see_in ts ks f x : In (Some x) ks -> see ts ks f x = f x || later_second ts.
Proof.
  intros H. unfold see. f_equal. replace (existsb _ ks) with true; [apply andb_true_r|].
  symmetry. apply existsb_exists. exists (Some x). split; [exact H|apply Z.eqb_refl].
Qed.
Lemma see_not ts ks f x : ~ In (Some x) ks -> see ts ks f x = f x.
Proof.
  intros H. unfold see. replace (existsb _ ks) with false; [rewrite andb_false_r; apply orb_false_r|].
  symmetry. apply not_true_iff_false. intros E. apply existsb_exists in E as ([y|] & Hin & E); [|discriminate].
  apply Z.eqb_eq in E. subst. contradiction.
Qed.
Lemma upd_same {A} (f : pubkey -> A) k v : upd f k v k = v.
Proof. unfold upd. rewrite Z.eqb_refl. reflexivity. Qed.
Lemma upd_ne {A} (f : pubkey -> A) k v x : x <> k -> upd f k v x = f x.
Proof. unfold upd. intros H. destruct (Z.eqb_spec x k); [contradiction|reflexivity]. Qed.

Lemma pool_wf_later now ts w : now <= ts -> pool_wf now w -> pool_wf ts w.
Proof.
  intros H []. constructor; try assumption. eapply dates_weaken; [|eassumption]. intros d [H1 H2]. split; [assumption|].
  assert (day_start now <= day_start ts) by (unfold day_start; apply Z.mul_le_mono_nonneg_r; [lia|apply Z.div_le_mono; lia]). lia.
Qed.

(** the books say enough for the discipline *)
Lemma room_of ts d D m : few ts d D -> ascending (wm_diffs m) -> dates (fun x => In x D) (wm_diffs m) -> room ts d m.
Proof.
  intros Hf Ha Hd. unfold room. destruct (in_dec Z.eq_dec d (map fst (wm_diffs m))) as [Hi|Hi].
  { left. apply in_map_iff in Hi as ([k v] & <- & Hi). eauto. }
  right. unfold few in Hf.
  assert (Hl : (length (map fst (Spec.after (day_start ts) (wm_diffs m))) <=
                length (List.nodup Z.eq_dec (List.filter (fun x => (day_start ts <? x)%Z && negb (x =? d)%Z) D)))%nat).
  { apply NoDup_incl_length.
    - apply ascending_nodup. apply ascending_after. exact Ha.
    - intros x Hx. apply nodup_In. apply in_map_iff in Hx as ([k v] & <- & Hx). apply in_after in Hx as [Hin Hlt]. cbn [fst].
      apply filter_In. split; [exact (Hd k v Hin)|]. apply andb_true_iff. split; [apply Z.ltb_lt; exact Hlt|].
      apply negb_true_iff, Z.eqb_neq. intros ->. apply Hi. apply in_map_iff. exists (d, v). auto. }
  rewrite map_length in Hl. lia.
Qed.

Lemma kept_disciplined ts o b now w M v :
  pool_wf now w -> (forall k m, M !! k = Some m -> mining_wf m) -> now <= ts -> 0 <= ts ->
  agree b (wp_ci w) M now -> kept ts o b -> disciplined ts o (Core w M v now).
Proof.
  intros Hw Hm Hn H0 HA HK x.
  assert (Hmid : later_second ts = true -> no_midnight ts (Core w M v now)).
  { intros Hl i Hin. cbn [c_pool] in Hin. apply (pw_ci_days _ _ Hw) in Hin. unfold later_second in Hl. rewrite Hin in Hl. discriminate. }
  assert (Hup : forall d, seen b d -> up_to_date ts (Core w M v now) d).
  { intros d Hs k m -> Hk. cbn [c_min c_pool] in *. cbn in Hs. symmetry. apply (en_seen _ _ _ _ _ _ (HA k m Hk)); assumption. }
  assert (Hro : forall k d, few ts d (b_dates b k) -> mining_is (Core w M v now) k (room ts d)).
  { intros k d Hf m Hk. cbn [c_min] in Hk. eapply room_of; [exact Hf|apply (mw_asc _ (Hm k m Hk))|apply (en_dates _ _ _ _ _ _ (HA k m Hk))]. }
  assert (Hun : forall k a, a <= b_stake b k -> mining_is (Core w M v now) k (fun m => a <= unlocked m)).
  { intros k a Ha m Hk. cbn [c_min] in Hk. pose proof (en_stake _ _ _ _ _ _ (HA k m Hk)). lia. }
  destruct x, o as [k a p d|k a d|k op np st b0 a d|k od nd a|k n wt [dt|]|k n|k|r x fv|n| |k pool owner bump|k]; cbn [cond_ok kept] in *; try exact I;
    try (apply Hup; tauto); try (apply Hro; tauto); try (apply Hmid; tauto); try (apply Hun; tauto); try tauto.
Qed.

(** ** Calls *)
(** a delegate's mining *)
Definition touched (ts : Z) (ci : sched) (x x' : wmining) : Prop :=
  m_index (wm x') = visible ts ci /\ unlocked x' = unlocked x /\ forall Q : Z -> Prop, dates Q (wm_diffs x) -> dates Q (wm_diffs x').
Lemma unlocked_delegated x y : unlocked (with_delegated x y) = unlocked x.
Proof. reflexivity. Qed.
Lemma touched_refreshed ts ci x y x' : refreshed ts ci (with_delegated x y) x' -> touched ts ci x x'.
Proof.
  intros R. split; [apply R|]. split; [rewrite (refreshed_unlocked _ _ _ _ R); reflexivity|].
  intros Q H. eapply dates_refreshed; [exact R|exact H].
Qed.
Definition dlg_touched (ts : Z) (ci : sched) (d : dlg) (d' : option wmining) : Prop :=
  match d, d' with None, None => True | Some (Ok x), Some x' => touched ts ci x x' | _, _ => False end.
Lemma moved_touched ts ci a d d' : delegate_moved ts ci a d d' -> dlg_touched ts ci d d'.
Proof. destruct d as [[x|]|], d' as [x'|]; cbn; try tauto. intros [_ R]. eapply touched_refreshed; exact R. Qed.
Lemma extended_touched ts ci a b d d' : delegate_extended ts ci a b d d' -> dlg_touched ts ci d d'.
Proof.
  destruct d as [[x|]|], d' as [x'|]; cbn; try tauto. intros (_ & y & R & ->). apply touched_refreshed in R as (A & B & C).
  split; [exact A|]. split; [exact B|exact C].
Qed.

Section step.
Context (now ts : Z) (w : wpool) (M : gmap Z wmining) (b : books).
Context (Hw : pool_wf now w) (Hm : forall k m, M !! k = Some m -> mining_wf m) (Hn : now <= ts) (H0 : 0 <= ts).
Context (HA : agree b (wp_ci w) M now).

Lemma entry_dlg k x x' s D : M !! k = Some x -> touched ts (wp_ci w) x x' -> s = b_stake b k -> D = b_dates b k ->
  entry s D (b_seen b k || later_second ts) (wp_ci w) ts x'.
Proof.
  intros Hk (T1 & T2 & T3) -> ->. pose proof (HA k x Hk) as En.
  eapply entry_touched; [exact Hw|exact Hn|exact H0|exact En|exact T1|rewrite T2; apply En|apply T3; apply En].
Qed.

Lemma agree_stake k m' d dl d' s D :
  get_dlg M k d = Ok dl -> dlg_touched ts (wp_ci w) dl d' ->
  entry s D (b_seen b k || later_second ts) (wp_ci w) ts m' ->
  agree (Books (upd (b_stake b) k s) (upd (b_dates b) k D) (see ts [Some k; d] (b_seen b))) (wp_ci w) (put_opt d d' (<[k := m']> M)) ts.
Proof.
  intros Hd HT En q y Hq. cbn [b_stake b_dates b_seen].
  assert (Hs : ~ In (Some q) [Some k; d] -> M !! q = Some y ->
    entry (upd (b_stake b) k s q) (upd (b_dates b) k D q) (see ts [Some k; d] (b_seen b) q) (wp_ci w) ts y).
  { intros Nin Hy. rewrite see_not by exact Nin. rewrite !upd_ne by (intros ->; apply Nin; left; reflexivity).
    eapply entry_later; [exact Hn|]. exact (HA q y Hy). }
  destruct d as [x|]; cbn [get_dlg] in Hd.
  - destruct (Z.eqb_spec x k) as [|Nxk]; [discriminate|]. destruct (M !! x) as [mx|] eqn:Ex; unfold get_min in Hd; rewrite Ex in Hd; [|discriminate].
    injection Hd as <-. destruct d' as [x'|]; [|contradiction]. cbn [dlg_touched] in HT. cbn [put_opt] in Hq.
    destruct (Z.eq_dec q x) as [->|Nqx].
    + rewrite lookup_insert in Hq. injection Hq as <-. rewrite see_in by (right; left; reflexivity). rewrite !upd_ne by exact Nxk.
      eapply entry_dlg; [exact Ex|exact HT|reflexivity..].
    + rewrite lookup_insert_ne in Hq by congruence. destruct (Z.eq_dec q k) as [->|Nqk].
      * rewrite lookup_insert in Hq. injection Hq as <-. rewrite see_in by (left; reflexivity). rewrite !upd_same. exact En.
      * rewrite lookup_insert_ne in Hq by congruence. apply Hs; [|exact Hq]. intros [E|[E|[]]]; congruence.
  - injection Hd as <-. destruct d' as [x'|]; [contradiction|]. cbn [put_opt] in Hq. destruct (Z.eq_dec q k) as [->|Nqk].
    + rewrite lookup_insert in Hq. injection Hq as <-. rewrite see_in by (left; reflexivity). rewrite !upd_same. exact En.
    + rewrite lookup_insert_ne in Hq by congruence. apply Hs; [|exact Hq]. intros [E|[E|[]]]; congruence.
Qed.

Lemma dlg_wf_get k d dl : get_dlg M k d = Ok dl -> dlg_wf dl.
Proof.
  destruct d as [x|]; cbn [get_dlg]; [|intros [= <-]; exact I]. destruct (_ =? _); [discriminate|]. unfold get_min.
  destruct (M !! x) as [mx|] eqn:E; [|discriminate]. intros [= <-]. cbn. exact (Hm x mx E).
Qed.

(** the same for a single mining *)
Lemma agree_one k m' s D : 
  entry s D (b_seen b k || later_second ts) (wp_ci w) ts m' ->
  agree (Books (upd (b_stake b) k s) (upd (b_dates b) k D) (see ts [Some k] (b_seen b))) (wp_ci w) (<[k := m']> M) ts.
Proof.
  intros En q y Hq. cbn [b_stake b_dates b_seen]. destruct (Z.eq_dec q k) as [->|Nqk].
  - rewrite lookup_insert in Hq. injection Hq as <-. rewrite see_in by (left; reflexivity). rewrite !upd_same. exact En.
  - rewrite lookup_insert_ne in Hq by congruence. rewrite see_not by (intros [E|[]]; congruence). rewrite !upd_ne by exact Nqk.
    eapply entry_later; [exact Hn|exact (HA q y Hq)].
Qed.
Lemma agree_ext b1 b2 ci N t : (forall k, b_stake b1 k = b_stake b2 k /\ b_dates b1 k = b_dates b2 k /\ b_seen b1 k = b_seen b2 k) ->
  agree b1 ci N t -> agree b2 ci N t.
Proof. intros H HH k m Hk. destruct (H k) as (<- & <- & <-). exact (HH k m Hk). Qed.
Lemma upd_id {A} (f : pubkey -> A) k x : upd f k (f k) x = f x.
Proof. unfold upd. destruct (Z.eqb_spec x k); congruence. Qed.
End step.

Lemma expired_now p st ts : p = LFlex \/ expiry p st <= ts -> unexpired p st ts = false.
Proof. unfold unexpired. intros [->|H]; [reflexivity|]. destruct p; try reflexivity; apply Z.ltb_ge; exact H. Qed.
Lemma weight_pos p : p <> LNone -> 1 <= weight_of p.
Proof. destruct p; cbn; intros; try lia. contradiction. Qed.

Lemma agree_step now ts o b w M v c :
  pool_wf now w -> (forall k m, M !! k = Some m -> mining_wf m) -> (forall k m, c_min c !! k = Some m -> mining_wf m) ->
  now <= ts -> 0 <= ts -> op_wf o ->
  agree b (wp_ci w) M now -> kept ts o b -> core_step ts o (Core w M v now) = Ok c ->
  agree (note ts o b) (wp_ci (c_pool c)) (c_min c) ts.
Proof.
  intros Hw Hm Hm' Hn H0 Hf HA HK X.
  assert (Hh := pool_wf_hist _ _ Hw).
  destruct o as [k a p d|k a d|k op np st b0 a d|k od nd a|k n wt dt|k n|k|r x fv|n| |k pool owner bump|k]; cbn [core_step c_pool c_min c_vault op_wf note kept] in *.
  - destruct (get_min M k) as [m|] eqn:Ek; cbn [rbind] in X; [|discriminate]. apply get_min_ok in Ek.
    destruct (get_dlg M k d) as [dl|] eqn:Ed; cbn [rbind] in X; [|discriminate].
    destruct (deposit ts w m a p dl) as [[[w' m'] d']|] eqn:E; cbn [rbind] in X; [|discriminate]. injection X as <-.
    cbn [c_pool c_min] in *. pose proof (HA k m Ek) as En.
    destruct (deposit_effect now ts w m a p dl w' m' d' Hw (Hm _ _ Ek) (dlg_wf_get _ Hm _ _ _ Ed) ltac:(unfold is_u64 in Hf; lia) E)
      as (Np & (m1 & R & OS & Sh & SM) & OT & _ & _ & DM).
    replace (wp_ci w') with (wp_ci w) by (symmetry; apply OT).
    eapply agree_stake; [exact Hw|exact Hn|exact H0|exact HA|exact Ed|apply (moved_touched _ _ a); exact DM|].
    assert (Am' : ascending (wm_diffs m')).
    { apply (mw_asc _ (Hm' k m' ltac:(destruct d as [x|]; [apply get_dlg_some in Ed as [Nx _]; rewrite put_opt_lookup_ne by congruence|]; apply lookup_insert))). }
    assert (Am1 : ascending (wm_diffs m1)) by (rewrite (rf_diffs _ _ _ _ R); apply ascending_after; apply (mw_asc _ (Hm _ _ Ek))).
    pose proof (weight_pos p Np) as Hwp. unfold is_u64 in Hf.
    eapply entry_touched; [exact Hw|exact Hn|exact H0|exact En| | |].
    + destruct OS as (_ & -> & _). apply R.
    + pose proof (total_scheduled _ _ (a * (weight_of p - 1)) _ _ Am1 Am' ltac:(apply Z.mul_nonneg_nonneg; lia) SM).
      pose proof (refreshed_unlocked _ _ _ _ R) as Hu. pose proof (en_stake _ _ _ _ _ _ En). unfold unlocked in *. nia.
    + eapply scheduled_dates; [exact SM| |left; reflexivity]. eapply dates_weaken; [|eapply dates_refreshed; [exact R|apply En]]. intros q Hq. right. exact Hq.
  - destruct (get_min M k) as [m|] eqn:Ek; cbn [rbind] in X; [|discriminate]. apply get_min_ok in Ek.
    destruct (get_dlg M k d) as [dl|] eqn:Ed; cbn [rbind] in X; [|discriminate].
    destruct (withdraw ts w m a dl) as [[[w' m'] d']|] eqn:E; cbn [rbind] in X; [|discriminate]. injection X as <-.
    cbn [c_pool c_min] in *. pose proof (HA k m Ek) as En.
    destruct (withdraw_effect now ts w m a dl w' m' d' Hw (Hm _ _ Ek) (dlg_wf_get _ Hm _ _ _ Ed) E)
      as ((m1 & R & OS & _ & Sh & SM) & OT & _ & _ & DM).
    replace (wp_ci w') with (wp_ci w) by (symmetry; apply OT).
    eapply agree_ext; [|eapply (agree_stake now ts w M b Hw Hn H0 HA k m' d dl d' (b_stake b k - a) (b_dates b k));
      [exact Ed|apply (moved_touched _ _ (- a)); exact DM|]].
    { intros q. cbn [b_stake b_dates b_seen]. rewrite upd_id. auto. }
    eapply entry_touched; [exact Hw|exact Hn|exact H0|exact En| | |].
    + destruct OS as (_ & -> & _). apply R.
    + pose proof (refreshed_unlocked _ _ _ _ R) as Hu. pose proof (en_stake _ _ _ _ _ _ En). unfold unlocked in *. rewrite SM. lia.
    + rewrite SM. eapply dates_refreshed; [exact R|apply En].
  - destruct (get_min M k) as [m|] eqn:Ek; cbn [rbind] in X; [|discriminate]. apply get_min_ok in Ek.
    destruct (get_dlg M k d) as [dl|] eqn:Ed; cbn [rbind] in X; [|discriminate].
    destruct (extend ts w m op np st b0 a dl) as [[[w' m'] d']|] eqn:E; cbn [rbind] in X; [|discriminate]. injection X as <-.
    cbn [c_pool c_min] in *. pose proof (HA k m Ek) as En. destruct Hf as (_ & Hb & Ha). unfold is_u64 in Hb, Ha.
    destruct HK as (_ & Hex & _ & _). apply expired_now in Hex.
    destruct (extend_effect now ts w m op np st b0 a dl w' m' d' H0 Hw (Hm _ _ Ek) (dlg_wf_get _ Hm _ _ _ Ed) ltac:(lia) ltac:(lia) E)
      as (_ & Np & (m1 & t & R & OS & _ & Sh & Et & SM) & OT & _ & _ & DM). rewrite Hex in *. subst t.
    replace (wp_ci w') with (wp_ci w) by (symmetry; apply OT).
    eapply agree_stake; [exact Hw|exact Hn|exact H0|exact HA|exact Ed|eapply extended_touched; exact DM|].
    assert (Am' : ascending (wm_diffs m')).
    { apply (mw_asc _ (Hm' k m' ltac:(destruct d as [x|]; [apply get_dlg_some in Ed as [Nx _]; rewrite put_opt_lookup_ne by congruence|]; apply lookup_insert))). }
    assert (Am1 : ascending (wm_diffs m1)) by (rewrite (rf_diffs _ _ _ _ R); apply ascending_after; apply (mw_asc _ (Hm _ _ Ek))).
    pose proof (weight_pos np Np) as Hwp.
    eapply entry_touched; [exact Hw|exact Hn|exact H0|exact En| | |].
    + destruct OS as (_ & -> & _). apply R.
    + pose proof (total_scheduled _ _ ((b0 + a) * (weight_of np - 1)) _ _ Am1 Am' ltac:(apply Z.mul_nonneg_nonneg; lia) SM).
      pose proof (refreshed_unlocked _ _ _ _ R) as Hu. pose proof (en_stake _ _ _ _ _ _ En). unfold unlocked in *. nia.
    + eapply scheduled_dates; [exact SM| |left; reflexivity]. eapply dates_weaken; [|eapply dates_refreshed; [exact R|apply En]]. intros q Hq. right. exact Hq.
  - destruct (bool_decide (od = nd)) eqn:Eb; cbn [negb ensure rbind] in X; [discriminate|]. apply bool_decide_eq_false in Eb.
    destruct (get_min M k) as [m|] eqn:Ek; cbn [rbind] in X; [|discriminate]. apply get_min_ok in Ek.
    destruct (get_dlg M k od) as [odl|] eqn:Eo; cbn [rbind] in X; [|discriminate].
    destruct (get_dlg M k nd) as [ndl|] eqn:Ed; cbn [rbind] in X; [|discriminate].
    destruct (change_delegate ts w m ndl odl a) as [[[[w' m'] od'] nd']|] eqn:E; cbn [rbind] in X; [|discriminate]. injection X as <-.
    cbn [c_pool c_min] in *. pose proof (HA k m Ek) as En. unfold is_u64 in Hf.
    destruct (change_effect now ts w m ndl odl a w' m' od' nd' Hw (Hm _ _ Ek) (dlg_wf_get _ Hm _ _ _ Eo) (dlg_wf_get _ Hm _ _ _ Ed) ltac:(lia) E)
      as (R & OT & _ & _ & DO & DN).
    replace (wp_ci w') with (wp_ci w) by (symmetry; apply OT).
    apply moved_touched in DO, DN.
    assert (H1 : agree (Books (b_stake b) (b_dates b) (see ts [Some k; od] (b_seen b))) (wp_ci w) (put_opt od od' (<[k := m']> M)) ts).
    { eapply agree_ext; [|eapply (agree_stake now ts w M b Hw Hn H0 HA k m' od odl od' (b_stake b k) (b_dates b k)); [exact Eo|exact DO|]].
      - intros q. cbn [b_stake b_dates b_seen]. rewrite !upd_id. auto.
      - eapply entry_touched; [exact Hw|exact Hn|exact H0|exact En|apply R|rewrite (refreshed_unlocked _ _ _ _ R); apply En|].
        eapply dates_refreshed; [exact R|apply En]. }
    destruct nd as [x|]; [|destruct nd'; cbn [put_opt] in *].
    + destruct (get_dlg_some _ _ _ _ Ed) as (Nx & mx & Ex & ->). destruct nd' as [x'|]; [|contradiction]. cbn [dlg_touched put_opt] in *.
      intros q y Hq. cbn [b_stake b_dates b_seen]. destruct (Z.eq_dec q x) as [->|Nq].
      * rewrite lookup_insert in Hq. injection Hq as <-. rewrite see_in by (cbn; auto).
        eapply (entry_dlg now ts w M b Hw Hn H0 HA); [exact Ex|exact DN|reflexivity..].
      * rewrite lookup_insert_ne in Hq by congruence. specialize (H1 q y Hq). cbn [b_stake b_dates b_seen] in H1.
        replace (see ts [Some k; od; Some x] (b_seen b) q) with (see ts [Some k; od] (b_seen b) q); [exact H1|].
        unfold see. cbn [existsb]. rewrite (proj2 (Z.eqb_neq x q)) by congruence. reflexivity.
    + eapply agree_ext; [|exact H1]. intros q. cbn [b_stake b_dates b_seen]. unfold see. cbn [existsb]. auto.
    + eapply agree_ext; [|exact H1]. intros q. cbn [b_stake b_dates b_seen]. unfold see. cbn [existsb]. auto.
  - destruct (get_min M k) as [m|] eqn:Ek; cbn [rbind] in X; [|discriminate]. apply get_min_ok in Ek.
    destruct (slash ts w m n wt dt) as [[w' m']|] eqn:E; cbn [rbind] in X; [|discriminate]. injection X as <-.
    cbn [c_pool c_min] in *. pose proof (HA k m Ek) as En. unfold is_u64 in Hf.
    destruct (slash_effect now ts w m n wt dt w' m' Hw (Hm _ _ Ek) ltac:(lia) ltac:(lia) E) as (m1 & R & OS & OT & _ & Sh & _ & HD).
    replace (wp_ci w') with (wp_ci w) by (symmetry; apply OT).
    pose proof (refreshed_unlocked _ _ _ _ R) as Hu. pose proof (en_stake _ _ _ _ _ _ En) as Hs.
    destruct dt as [x|].
    + destruct HD as (_ & (_ & _ & Hk & _) & _ & Hus). eapply agree_ext; [|eapply (agree_one now ts w M b Hn HA k m' (b_stake b k - n) (b_dates b k))].
      { intros q. cbn [b_stake b_dates b_seen]. rewrite upd_id. auto. }
      eapply entry_touched; [exact Hw|exact Hn|exact H0|exact En| | |].
      * destruct OS as (_ & -> & _). apply R.
      * unfold unlocked_stake, unlocked in *. lia.
      * eapply dates_map; [exact Hk|]. eapply dates_refreshed; [exact R|apply En].
    + destruct HD as (Hk & _). eapply agree_ext; [|eapply (agree_one now ts w M b Hn HA k m' (b_stake b k - wt) (b_dates b k))].
      { intros q. cbn [b_stake b_dates b_seen]. rewrite upd_id. auto. }
      eapply entry_touched; [exact Hw|exact Hn|exact H0|exact En| | |].
      * destruct OS as (_ & -> & _). apply R.
      * unfold unlocked in *. rewrite Hk. lia.
      * rewrite Hk. eapply dates_refreshed; [exact R|apply En].
  - destruct (get_min M k) as [m|] eqn:Ek; cbn [rbind] in X; [|discriminate]. apply get_min_ok in Ek.
    destruct (decrease_rewards n m) as [m'|] eqn:E; cbn [rbind] in X; [|discriminate]. injection X as <-. cbn [c_pool c_min] in *.
    pose proof (HA k m Ek) as [E1 E2 E3]. unfold is_u64 in Hf.
    destruct (decrease_effect n m m' (Hm _ _ Ek) ltac:(lia) E) as ((_ & Hi & _) & _ & Sh & Hk & _ & Ht & _).
    intros q y Hq. cbn [b_stake b_dates b_seen]. destruct (Z.eq_dec q k) as [->|Nq].
    + rewrite lookup_insert in Hq. injection Hq as <-. rewrite upd_same. constructor.
      * assert (0 <= total (wm_diffs m)).
        { pose proof (due_bounds 0 (wm_diffs m)) as Hb. unfold values in Hb. assert (H1 : forall d x, In (d, x) (wm_diffs m) -> 0 <= x).
          { intros d x Hin. apply (mw_vals _ (Hm _ _ Ek)) in Hin. unfold is_u64 in Hin. lia. }
          specialize (Hb H1). lia. }
        unfold unlocked in *. lia.
      * eapply dates_map; [exact Hk|exact E2].
      * intros Hs t Htt. rewrite Hi. apply E3; [exact Hs|lia].
    + rewrite lookup_insert_ne in Hq by congruence. rewrite upd_ne by exact Nq. eapply entry_later; [exact Hn|exact (HA q y Hq)].
  - destruct (get_min M k) as [m|] eqn:Ek; cbn [rbind] in X; [|discriminate]. apply get_min_ok in Ek.
    destruct (refresh ts (wp_ci w) m) as [m1|] eqn:E; cbn [rbind] in X; [|discriminate].
    destruct (_ <=? _); cbn [ensure rbind] in X; [|discriminate]. injection X as <-. cbn [c_pool c_min] in *.
    pose proof (HA k m Ek) as En. pose proof (refresh_refreshed _ _ _ _ Hh (mining_wf_min _ (Hm _ _ Ek)) E) as R.
    eapply agree_ext; [|eapply (agree_one now ts w M b Hn HA k _ (b_stake b k) (b_dates b k))].
    { intros q. cbn [b_stake b_dates b_seen]. rewrite !upd_id. auto. }
    eapply entry_touched; [exact Hw|exact Hn|exact H0|exact En| | |].
    + cbn. apply R.
    + change (unlocked (WMining (mining_claim (wm m1)) (wm_diffs m1))) with (unlocked m1). rewrite (refreshed_unlocked _ _ _ _ R). apply En.
    + cbn. eapply dates_refreshed; [exact R|apply En].
  - destruct (negb (r =? 0)); cbn [ensure rbind] in X; [|discriminate].
    destruct (fill_pool ts r x w) as [w'|] eqn:E; cbn [rbind] in X; [|discriminate]. apply fill_effect in E as (_ & _ & _ & _ & _ & Eci & _).
    destruct fv; [discriminate|]. destruct (vault_add v r) as [v'|]; cbn [rbind] in X; [|discriminate]. injection X as <-. cbn [c_pool c_min].
    rewrite Eci. intros q y Hq. eapply entry_later; [exact Hn|exact (HA q y Hq)].
  - destruct (vault_add v n) as [v'|]; cbn [rbind] in X; [|discriminate]. injection X as <-. cbn [c_pool c_min].
    intros q y Hq. eapply entry_later; [exact Hn|exact (HA q y Hq)].
  - destruct (rewards_to_distribute ts (wp w)) as [r|]; cbn [rbind] in X; [|discriminate].
    destruct (distribute ts r w) as [w'|]; cbn [rbind] in X; [|discriminate]. injection X as <-. cbn [c_pool c_min].
    intros q y Hq. cbn [b_stake b_dates b_seen]. eapply entry_unseen. exact (HA q y Hq).
  - destruct (M !! k) as [|] eqn:Ek; [discriminate|]. injection X as <-. cbn [c_pool c_min]. intros q y Hq. cbn [b_stake b_dates b_seen].
    destruct (Z.eq_dec q k) as [->|Nq].
    + rewrite lookup_insert in Hq. injection Hq as <-. rewrite !upd_same. constructor; [unfold unlocked; cbn; lia|intros ? ? []|discriminate].
    + rewrite lookup_insert_ne in Hq by congruence. rewrite !upd_ne by exact Nq. eapply entry_later; [exact Hn|exact (HA q y Hq)].
  - destruct (get_min M k) as [m|] eqn:Ek; cbn [rbind] in X; [|discriminate].
    destruct (refresh ts (wp_ci w) m) as [m1|]; cbn [rbind] in X; [|discriminate].
    destruct (negb (0 <? m_sfo (wm m1))); cbn [ensure rbind] in X; [|discriminate].
    destruct (m_unclaimed (wm m1) =? 0); cbn [ensure rbind] in X; [|discriminate]. injection X as <-. cbn [c_pool c_min].
    intros q y Hq. cbn [b_stake b_dates b_seen]. destruct (Z.eq_dec q k) as [->|Nq]; [rewrite lookup_delete in Hq; discriminate|].
    rewrite lookup_delete_ne in Hq by congruence. rewrite !upd_ne by exact Nq. eapply entry_later; [exact Hn|exact (HA q y Hq)].
Qed.

(** ** Histories *)
Section ledger.
Context (e : env) (Henv : env_ok e) (Hinj : env_inj e) (Hrent : 0 < rent_min e MINING_LEN) (P : pubkey) (HP : P <> 0).

Lemma minings_wf now L : ledger_ok e now L -> forall k m, minings_of e P L !! k = Some m -> mining_wf m.
Proof. intros HL k m Hk. apply in_view in Hk as [[Ho Hd] _]. eapply ok_mining; eassumption. Qed.

Definition booked (now : Z) (L : ledger) (b : books) : Prop :=
  (before e P L /\ forall k, b_stake b k = 0 /\ b_seen b k = false) \/
  (exists w V t, LedgerCore.after e P disciplined now L w V t /\ agree b (wp_ci w) (minings_of e P L) now).

Lemma no_op ms i b P' ts : account_at ms (pool_position i) P' -> P' <> P -> note_ix e P ts ms i b = b.
Proof.
  intros Ha Hne. unfold note_ix. destruct (op_of e P ms i) as [o|] eqn:Eo; [|reflexivity].
  exfalso. apply op_of_at in Eo. apply Hne. eapply Changes.at_fun; eassumption.
Qed.

Lemma kept_event now ts ms i L b :
  0 <= now -> now <= ts -> ledger_ok e now L -> booked now L b ->
  orderly_ix e P (fun _ _ _ => True) now ts ms i L -> kept_ix e P ts ms i b -> orderly_ix e P disciplined now ts ms i L.
Proof.
  intros H0 Hn HL HB [O1 O2 O3 O4 O5 _] HK. constructor; try assumption.
  intros V w o HV Ho. unfold kept_ix in HK. rewrite Ho in HK. destruct HB as [[B _]|(w1 & V1 & t & A & HA)].
  - destruct HV as (Hw & Hty & _). rewrite (bf_pool _ _ _ B w Hw) in Hty. discriminate.
  - pose proof (af_pool _ _ _ _ _ _ _ _ A) as (Hw1 & _). unfold core_of. rewrite (pool_of_is _ _ _ _ Hw1).
    eapply kept_disciplined; [destruct Hw1; eapply ok_pool; eassumption|eapply minings_wf; exact HL|exact Hn|lia|exact HA|exact HK].
Qed.

Lemma kept_exec now ts ms i L L' r b :
  0 <= now -> now <= ts -> is_u64 ts -> ix_in_range i -> ledger_ok e now L -> ledger_ok e ts L' ->
  minings_ok e L -> bumps_ok e L -> addresses_ok e L -> booked now L b ->
  orderly_ix e P disciplined now ts ms i L -> kept_ix e P ts ms i b -> exec e ts ms i L = Ok (L', r) ->
  booked ts L' (note_ix e P ts ms i b).
Proof.
  intros H0 Hn Hu Hi HL HL' HM HB HA HS O HK X. destruct (pool_named _ _ _ _ _ _ _ X) as [P' HP'].
  destruct HS as [[B Hb]|(w & V & t & A & Hag)].
  - assert (Hb' : forall k, b_stake (note_ix e P ts ms i b) k = 0 /\ b_seen (note_ix e P ts ms i b) k = false).
    { destruct (Z.eq_dec P' P) as [->|Hne]; [|rewrite (no_op ms i b P' ts HP' Hne); exact Hb].
      destruct (idle _ _ _ _ _ _ _ _ _ _ B O X HP') as [(f & d & ->)|(o & ->)]; [exact Hb|].
      unfold note_ix. destruct (op_of e P ms (InitializeMining o)) as [o'|] eqn:Eo; [|exact Hb].
      unfold op_of in Eo. repeat match type of Eo with
      | match ?l with [] => _ | _ :: _ => _ end = _ => destruct l; try discriminate
      | (if ?b then _ else _) = _ => destruct b; [|discriminate] end. injection Eo as <-.
      intros k. cbn [note b_stake b_seen]. unfold upd. destruct (k =? _); [auto|exact (Hb k)]. }
    destruct (before_exec e Henv Hinj P HP disciplined _ _ _ _ _ _ _ Hn HL HM HA B O X) as [[(f & d & ->) Hp]|B']; [right|left; auto].
    destruct (before_init e Henv Hinj P disciplined disciplined_init _ _ _ _ _ _ _ _ Hn HL Hu B O X Hp) as (w & V & t & A & _ & _ & Hf).
    exists w, V, t. split; [exact A|]. intros k m Hk. destruct (Hf k m Hk) as (o & b0 & ->). destruct (Hb' k) as [-> ->].
    constructor; [unfold unlocked; cbn; lia|intros ? ? []|discriminate].
  - right. destruct (after_exec e Henv Hinj P HP disciplined disciplined_donate _ _ _ _ _ _ _ _ _ _ H0 Hn Hu Hi HL HL' HM HB HA A O X) as (w' & t' & A').
    exists w', V, t'. split; [exact A'|].
    pose proof (af_pool _ _ _ _ _ _ _ _ A) as (Hw & Hty & _). pose proof (af_pool _ _ _ _ _ _ _ _ A') as (Hw' & _).
    pose proof (pool_of_is _ _ _ _ Hw) as Ew. pose proof (pool_of_is _ _ _ _ Hw') as Ew'.
    assert (Wp : pool_wf now w) by (destruct Hw; eapply ok_pool; eassumption).
    destruct (Z.eq_dec P' P) as [->|Hne].
    + destruct (own_step e Henv Hinj P HP disciplined now ts ms i L L' r w V t Hn HL HM HB HA O X HP' Hw Hty (af_token _ _ _ _ _ _ _ _ A) (af_only _ _ _ _ _ _ _ _ A))
        as [(o & Ho & Hs)|[(o & c & n & Ho & Hs & _ & _ & Hd & _)|[-> Hc]]].
      * unfold note_ix, kept_ix in *. rewrite Ho in *. unfold core_of in Hs. rewrite Ew, Ew' in Hs.
        apply (agree_step now ts o b w (minings_of e P L) (balance L V)) in Hs; cbn [c_pool c_min] in *; try assumption; try lia.
        { eapply minings_wf; exact HL. } { eapply minings_wf; exact HL'. } { eapply op_of_wf; eassumption. }
      * unfold note_ix, kept_ix in *. rewrite Ho in *. unfold core_of in Hs, Hd. rewrite Ew in Hs. rewrite Ew' in Hd.
        assert (Ec : c_pool c = w' /\ c_min c = minings_of e P L').
        { cbn [core_step] in Hd. destruct (vault_add (c_vault c) n); cbn [rbind] in Hd; [|discriminate]. injection Hd. auto. }
        destruct Ec as [Ec1 Ec2].
        apply (agree_step now ts o b w (minings_of e P L) (balance L V)) in Hs; try assumption; try lia.
        { rewrite Ec1, Ec2 in Hs. exact Hs. } { eapply minings_wf; exact HL. }
        { rewrite Ec2. eapply minings_wf; exact HL'. } { eapply op_of_wf; eassumption. }
      * unfold core_of in Hc. rewrite Ew, Ew' in Hc. injection Hc as <- HcM _.
        apply exec_inv in X as [H _]. cbn [process] in H. apply no_ret_ok in H as [H _].
        apply close_inv in H as (k & owner & target & auth & pool & w0 & m & m1 & Hms & Hok & Hot & HoP & _ & _ & _ & _ & _ & _ & _ & _ & _ & _ & _ & EL).
        assert (Hgone : minings_of e P L' !! k = None).
        { destruct (minings_of e P L' !! k) as [y|] eqn:Ey; [exfalso|reflexivity]. apply in_view in Ey as [[_ Hd] Hp]. rewrite EL in Hd.
          unfold data_of in Hd. rewrite acc_insert in Hd. cbn in Hd. injection Hd as <-. cbn in Hp. congruence. }
        unfold note_ix. destruct (op_of e P ms CloseMining) as [o|] eqn:Eo; [|rewrite HcM; intros q y Hq; eapply entry_later; [exact Hn|exact (Hag q y Hq)]].
        assert (o = OClose k) as ->.
        { unfold op_of in Eo. destruct Hms as [rest Hms]. rewrite Hms in Eo. cbn in Eo. destruct (pool =? P); [|discriminate]. injection Eo. auto. }
        intros q y Hq. cbn [note b_stake b_dates b_seen]. assert (q <> k) by congruence. rewrite !upd_ne by assumption.
        rewrite HcM in Hq. eapply entry_later; [exact Hn|exact (Hag q y Hq)].
    + rewrite (no_op ms i b P' ts HP' Hne).
      rewrite (other_minings_of e Henv Hinj P HP disciplined now ts ms i L L' r P' Hn HL HM HA O X HP' Hne).
      assert (w' = w) as ->.
      { rewrite <- Ew, <- Ew'. apply pool_of_acc. exact (other_pool e Henv P now ts ms i L L' r P' w Hn X HP' Hne Hw). }
      intros q y Hq. eapply entry_later; [exact Hn|exact (Hag q y Hq)].
Qed.

Lemma kept_run_good now L b now' L' b' :
  kept_run e P now L b now' L' b' ->
  0 <= now -> ledger_ok e now L -> minings_ok e L -> bumps_ok e L -> addresses_ok e L -> booked now L b ->
  orderly_run e P disciplined now L now' L' /\ booked now' L' b' /\ ledger_ok e now' L'.
Proof.
  induction 1 as [|now L b ts ms i L1 r now' L' b' Hts Hu Hr X O K R IH|now L b ts L1 now' L' b' Hts Hu X O R IH];
    intros Hn HL HM HB HA HS.
  - split; [constructor|auto].
  - pose proof (kept_event now ts ms i L b Hn Hts HL HS O K) as O'.
    assert (S : step e now L (EvIx ts ms i) L1) by (econstructor; eassumption).
    pose proof (step_ok e Henv _ _ _ _ Hn S HL) as HL1. cbn in HL1.
    destruct IH as [R' IH']; [lia|exact HL1|exact (exec_minings e Henv Hrent _ _ _ _ _ _ _ Hts HL HM X)|
      exact (exec_bumps e Henv Hinj _ _ _ _ _ _ _ Hts HL HB X)|exact (step_addresses e Henv _ _ _ _ Hn S HL HA)|
      eapply kept_exec; eassumption|].
    split; [|exact IH']. eapply or_ix; eassumption.
  - assert (S : step e now L (EvExt ts) L1) by (econstructor; eassumption).
    pose proof (step_ok e Henv _ _ _ _ Hn S HL) as HL1. cbn in HL1.
    destruct IH as [R' IH']; [lia|exact HL1|eapply ext_minings; eassumption|eapply ext_bumps; eassumption|exact (step_addresses e Henv _ _ _ _ Hn S HL HA)| |].
    + destruct HS as [[B Hb]|(w & V & t & A & Hag)].
      * left. split; [|exact Hb]. exact (before_ext e Henv P HP _ _ B HM X O).
      * right. destruct (after_ext e Henv P HP disciplined disciplined_donate _ _ _ _ _ _ _ Hn Hts Hu HL HL1 HM A X O) as (t' & A').
        exists w, V, t'. split; [exact A'|]. rewrite (ext_minings_of e P HP _ _ X HM). intros q y Hq. eapply entry_later; [exact Hts|exact (Hag q y Hq)].
    + split; [|exact IH']. eapply or_ext; eassumption.
Qed.

Lemma books_orderly now L b : kept_books e P now L b -> orderly e P disciplined now L /\ booked now L b /\ ledger_ok e now L.
Proof.
  intros (L0 & G & Hd & R). destruct (genesis_good e Henv P HP disciplined L0 G Hd) as (H0 & HL & HM & HB & HA & _).
  destruct (kept_run_good _ _ _ _ _ _ R H0 HL HM HB HA) as (R' & HJ & HL').
  - left. split; [|split; reflexivity]. apply genesis_before; assumption.
  - split; [|auto]. exists L0. auto.
Qed.

(** the books are right: no more stake on record than can be withdrawn; every date of the
    schedule on record; a mining on record as up to date earns nothing by being refreshed *)
Lemma books_right now L b k m : kept_books e P now L b -> mining_in e L P k m ->
  b_stake b k <= unlocked_stake m /\ dates (fun d => In d (b_dates b k)) (wm_diffs m) /\
  (b_seen b k = true -> forall w ts, is_pool e L P w -> now <= ts -> m_index (wm m) = visible ts (wp_ci w)).
Proof.
  intros HK Hin. destruct (books_orderly _ _ _ HK) as (_ & HB & _). destruct HB as [[B Hb]|(w & V & t & A & Hag)].
  - destruct Hin as [Hm Hp]. destruct (bf_min _ _ _ B k m Hm Hp) as (o & b0 & ->). destruct (Hb k) as [-> ->].
    split; [unfold unlocked_stake; cbn; lia|]. split; [intros ? ? []|discriminate].
  - apply in_view in Hin. destruct (Hag k m Hin) as [E1 E2 E3]. split; [exact E1|]. split; [exact E2|].
    intros Hs w0 ts Hw0 Ht. pose proof (af_pool _ _ _ _ _ _ _ _ A) as (Hw & _).
    assert (w0 = w) as -> by (destruct Hw, Hw0; congruence). symmetry. exact (E3 Hs ts Ht).
Qed.
End ledger.
