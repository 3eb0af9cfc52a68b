(** Comparing the accrual of minings: monotonicity, splitting, and what a delegate loses
    when delegated-in stake is removed. *)
From stdpp Require Import gmap.
From Verif Require Import Base OMap State Spec EffectSpec Ledger Program ResLemmas TreeLemmas AccrualLemmas
  RefreshLemmas WfLemmas LedgerLemmas LedgerSpec CodecLemmas History HistoryLemmas Changes AccessLemmas
  HistoryThms ReachThms CoreSteps EffectLemmas EffectMethods EffectThms EffectMore.

Lemma due_upto d b t : due d (upto b t) = due (Z.min d b) t.
Proof.
  induction t as [|[k v] r IH]; [reflexivity|]. unfold upto in *. cbn [filter fst due].
  destruct (Z.leb_spec k b); cbn [due]; rewrite IH.
  - destruct (Z.leb_spec k d), (Z.leb_spec k (Z.min d b)); lia.
  - destruct (Z.leb_spec k (Z.min d b)); lia.
Qed.
Lemma keys_upto b t u : map fst t = map fst u -> map fst (upto b t) = map fst (upto b u).
Proof.
  revert u. induction t as [|[k v] r IH]; intros [|[k' v'] r'] E; cbn in E; try discriminate; [reflexivity|].
  injection E as <- E. unfold upto in *. cbn [filter fst]. destruct (k <=? b); cbn [map fst]; rewrite (IH _ E); reflexivity.
Qed.
Lemma day_start_le ts : day_start ts <= ts.
Proof. unfold day_start. pose proof (Z.div_mod ts 86400). pose proof (Z.mod_pos_bound ts 86400). lia. Qed.

Lemma upto_dates ts ci m m' :
  refreshed ts ci m m' -> dates (fun d => m_index (wm m) <= visible d ci /\ d <= ts) (upto (day_start ts) (wm_diffs m)).
Proof.
  intros R d v Hin. apply in_upto in Hin as [H1 H2]. split; [exact (rf_first _ _ _ _ R d v H1 H2)|].
  pose proof (day_start_le ts). lia.
Qed.

Lemma credit_monotone ts ci a b a' b' :
  growing 0 ci -> ascending (wm_diffs a) ->
  m_index (wm a) = m_index (wm b) -> map fst (wm_diffs a) = map fst (wm_diffs b) ->
  (forall d, eff a d <= eff b d) ->
  refreshed ts ci a a' -> refreshed ts ci b b' -> credited a a' <= credited b b'.
Proof.
  intros Hg Ha Hi Hk He Ra Rb. unfold credited. rewrite (rf_unclaimed _ _ _ _ Ra), (rf_unclaimed _ _ _ _ Rb), <- Hi.
  assert (E : earned ci (m_share (wm a) + m_sfo (wm a)) (m_index (wm a)) (upto (day_start ts) (wm_diffs a)) ts
    <= earned ci (m_share (wm b) + m_sfo (wm b)) (m_index (wm a)) (upto (day_start ts) (wm_diffs b)) ts); [|lia].
  apply earned_mono; [assumption|apply ascending_upto; assumption|apply keys_upto; assumption|exact (rf_index_le _ _ _ _ Ra)|exact (upto_dates _ _ _ _ Ra)|].
  intros d. rewrite !due_upto. specialize (He (Z.min d (day_start ts))). unfold eff in He. lia.
Qed.

(** [c] holds the stake of [a] and [b] together: the same dates, the drops added up *)
Lemma credit_split ts ci a b c a' b' c' :
  m_index (wm a) = m_index (wm c) -> m_index (wm b) = m_index (wm c) ->
  m_share (wm a) + m_sfo (wm a) + (m_share (wm b) + m_sfo (wm b)) = m_share (wm c) + m_sfo (wm c) ->
  merged (wm_diffs a) (wm_diffs b) (wm_diffs c) ->
  refreshed ts ci a a' -> refreshed ts ci b b' -> refreshed ts ci c c' ->
  0 <= credited c c' - (credited a a' + credited b b') <= segments ts c.
Proof.
  intros Hia Hib Hs Hm Ra Rb Rc. unfold credited.
  rewrite (rf_unclaimed _ _ _ _ Ra), (rf_unclaimed _ _ _ _ Rb), (rf_unclaimed _ _ _ _ Rc), Hia, Hib, <- Hs.
  pose proof (earned_split ci ts _ _ _ (m_share (wm a) + m_sfo (wm a)) (m_share (wm b) + m_sfo (wm b)) (m_index (wm c))
    (merged_upto (day_start ts) _ _ _ Hm)) as E. unfold segments. lia.
Qed.

Lemma accrual_add j f g h t : (forall d, h d = f d + g d) -> accrual j h t = accrual j f t + accrual j g t.
Proof.
  intros H. unfold accrual. generalize 0 as prev. induction t as [|[k i] r IH]; intros prev; [reflexivity|].
  cbn [accrual_from]. rewrite IH, H. lia.
Qed.

(** whatever the dates: together or apart differ by less than a token per segment *)
Lemma credit_split_any ts ci a b c a' b' c' :
  m_index (wm a) = m_index (wm c) -> m_index (wm b) = m_index (wm c) ->
  (forall d, eff c d = eff a d + eff b d) ->
  refreshed ts ci a a' -> refreshed ts ci b b' -> refreshed ts ci c c' ->
  - segments ts c < credited c c' - (credited a a' + credited b b') < segments ts a + segments ts b.
Proof.
  intros Hia Hib He Ra Rb Rc. unfold credited.
  pose proof (rf_credit _ _ _ _ Ra). pose proof (rf_credit _ _ _ _ Rb). pose proof (rf_credit _ _ _ _ Rc) as C.
  rewrite (accrual_add _ _ _ _ _ He) in C. rewrite Hia in *. rewrite Hib in *.
  assert (1 <= segments ts a) by (unfold segments; lia). assert (1 <= segments ts b) by (unfold segments; lia).
  assert (1 <= segments ts c) by (unfold segments; lia). nia.
Qed.

Lemma keys_no_drops l : map fst (no_drops l) = map fst l.
Proof. unfold no_drops. rewrite map_map. reflexivity. Qed.
Lemma total_no_drops l : total (no_drops l) = 0.
Proof. induction l as [|[k v] r IH]; [reflexivity|]. cbn [no_drops map total fst]. exact IH. Qed.

(** ** What a delegate loses *)
(** [x'] is the delegate's mining after [a] was removed and the mining refreshed; [y] is what
    a refresh alone would have made of it *)
Lemma removal_loss ts ci x x' y a :
  growing 0 ci -> ascending (wm_diffs x) -> 0 <= a -> refreshed ts ci (with_delegated x (m_sfo (wm x) - a)) x' -> refreshed ts ci x y ->
  0 <= m_unclaimed (wm y) - m_unclaimed (wm x') /\
  -(10000000000000000 * segments ts x) <=
    10000000000000000 * (m_unclaimed (wm y) - m_unclaimed (wm x')) - (visible ts ci - m_index (wm x)) * a
    <= 10000000000000000 * segments ts x.
Proof.
  intros Hg Has Ha R Ry. rewrite (rf_unclaimed _ _ _ _ R), (rf_unclaimed _ _ _ _ Ry).
  cbn [with_delegated wm m_unclaimed m_share m_sfo m_index wm_diffs].
  set (l := upto (day_start ts) (wm_diffs x)). set (s := m_share (wm x) + (m_sfo (wm x) - a)).
  replace (m_share (wm x) + m_sfo (wm x)) with (s + a) by (unfold s; lia).
  pose proof (earned_more ci ts s a (m_index (wm x)) l) as E. cbv zeta in E.
  pose proof (earned_split ci ts l (no_drops l) l s a (m_index (wm x)) (merged_no_drops l)) as F.
  assert (G : 0 <= earned ci a (m_index (wm x)) (no_drops l) ts).
  { pose proof (upto_dates _ _ _ _ Ry) as D. fold l in D. pose proof (rf_index_le _ _ _ _ Ry) as I.
    assert (Hl : ascending l) by (apply ascending_upto; assumption).
    apply earned_nonneg; [assumption| |assumption| | |].
    - eapply ascending_keys; [|exact Hl]. symmetry. apply keys_no_drops.
    - eapply dates_keys; [|exact D]. symmetry. apply keys_no_drops.
    - intros k v Hin. apply in_map_iff in Hin as ([k0 v0] & E1 & _). injection E1 as _ <-. lia.
    - rewrite total_no_drops. assumption. }
  unfold segments. fold l. unfold PRECISION in E. lia.
Qed.

Section env.
Context (e : env) (Henv : env_ok e).

(** the delegate's mining lost exactly what the removed stake had earned and was not yet
    credited, up to one token per segment *)
Definition loses (ts : Z) (ci : sched) (a : Z) (x x' : wmining) : Prop :=
  forall y, refreshed ts ci x y ->
    0 <= m_unclaimed (wm y) - m_unclaimed (wm x') /\
    -(10000000000000000 * segments ts x) <=
      10000000000000000 * (m_unclaimed (wm y) - m_unclaimed (wm x')) - (visible ts ci - m_index (wm x)) * a
      <= 10000000000000000 * segments ts x.

Lemma reached_hist now L P w : reached e now L -> is_pool e L P w -> growing 0 (wp_ci w).
Proof.
  intros HL [Ho Hd]. destruct (reached_ok e Henv _ _ HL) as (O & _).
  exact (pw_ci_grow _ _ (ok_pool e now L P w O Ho Hd)).
Qed.
Lemma reached_asc now L k m : reached e now L -> is_mining e L k m -> ascending (wm_diffs m).
Proof.
  intros HL [Ho Hd]. destruct (reached_ok e Henv _ _ HL) as (O & _).
  exact (mw_asc _ (ok_mining e now L k m O Ho Hd)).
Qed.

Lemma withdraw_loss now ts ms a o d L L' r P w k D :
  reached e now L -> now <= ts -> is_u64 a -> exec e ts ms (WithdrawMining a o d) L = Ok (L', r) ->
  account_at ms 0 P -> account_at ms 1 k -> account_at ms 3 D -> D <> k -> is_pool e L P w ->
  exists x x', is_mining e L D x /\ is_mining e L' D x' /\ loses ts (wp_ci w) a x x'.
Proof.
  intros HL Hts Ha H HP Hk HD Hne Hw.
  apply (withdraw_on_ledger e Henv now) in H as (P0 & k0 & D0 & w0 & m & m1 & w' & m' & A1 & A2 & A3 & A4 & _ & _ & _ & _ & _ & _ & _ & _ & _ & _ & _ & HDe & _); [|assumption..].
  assert (P0 = P) by (eapply at_fun; eassumption). subst P0.
  assert (k0 = k) by (eapply at_fun; eassumption). subst k0.
  assert (D0 = D) by (eapply at_fun; eassumption). subst D0.
  assert (w0 = w) by (eapply pool_fun; eassumption). subst w0.
  destruct HDe as [E|(_ & x & x' & X1 & X2 & X3 & X4)]; [contradiction|].
  exists x, x'. split; [assumption|]. split; [assumption|]. intros y Hy.
  apply removal_loss; [eapply reached_hist; eassumption|eapply reached_asc; eassumption|unfold is_u64 in Ha; lia|assumption|assumption].
Qed.

Lemma extend_loss now ts ms op np st b a o d L L' r P w k D :
  reached e now L -> now <= ts -> is_u64 b -> is_u64 a -> exec e ts ms (ExtendStake op np st b a o d) L = Ok (L', r) ->
  account_at ms 0 P -> account_at ms 1 k -> account_at ms 3 D -> D <> k -> is_pool e L P w ->
  exists x x', is_mining e L D x /\ is_mining e L' D x' /\ loses ts (wp_ci w) b x x'.
Proof.
  intros HL Hts Hb Ha H HP Hk HD Hne Hw.
  apply (extend_on_ledger e Henv now) in H; [|assumption..]. cbv zeta in H.
  destruct H as (P0 & k0 & D0 & w0 & m & m1 & t & w' & m' & A1 & A2 & A3 & A4 & _ & _ & _ & _ & _ & _ & _ & _ & _ & _ & _ & _ & _ & _ & HDe).
  assert (P0 = P) by (eapply at_fun; eassumption). subst P0.
  assert (k0 = k) by (eapply at_fun; eassumption). subst k0.
  assert (D0 = D) by (eapply at_fun; eassumption). subst D0.
  assert (w0 = w) by (eapply pool_fun; eassumption). subst w0.
  destruct HDe as [E|(_ & x & x' & X1 & X2 & X3 & z & X4 & ->)]; [contradiction|].
  exists x. eexists. split; [exact X1|]. split; [exact X2|]. intros y Hy.
  change (m_unclaimed (wm (with_delegated z (m_sfo (wm x) + a)))) with (m_unclaimed (wm z)).
  apply removal_loss; [eapply reached_hist; eassumption|eapply reached_asc; eassumption|unfold is_u64 in Hb; lia|assumption|assumption].
Qed.

Lemma change_loss now ts ms a nd L L' r P w k O :
  reached e now L -> now <= ts -> is_u64 a -> exec e ts ms (ChangeDelegate a nd) L = Ok (L', r) ->
  account_at ms 0 P -> account_at ms 1 k -> account_at ms 4 O -> O <> k -> is_pool e L P w ->
  exists x x', is_mining e L O x /\ is_mining e L' O x' /\ loses ts (wp_ci w) a x x'.
Proof.
  intros HL Hts Ha H HP Hk HO Hne Hw.
  apply (change_on_ledger e Henv now) in H as (P0 & k0 & O0 & N & w0 & m & w' & m' & A1 & A2 & A3 & _ & _ & A4 & _ & _ & _ & _ & _ & _ & _ & HDe & _); [|assumption..].
  assert (P0 = P) by (eapply at_fun; eassumption). subst P0.
  assert (k0 = k) by (eapply at_fun; eassumption). subst k0.
  assert (O0 = O) by (eapply at_fun; eassumption). subst O0.
  assert (w0 = w) by (eapply pool_fun; eassumption). subst w0.
  destruct HDe as [E|(_ & x & x' & X1 & X2 & X3 & X4)]; [contradiction|].
  exists x, x'. split; [assumption|]. split; [assumption|]. intros y Hy.
  apply removal_loss; [eapply reached_hist; eassumption|eapply reached_asc; eassumption|unfold is_u64 in Ha; lia|assumption|assumption].
Qed.

(** the other way round: added delegated-in stake earns retroactively (finding of C21) *)
Lemma addition_gain ts ci x x' y a :
  growing 0 ci -> ascending (wm_diffs x) -> 0 <= a ->
  refreshed ts ci (with_delegated x (m_sfo (wm x) + a)) x' -> refreshed ts ci x y ->
  0 <= m_unclaimed (wm x') - m_unclaimed (wm y) /\
  -(10000000000000000 * segments ts x) <=
    10000000000000000 * (m_unclaimed (wm x') - m_unclaimed (wm y)) - (visible ts ci - m_index (wm x)) * a
    <= 10000000000000000 * segments ts x.
Proof.
  intros Hg Has Ha R Ry.
  apply (removal_loss ts ci (with_delegated x (m_sfo (wm x) + a)) y x' a); try assumption.
  replace (with_delegated (with_delegated x (m_sfo (wm x) + a)) (m_sfo (wm (with_delegated x (m_sfo (wm x) + a))) - a)) with x; [assumption|].
  destruct x as [[] ?]. unfold with_delegated. cbn. f_equal. f_equal. lia.
Qed.

(** ** Refreshes and claims on the ledger *)
Lemma refresh_on_ledger now L P w k m ts m' :
  reached e now L -> is_pool e L P w -> is_mining e L k m ->
  refresh ts (wp_ci w) m = Ok m' -> refreshed ts (wp_ci w) m m'.
Proof.
  intros HL [Ho Hd] [Mo Md] H. destruct (reached_ok e Henv _ _ HL) as (O & _).
  apply refresh_refreshed; [|exact (mining_wf_min _ (ok_mining e now L k m O Mo Md))|assumption].
  exact (pool_wf_hist _ _ (ok_pool e now L P w O Ho Hd)).
Qed.

Lemma refresh_twice now L P w k m ts m' :
  reached e now L -> is_pool e L P w -> is_mining e L k m ->
  refresh ts (wp_ci w) m = Ok m' -> refresh ts (wp_ci w) m' = Ok m'.
Proof.
  intros HL [Ho Hd] [Mo Md] H. destruct (reached_ok e Henv _ _ HL) as (O & _).
  apply (refresh_idempotent ts (wp_ci w) m m'); [|exact (mining_wf_min _ (ok_mining e now L k m O Mo Md))|assumption].
  exact (pool_wf_hist _ _ (ok_pool e now L P w O Ho Hd)).
Qed.

Lemma refresh_expires now L P w k m ts m' :
  reached e now L -> is_pool e L P w -> is_mining e L k m ->
  refresh ts (wp_ci w) m = Ok m' ->
  wm_diffs m' = after (day_start ts) (wm_diffs m) /\
  m_share (wm m') = m_share (wm m) - total (upto (day_start ts) (wm_diffs m)) /\
  m_sfo (wm m') = m_sfo (wm m) /\ unlocked_stake m' = unlocked_stake m /\ same_mining m m'.
Proof.
  intros HL Hw Hm H. pose proof (refresh_on_ledger _ _ _ _ _ _ _ _ HL Hw Hm H) as R.
  pose proof (reached_asc _ _ _ _ HL Hm) as Ha.
  split; [exact (rf_diffs _ _ _ _ R)|]. split; [rewrite total_upto; exact (rf_share _ _ _ _ R)|].
  split; [exact (rf_sfo _ _ _ _ R)|]. split; [|exact (rf_same _ _ _ _ R)].
  unfold unlocked_stake. rewrite (rf_diffs _ _ _ _ R), (rf_share _ _ _ _ R), <- total_upto.
  rewrite (upto_after_split (day_start ts) (wm_diffs m) Ha) at 3. rewrite total_app. lia.
Qed.

(** refreshing now and again later, or only later *)
Lemma refresh_path now L P w k m t1 m1 evs now' L' w' t2 m2 m3 :
  reached e now L -> is_pool e L P w -> p_type (wp w) = TYPE_POOL -> 0 < lamports_of L P -> is_mining e L k m ->
  t1 <= now -> refresh t1 (wp_ci w) m = Ok m1 ->
  run e now L evs now' L' -> is_pool e L' P w' -> t1 <= t2 ->
  refreshed t2 (wp_ci w') m1 m2 -> refreshed t2 (wp_ci w') m m3 ->
  same_mining m3 m2 /\ m_share (wm m2) = m_share (wm m3) /\ m_sfo (wm m2) = m_sfo (wm m3) /\
  wm_diffs m2 = wm_diffs m3 /\ m_index (wm m2) = m_index (wm m3) /\
  m_unclaimed (wm m2) <= m_unclaimed (wm m3) <= m_unclaimed (wm m2) + 1.
Proof.
  intros HL Hw Ht Hl Hm Ht1 H R Hw' Ht2 R2 R3.
  pose proof (refresh_on_ledger _ _ _ _ _ _ _ _ HL Hw Hm H) as R1.
  destruct (pool_history e Henv _ _ _ _ _ _ _ HL R Hw Ht Hl) as (w0 & Hw0 & _ & (more & Hmore & Hd) & _).
  assert (w0 = w') by (eapply pool_fun; eassumption). subst w0. rewrite Hmore in *.
  apply (refreshed_path t1 t2 (wp_ci w) more m m1 m2 m3); try assumption; [|exact (reached_asc _ _ _ _ HL Hm)].
  intros d v Hin. apply Hd in Hin. rewrite <- !bod_day_start in *. pose proof (bod_mono t1 now Ht1). lia.
Qed.

(** [m'] is [m] with nothing left to claim *)
Definition paid_out (m m' : wmining) : Prop :=
  same_mining m m' /\ m_share (wm m') = m_share (wm m) /\ m_sfo (wm m') = m_sfo (wm m) /\
  m_index (wm m') = m_index (wm m) /\ wm_diffs m' = wm_diffs m /\ m_unclaimed (wm m') = 0.

Lemma claim_pays now ts ms L L' r P k vault dest :
  reached e now L -> now <= ts -> exec e ts ms Claim L = Ok (L', r) ->
  account_at ms 0 P -> account_at ms 2 vault -> account_at ms 3 k -> account_at ms 6 dest ->
  exists w m m1 m' t, is_pool e L P w /\ is_mining e L k m /\ refreshed ts (wp_ci w) m m1 /\
    is_mining e L' k m' /\ paid_out m1 m' /\ r = Some (m_unclaimed (wm m1)) /\
    data_of L dest = DToken t /\
    (0 < m_unclaimed (wm m1) -> vault <> dest -> exists v,
       data_of L vault = DToken v /\ t_mint v = t_mint t /\
       data_of L' vault = DToken (Token (t_mint v) (t_owner v) (t_amount v - m_unclaimed (wm m1))) /\
       data_of L' dest = DToken (Token (t_mint t) (t_owner t) (t_amount t + m_unclaimed (wm m1)))) /\
    (m_unclaimed (wm m1) = 0 \/ vault = dest -> forall q, q <> k -> data_of L' q = data_of L q) /\
    (forall q, q <> k -> q <> vault -> q <> dest -> acc L' q = acc L q).
Proof.
  intros HL Hts H HP Hv Hk Hd.
  apply (claim_on_ledger e Henv now) in H as (P0 & v0 & k0 & owner & d0 & w & m & m1 & t & A1 & A2 & A3 & A4 & A5 & A6 & A7 & A8 & A9 & A10 & A11 & A12 & A13 & A14 & A15 & A16 & A17 & A18 & A19 & A20 & A21 & A22); [|assumption|assumption].
  assert (P0 = P) by (eapply at_fun; eassumption). subst P.
  assert (k0 = k) by (eapply at_fun; eassumption). subst k.
  assert (v0 = vault) by (eapply at_fun; eassumption). subst vault.
  assert (d0 = dest) by (eapply at_fun; eassumption). subst dest.
  exists w, m, m1. eexists. exists t. split; [assumption|]. split; [assumption|]. split; [exact A15|]. split; [exact A17|].
  split; [repeat split|]. split; [assumption|]. split; [assumption|]. split; [|split; [|assumption]].
  - intros Hpos Hne. destruct (A19 Hpos) as (v & B1 & B2 & B3 & B4 & B5 & B6). exists v.
    do 2 (split; [assumption|]). apply B5. assumption.
  - intros Hc q Hq. destruct (Z.eq_dec (m_unclaimed (wm m1)) 0) as [E|E]; [unfold data_of; rewrite A20 by assumption; reflexivity|].
    destruct Hc as [Hc|Hc]; [contradiction|].
    assert (Hpos : 0 < m_unclaimed (wm m1)).
    { destruct (reached_ok e Henv _ _ HL) as (O & _). destruct A6 as [Po Pd], A7 as [Mo Md].
      pose proof (mining_wf_min _ (ok_mining e now L k0 m O Mo Md)) as Hmin.
      pose proof (refresh_ok ts (wp_ci w) m m1 (pool_wf_hist _ _ (ok_pool e now L P0 w O Po Pd)) Hmin A16) as R.
      cbv zeta in R. destruct R as (_ & _ & _ & _ & _ & _ & _ & _ & _ & _ & R & _). pose proof (mo_unclaimed _ Hmin). lia. }
    destruct (A19 Hpos) as (v & B1 & B2 & B3 & B4 & B5 & B6).
    destruct (Z.eq_dec q v0) as [->|Hn]; [rewrite B6 by assumption; congruence|].
    unfold data_of. rewrite A22 by congruence. reflexivity.
Qed.

Lemma claim_bound now ts ms L L' r P k vault dest owner mint :
  reached e now L -> now <= ts -> exec e ts ms Claim L = Ok (L', r) ->
  account_at ms 0 P -> account_at ms 1 mint -> account_at ms 2 vault -> account_at ms 3 k -> account_at ms 4 owner -> account_at ms 6 dest ->
  exists w m t, is_pool e L P w /\ is_mining e L k m /\ data_of L dest = DToken t /\
    t_owner t = m_owner (wm m) /\ owner = m_owner (wm m) /\ signed ms (m_owner (wm m)) /\ m_pool (wm m) = P /\
    cpa_vault e P mint (p_bump (wp w)) = Some vault /\
    (forall q x, q <> vault -> q <> dest -> data_of L q = DToken x -> data_of L' q = DToken x).
Proof.
  intros HL Hts H HP Hmi Hv Hk Hown Hd.
  apply (claim_on_ledger e Henv now) in H as (P0 & v0 & k0 & ow & d0 & w & m & m1 & t & A1 & A2 & A3 & A4 & A5 & A6 & A7 & A8 & (mi & A9 & A9') & A10 & A11 & A12 & A13 & A14 & A15 & A16 & A17 & A18 & A19 & A20 & A21 & A22); [|assumption|assumption].
  assert (P0 = P) by (eapply at_fun; eassumption). subst P.
  assert (k0 = k) by (eapply at_fun; eassumption). subst k.
  assert (v0 = vault) by (eapply at_fun; eassumption). subst vault.
  assert (d0 = dest) by (eapply at_fun; eassumption). subst dest.
  assert (mi = mint) by (eapply at_fun; eassumption). subst mint.
  assert (ow = owner) by (eapply at_fun; eassumption). subst owner.
  exists w, m, t. do 3 (split; [assumption|]). split; [congruence|]. split; [congruence|]. split; [congruence|].
  split; [assumption|]. split; [assumption|]. intros q x Hq1 Hq2 Hx.
  unfold data_of in *. rewrite A22; [assumption| |assumption|assumption]. intros ->. destruct A7 as [_ A7]. unfold data_of in A7. congruence.
Qed.

End env.
