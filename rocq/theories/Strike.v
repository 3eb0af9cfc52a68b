(** Proofs of C83: what a call for another pool costs or brings a mining. *)
From stdpp Require Import gmap.
From Verif Require Import Base OMap State Spec EffectSpec Ledger Program ResLemmas TreeLemmas AccrualLemmas RefreshLemmas WfLemmas LedgerLemmas LedgerSpec
  CodecLemmas History HistoryLemmas Changes AccessLemmas HistoryThms ReachThms EffectLemmas EffectMethods EffectThms EffectMore
  SuccessSpec SuccessThms LedgerCore Determined Commute CompleteSpec Complete PowerSpec Powers FreezeSpec Freeze CapSpec Cap
  CoreInv DustSpec DebtSpec Debt IncomeSpec Income.

Lemma accrual_flat j s t : forall prev, accrual_from j (fun _ => s) prev t = (Z.max (last_from prev t) j - Z.max prev j) * s.
Proof.
  induction t as [|[d i] r IH]; intros prev; cbn [accrual_from last_from]; [lia|]. rewrite IH. lia.
Qed.
Lemma before_none d t : dates (fun k => d <= k) t -> EffectSpec.before d t = [].
Proof.
  induction t as [|[k i] r IH]; intros H; [reflexivity|]. unfold EffectSpec.before in *. cbn [filter fst].
  rewrite (proj2 (Z.ltb_ge k d)) by exact (H k i (or_introl eq_refl)). apply IH. intros k' i' Hin. exact (H k' i' (or_intror Hin)).
Qed.
Lemma before_last d t : ascending t -> forall prev, last_from prev (EffectSpec.before d t) = visible_from prev d t.
Proof.
  induction t as [|[k i] r IH]; intros Ha prev; [reflexivity|]. cbn [visible_from].
  destruct (k <? d) eqn:E.
  - unfold EffectSpec.before in *. cbn [filter fst]. rewrite E. cbn [last_from]. apply IH. apply Ha.
  - rewrite before_none; [reflexivity|]. apply Z.ltb_ge in E. intros k' i' [H|H]; [injection H as <- <-; exact E|].
    destruct Ha as [Ha _]. specialize (Ha k' i' H). lia.
Qed.
Lemma before_growing d t : ascending t -> forall prev, growing prev t -> growing prev (EffectSpec.before d t).
Proof.
  induction t as [|[k i] r IH]; intros Ha prev Hg; [exact I|]. destruct (k <? d) eqn:E.
  - unfold EffectSpec.before in *. cbn [filter fst]. rewrite E. destruct Hg as [H1 H2]. split; [exact H1|]. apply IH; [apply Ha|exact H2].
  - rewrite before_none; [exact I|]. apply Z.ltb_ge in E. intros k' i' [H|H]; [injection H as <- <-; exact E|].
    destruct Ha as [Ha _]. specialize (Ha k' i' H). lia.
Qed.

Section refreshed.
Context (ci cq : sched) (ts a : Z) (Hh : hist_ok ci) (Hd : dates (fun d => d <= day_start ts) ci) (Hq : hist_ok cq).

(** the stake of the days on which the other history rose *)
Lemma struck_accrual m lo hi :
  0 <= m_index (wm m) <= visible ts cq ->
  (forall d i, In (d, i) cq -> d < ts -> m_index (wm m) < i -> lo <= eff m d - a <= hi) ->
  (visible ts cq - m_index (wm m)) * lo <= accrual (m_index (wm m)) (fun d => eff m d - a) (EffectSpec.before ts cq)
    <= (visible ts cq - m_index (wm m)) * hi.
Proof.
  intros Hi H. set (j := m_index (wm m)) in *.
  assert (E : forall s, accrual j (fun _ => s) (EffectSpec.before ts cq) = (visible ts cq - j) * s).
  { intros s. unfold accrual. rewrite accrual_flat, before_last by apply Hq. fold (visible ts cq). rewrite !Z.max_l by lia.
    rewrite (Z.max_r 0 j) by lia. reflexivity. }
  assert (G : growing 0 (EffectSpec.before ts cq)) by (apply before_growing; apply Hq).
  rewrite <- !E. unfold accrual.
  split; apply accrual_le; try exact G; intros d i Hin Hlt; apply filter_In in Hin as [Hin Hc]; cbn [fst] in Hc; apply Z.ltb_lt in Hc;
    apply (H d i Hin Hc Hlt).
Qed.

Lemma struck_owed m m' lo hi :
  0 <= m_index (wm m) ->
  refreshed ts cq (with_delegated m (m_sfo (wm m) + - a)) m' ->
  (forall d i, In (d, i) cq -> d < ts -> m_index (wm m) < i -> lo <= eff m d - a <= hi) ->
  let over := Z.max (last_from 0 ci) (visible ts cq) - visible ts cq in let was := 10000000000000000 * m_unclaimed (wm m) in
  was + (visible ts cq - m_index (wm m)) * lo + over * (eff m (day_start ts) - a) - most ts m <= owed ci m' /\
  owed ci m' <= was + (visible ts cq - m_index (wm m)) * hi + over * (eff m (day_start ts) - a).
Proof.
  intros Hi R H over was. pose proof (rf_index_le _ _ _ _ R) as Hv. cbn [with_delegated wm m_index] in Hv.
  destruct (book_strike ci cq ts a m m' (h_grow _ Hh) R) as (q & Hq0 & E).
  pose proof (struck_accrual m lo hi (conj Hi Hv) H) as B.
  assert (EO : accrual (visible ts cq) (fun d => eff m (Z.max d (day_start ts)) - a) ci = over * (eff m (day_start ts) - a)).
  { unfold over, accrual. rewrite (accrual_ext _ _ (fun _ => eff m (day_start ts) - a)); [|apply Hh|].
    - rewrite accrual_flat, (Z.max_r 0) by lia. reflexivity.
    - intros d i Hin _. rewrite Z.max_r by exact (Hd d i Hin). reflexivity. }
  unfold strike_adds in E. rewrite EO in E. unfold owed at 2 in E. unfold PRECISION in E. unfold was. lia.
Qed.
End refreshed.

Section env.
Context (e : env) (Henv : env_ok e).

(** a call for [Q] that names a mining of [P] as the old delegate *)
Lemma struck now ts ms a n L L' r P Q k w m wq :
  reached e now L -> now <= ts -> ix_in_range (ChangeDelegate a n) -> exec e ts ms (ChangeDelegate a n) L = Ok (L', r) ->
  account_at ms 0 Q -> account_at ms 4 k -> Q <> P -> is_pool e L Q wq -> open_in e P k L w m ->
  exists m', open_in e P k L' w m' /\ refreshed ts (wp_ci wq) (with_delegated m (m_sfo (wm m) + - a)) m'.
Proof.
  intros HR Hts Hi X HQ H4 NQ Hwq (Hw & Htw & Hm & Htm & HP).
  pose proof (exec_effect e Henv now ts ms _ L L' r HR Hts Hi X) as F.
  pose proof (only_allowed e Henv now ts ms _ L L' r HR Hts Hi X) as AL.
  pose proof (isolation_pool e Henv ts ms _ L L' r Q P w X HQ Hw (not_eq_sym NQ)) as SP.
  cbn [effect] in F.
  destruct F as (p & q & au & ow & od & nd & u & x & O & N & u' & x' & O' & N' & [rs Hms] & Hu & Hx & HO & HN & (R & _ & _ & _ & RO & RN) & -> & B).
  cbn [allowed] in AL. destruct AL as (p2 & q2 & au2 & ow2 & od2 & nd2 & u2 & x2 & O2 & N2 & [rs2 Hms2] & SA & _ & Hne & _ & _ & _).
  rewrite Hms in Hms2. cbn in Hms2. injection Hms2 as <- <- <- <- <- <- _.
  unfold account_at in HQ, H4. rewrite Hms in HQ, H4. cbn in HQ, H4. injection HQ as ->. injection H4 as ->.
  rewrite (pool_fun e _ _ _ _ Hu Hwq) in *.
  assert (Nq : q <> k).
  { intros ->. pose proof (sa_of _ _ _ _ _ _ _ _ _ SA) as E. rewrite (mining_fun e _ _ _ _ (sa_mining _ _ _ _ _ _ _ _ _ SA) Hm) in E. congruence. }
  specialize (B k). cbn [listed pool_now mining_now] in B. destruct (Z.eqb_spec Q k) as [->|_]; [destruct Hm as [_ H1], Hu as [_ H2]; congruence|].
  rewrite (proj2 (Z.eqb_neq _ _) Nq) in B. rewrite listed_app in B.
  destruct HO as [[-> _]|(_ & y & Hy & ->)]; [congruence|]. rewrite (mining_fun e _ _ _ _ Hy Hm) in RO.
  cbn [delegated] in RO. destruct O' as [y'|]; [|contradiction]. cbn [delegate_now listed mining_now] in B. rewrite Z.eqb_refl in B.
  exists y'. split; [|exact RO].
  pose proof (rf_same _ _ _ _ RO) as (E1 & _ & _ & _ & E5). cbn [with_delegated wm m_pool m_type] in E1, E5.
  split; [|split; [exact Htw|split; [|split; congruence]]].
  - destruct Hw as [H1 H2]. unfold is_pool, owner_of, data_of in *. rewrite SP. auto.
  - destruct Hm as [H1 H2]. unfold is_mining, owner_of, data_of in *. rewrite B. cbn. auto.
Qed.

Lemma strike_bounds now ts ms a n L L' r P Q k w m wq lo hi :
  reached e now L -> now <= ts -> ix_in_range (ChangeDelegate a n) -> exec e ts ms (ChangeDelegate a n) L = Ok (L', r) ->
  account_at ms 0 Q -> account_at ms 4 k -> Q <> P -> is_pool e L Q wq -> open_in e P k L w m ->
  (forall d i, In (d, i) (wp_ci wq) -> d < ts -> m_index (wm m) < i -> lo <= eff m d - a <= hi) ->
  exists m', open_in e P k L' w m' /\ m_sfo (wm m') = m_sfo (wm m) - a /\
    m_index (wm m) <= visible ts (wp_ci wq) /\ m_index (wm m') = visible ts (wp_ci wq) /\
    let over := Z.max (last_from 0 (wp_ci w)) (visible ts (wp_ci wq)) - visible ts (wp_ci wq) in let was := 10000000000000000 * m_unclaimed (wm m) in
    was + (visible ts (wp_ci wq) - m_index (wm m)) * lo + over * (eff m (day_start ts) - a) - most ts m <= owed (wp_ci w) m' /\
    owed (wp_ci w) m' <= was + (visible ts (wp_ci wq) - m_index (wm m)) * hi + over * (eff m (day_start ts) - a).
Proof.
  intros HR Hts Hi X HQ H4 NQ Hwq HO H.
  destruct (struck _ _ _ _ _ _ _ _ _ _ _ _ _ _ HR Hts Hi X HQ H4 NQ Hwq HO) as (m' & HO' & R).
  exists m'. split; [exact HO'|]. split; [rewrite (rf_sfo _ _ _ _ R); cbn; lia|].
  split; [exact (rf_index_le _ _ _ _ R)|]. split; [exact (rf_index _ _ _ _ R)|].
  destruct (reached_ok e Henv _ _ HR) as (HL & _ & Hn).
  destruct HO as ([Ho1 Hd1] & _ & [Ho2 Hd2] & _). destruct Hwq as [Ho3 Hd3].
  pose proof (ok_pool e _ _ _ _ HL Ho1 Hd1) as W. pose proof (ok_pool e _ _ _ _ HL Ho3 Hd3) as Wq.
  pose proof (mining_wf_min _ (ok_mining e _ _ _ _ HL Ho2 Hd2)) as Wm.
  apply (struck_owed (wp_ci w) (wp_ci wq) ts a); [eapply pool_wf_hist; exact W|eapply c_dates; eassumption|eapply pool_wf_hist; exact Wq|exact (mo_index _ Wm)|exact R|exact H].
Qed.

(** the stake of any day until today is between that of today and the largest *)
Lemma eff_between now ts L P k w m d : reached e now L -> open_in e P k L w m -> d <= day_start ts ->
  eff m (day_start ts) <= eff m d <= m_share (wm m) + m_sfo (wm m).
Proof.
  intros HR (_ & _ & [Ho Hdm] & _) Hle. destruct (reached_ok e Henv _ _ HR) as (HL & _).
  pose proof (mo_vals _ (mining_wf_min _ (ok_mining e _ _ _ _ HL Ho Hdm))) as Hv.
  pose proof (due_mono d (day_start ts) (wm_diffs m) Hv Hle). pose proof (due_bounds d (wm_diffs m) Hv). unfold eff. lia.
Qed.

Lemma strike_range now ts ms a n L L' r P Q k w m wq :
  reached e now L -> now <= ts -> ix_in_range (ChangeDelegate a n) -> exec e ts ms (ChangeDelegate a n) L = Ok (L', r) ->
  account_at ms 0 Q -> account_at ms 4 k -> Q <> P -> is_pool e L Q wq -> open_in e P k L w m ->
  exists m', open_in e P k L' w m' /\ m_sfo (wm m') = m_sfo (wm m) - a /\ m_index (wm m') = visible ts (wp_ci wq) /\
    let all := Z.max (last_from 0 (wp_ci w)) (visible ts (wp_ci wq)) - m_index (wm m) in let was := 10000000000000000 * m_unclaimed (wm m) in
    was + all * (eff m (day_start ts) - a) - most ts m <= owed (wp_ci w) m' /\
    owed (wp_ci w) m' <= was + all * (m_share (wm m) + m_sfo (wm m) - a).
Proof.
  intros HR Hts Hi X HQ H4 NQ Hwq HO.
  assert (Hb : forall d, d <= day_start ts -> eff m (day_start ts) - a <= eff m d - a <= m_share (wm m) + m_sfo (wm m) - a).
  { intros d Hle. pose proof (eff_between now ts L P k w m d HR HO Hle). lia. }
  destruct (reached_ok e Henv _ _ HR) as (HL & _ & Hn). destruct Hwq as [Ho3 Hd3].
  assert (Hdq : dates (fun d => d <= day_start ts) (wp_ci wq)) by (pose proof (ok_pool e _ _ _ _ HL Ho3 Hd3); eapply c_dates; eassumption).
  destruct (strike_bounds now ts ms a n L L' r P Q k w m wq (eff m (day_start ts) - a) (m_share (wm m) + m_sfo (wm m) - a)
    HR Hts Hi X HQ H4 NQ (conj Ho3 Hd3) HO) as (m' & HO' & E1 & Hv & E2 & B).
  { intros d i Hin _ _. apply Hb. exact (Hdq d i Hin). }
  exists m'. split; [exact HO'|]. split; [exact E1|]. split; [exact E2|]. cbv zeta in B |- *.
  pose proof (Hb (day_start ts) ltac:(lia)) as H0. destruct B as [B1 B2].
  set (V := visible ts (wp_ci wq)) in *. set (R := last_from 0 (wp_ci w)) in *. set (E := eff m (day_start ts) - a) in *.
  set (S0 := m_share (wm m) + m_sfo (wm m) - a) in *.
  assert ((Z.max R V - V) * E <= (Z.max R V - V) * S0) by (apply Z.mul_le_mono_nonneg_l; lia).
  split; [eapply Z.le_trans; [|exact B1]; lia|eapply Z.le_trans; [exact B2|]; lia].
Qed.

(** the other history rose on days with today's stake, and not above the pool's own: what expired
    bonuses have earned since the last refresh is lost *)
Lemma strike_loss now ts ms a n L L' r P Q k w m wq :
  reached e now L -> now <= ts -> ix_in_range (ChangeDelegate a n) -> exec e ts ms (ChangeDelegate a n) L = Ok (L', r) ->
  account_at ms 0 Q -> account_at ms 4 k -> Q <> P -> is_pool e L Q wq -> open_in e P k L w m ->
  (forall d i, In (d, i) (wp_ci wq) -> d < ts -> m_index (wm m) < i -> eff m d = eff m (day_start ts)) ->
  visible ts (wp_ci wq) <= last_from 0 (wp_ci w) ->
  exists m', open_in e P k L' w m' /\
    let loss := accrual (m_index (wm m)) (fun d => eff m d - eff m (day_start ts) + a) (wp_ci w) in
    owed (wp_ci w) m - loss - most ts m <= owed (wp_ci w) m' <= owed (wp_ci w) m - loss.
Proof.
  intros HR Hts Hi X HQ H4 NQ Hwq HO Hd Hle.
  destruct (strike_bounds now ts ms a n L L' r P Q k w m wq (eff m (day_start ts) - a) (eff m (day_start ts) - a)
    HR Hts Hi X HQ H4 NQ Hwq HO) as (m' & HO' & E1 & Hv & E2 & B).
  { intros d i Hin Ht Hlt. rewrite (Hd d i Hin Ht Hlt). lia. }
  exists m'. split; [exact HO'|]. cbv zeta in B |- *.
  destruct (reached_ok e Henv _ _ HR) as (HL & _ & Hn). destruct HO as (_ & _ & [Ho2 Hd2] & _).
  pose proof (mo_index _ (mining_wf_min _ (ok_mining e _ _ _ _ HL Ho2 Hd2))) as Hi0.
  rewrite Z.max_l in B by exact Hle.
  set (j := m_index (wm m)) in *. set (E := eff m (day_start ts)) in *.
  assert (EA : accrual j (eff m) (wp_ci w) = accrual j (fun d => eff m d - E + a) (wp_ci w) + (last_from 0 (wp_ci w) - j) * (E - a)).
  { rewrite (EffectCompare.accrual_add j (fun d => eff m d - E + a) (fun _ => E - a) (eff m)) by (intros; lia).
    f_equal. unfold accrual. rewrite accrual_flat, Z.max_l, Z.max_r by lia. reflexivity. }
  unfold owed at 1 4. fold j. unfold PRECISION. rewrite EA. lia.
Qed.

(** the other history rose on days before any expiry, and at least to the pool's own: expired
    bonuses earn on all days since the last refresh, and beyond what the pool distributed *)
Lemma strike_gain now ts ms a n L L' r P Q k w m wq :
  reached e now L -> now <= ts -> ix_in_range (ChangeDelegate a n) -> exec e ts ms (ChangeDelegate a n) L = Ok (L', r) ->
  account_at ms 0 Q -> account_at ms 4 k -> Q <> P -> is_pool e L Q wq -> open_in e P k L w m ->
  (forall d i, In (d, i) (wp_ci wq) -> d < ts -> m_index (wm m) < i -> due d (wm_diffs m) = 0) ->
  last_from 0 (wp_ci w) <= visible ts (wp_ci wq) -> m_index (wm m) <= last_from 0 (wp_ci w) ->
  exists m', open_in e P k L' w m' /\
    let gain := accrual (m_index (wm m)) (fun d => due d (wm_diffs m) - a) (wp_ci w)
                + (visible ts (wp_ci wq) - last_from 0 (wp_ci w)) * (m_share (wm m) + m_sfo (wm m) - a) in
    owed (wp_ci w) m + gain - most ts m <= owed (wp_ci w) m' <= owed (wp_ci w) m + gain.
Proof.
  intros HR Hts Hi X HQ H4 NQ Hwq HO Hd Hle Hj.
  set (S0 := m_share (wm m) + m_sfo (wm m)).
  destruct (strike_bounds now ts ms a n L L' r P Q k w m wq (S0 - a) (S0 - a)
    HR Hts Hi X HQ H4 NQ Hwq HO) as (m' & HO' & E1 & Hv & E2 & B).
  { intros d i Hin Ht Hlt. unfold eff, S0. rewrite (Hd d i Hin Ht Hlt). lia. }
  exists m'. split; [exact HO'|]. cbv zeta in B |- *.
  destruct (reached_ok e Henv _ _ HR) as (HL & _ & Hn). destruct HO as (_ & _ & [Ho2 Hd2] & _).
  pose proof (mo_index _ (mining_wf_min _ (ok_mining e _ _ _ _ HL Ho2 Hd2))) as Hi0.
  rewrite Z.max_r in B by exact Hle.
  set (j := m_index (wm m)) in *.
  assert (EA : accrual j (eff m) (wp_ci w) + accrual j (fun d => due d (wm_diffs m) - a) (wp_ci w) = (last_from 0 (wp_ci w) - j) * (S0 - a)).
  { rewrite <- (EffectCompare.accrual_add j (eff m) (fun d => due d (wm_diffs m) - a) (fun _ => S0 - a)) by (intros; unfold eff, S0; lia).
    unfold accrual. rewrite accrual_flat, Z.max_l, Z.max_r by lia. reflexivity. }
  unfold owed at 1 4. fold j. unfold PRECISION. lia.
Qed.
End env.
