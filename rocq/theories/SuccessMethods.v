(** When the instruction methods of State.v succeed, in terms of SuccessSpec.v. *)
From stdpp Require Import gmap.
From Verif Require Import Base OMap State Spec EffectSpec Ledger Program LedgerLemmas LedgerSpec HistoryThms SuccessSpec
  ResLemmas TreeLemmas AccrualLemmas RefreshLemmas FrameLemmas WfLemmas CoreSteps CoreLive EffectLemmas EffectMethods
  SuccessLemmas.

Lemma day_start_le ts : 0 <= ts -> 0 <= day_start ts <= ts.
Proof. intros. rewrite <- bod_day_start. split; [apply bod_nonneg; assumption|apply bod_bounds]. Qed.

Lemma expiry_later p ts : p <> LNone -> day_start ts < expiry p ts.
Proof. intros Hp. unfold expiry. destruct p; cbn [days_of]; try congruence; lia. Qed.

Lemma at_date_after b t k : ascending t -> b < k -> at_date k (after b t) = at_date k t.
Proof. intros. rewrite !at_date_oget, oget_after by assumption. reflexivity. Qed.

Lemma weight_pos p : p <> LNone -> 1 <= weight_of p <= 6.
Proof. destruct p; cbn; intros; try lia; congruence. Qed.

Lemma deposit_iff now ts w m a p d :
  pool_wf now w -> mining_wf m -> odlg_wf d -> is_u64 a ->
  succeeds (deposit ts w m a p (some_dlg d)) <-> can_deposit ts w m a p d.
Proof.
  intros Hp Hm Hd Ha. pose proof (pool_wf_hist _ _ Hp) as Hh. unfold can_deposit.
  destruct (lockup_eqb p LNone) eqn:Ep.
  { destruct p; try discriminate. split; [|intros [X _]; congruence]. intros (x & E). unfold deposit in E. inv.
    match goal with H : end_timestamp LNone _ = Ok _ |- _ => discriminate H end. }
  assert (Hl : p <> LNone) by (intros ->; discriminate Ep). pose proof (weight_pos p Hl) as Hw. unfold is_u64 in Ha.
  unfold deposit. rewrite weight_multiplier. change (multiplier LFlex) with 1.
  transitivity (can_refresh ts (wp_ci w) m /\ fits (a * weight_of p) /\ fits (p_total (wp w) + a * weight_of p) /\
    fits (share_at ts m + a * weight_of p) /\ (p <> LNone /\ fits (expiry p ts)) /\
    fits (at_date (expiry p ts) (wp_diffs w) + a * (weight_of p - 1)) /\
    fits (at_date (expiry p ts) (wm_diffs m) + a * (weight_of p - 1)) /\
    can_join ts (wp_ci w) a (p_total (wp w) + a * weight_of p) d /\ True); [|tauto].
  apply refresh_bind; [assumption..|]. intros m1 C E R.
  assert (Hs : m_share (wm m1) = share_at ts m) by apply R. rewrite Hs.
  assert (Ht : at_date (expiry p ts) (wm_diffs m) = at_date (expiry p ts) (wm_diffs m1)).
  { rewrite (rf_diffs _ _ _ _ R). symmetry. apply at_date_after; [apply Hm|]. apply expiry_later; assumption. }
  rewrite Ht.
  apply mul_bind. intros Hf.
  assert (Hfa : safe_mul64 a 1 = Ok a) by (apply safe_mul64_ok; lia).
  rewrite (bind_known _ _ _ Hfa).
  assert (Hdf : safe_sub (a * weight_of p) a = Ok (a * (weight_of p - 1))) by (apply safe_sub_ok; nia).
  rewrite (bind_known _ _ _ Hdf).
  apply add_bind. intros Hf2. apply add_bind. intros Hf3. apply expiry_bind. intros _ Hf4.
  apply add_pool_bind. intros pd Epd. apply add_mining_bind; [nia|]. intros md Emd.
  apply join_bind; [exact Hh|exact Hd|lia|]. intros d1 _ _. apply ok_ex.
Qed.

Lemma withdraw_iff now ts w m a d :
  pool_wf now w -> mining_wf m -> odlg_wf d -> is_u64 a ->
  succeeds (withdraw ts w m a (some_dlg d)) <-> can_withdraw ts w m a d.
Proof.
  intros Hp Hm Hd Ha. pose proof (pool_wf_hist _ _ Hp) as Hh. unfold can_withdraw, is_u64 in *.
  pose proof (pool_wf_vals _ _ Hp) as Hv. pose proof (due_bounds (day_start ts) _ Hv) as Hb.
  unfold withdraw.
  transitivity (can_refresh ts (wp_ci w) m /\ a <= p_total (wp w) /\ a <= share_at ts m /\
    due (day_start ts) (wp_diffs w) <= p_total (wp w) - a /\
    can_leave ts (wp_ci w) a (p_total (wp w) - a - due (day_start ts) (wp_diffs w)) d /\ True).
  2:{ split; [intros (X1 & X2 & X3 & X4 & X5 & _)|intros (X1 & X2 & X3 & X4)];
      repeat (split; [assumption || lia|]); assumption || exact I. }
  apply refresh_bind; [assumption..|]. intros m1 C E R.
  assert (Hs : m_share (wm m1) = share_at ts m) by apply R. rewrite Hs.
  apply sub_bind. intros H1. apply sub_bind. intros H2. rewrite bod_day_start.
  apply consume_bind; [apply Hp|assumption|lia|]. intros H3.
  apply leave_bind; [assumption|assumption|lia|]. intros d1 _ _. apply ok_ex.
Qed.

Lemma has_date_after b t k : has_date k (after b t) <-> has_date k t /\ b < k.
Proof.
  unfold has_date. split.
  - intros (v & H). apply in_after in H as [H1 H2]. eauto.
  - intros [(v & H1) H2]. exists v. apply in_after. auto.
Qed.
Lemma holds_after b t k x : ascending t -> holds_at k x (after b t) <-> b < k /\ holds_at k x t.
Proof.
  intros Ha. unfold holds_at. rewrite has_date_after. split.
  - intros [[H1 H2] H3]. rewrite at_date_after in H3 by assumption. auto.
  - intros (H1 & H2 & H3). rewrite at_date_after by assumption. auto.
Qed.

Lemma slash_iff now ts w m n x dt :
  pool_wf now w -> mining_wf m -> is_u64 x ->
  succeeds (slash ts w m n x dt) <-> can_slash ts w m n x dt.
Proof.
  intros Hp Hm Hx. pose proof (withdraw_iff now ts w m x None Hp Hm I Hx) as W. cbn [some_dlg] in W.
  assert (Hpd : ascending (wp_diffs w)) by apply Hp. assert (Hmd : ascending (wm_diffs m)) by apply Hm.
  unfold slash, can_slash. rewrite bind_ex.
  assert (Y : forall w1 m1 d1 b y, withdraw ts w m x None = Ok (w1, m1, d1) ->
    succeeds (let? diff := safe_sub x n in let? mdiffs := modify_diffs (wm_diffs m1) b diff in
      let? pdiffs := modify_diffs (wp_diffs w1) b diff in Ok (y mdiffs pdiffs : wpool * wmining)) <->
    n <= x /\ (day_start ts < b /\ holds_at b (x - n) (wm_diffs m)) /\ (day_start ts < b /\ holds_at b (x - n) (wp_diffs w)) /\ True).
  { intros w1 m1 d1 b y E. apply (withdraw_effect now) in E as ((m0 & R & _ & _ & _ & Em) & _ & _ & Ew & _); [|assumption|assumption|exact I].
    rewrite Em, Ew, (rf_diffs _ _ _ _ R). apply sub_bind. intros Hn.
    rewrite <- !holds_after by assumption.
    apply modify_bind; [apply ascending_after; assumption|]. intros md _.
    apply modify_bind; [apply ascending_after; assumption|]. intros pd _. apply ok_ex. }
  split.
  - intros ([[w1 m1] d1] & E & X). split; [apply W; eauto|]. destruct dt as [dt|]; [|exact I]. cbv beta iota zeta in X.
    apply (Y w1 m1 d1 (bod dt) (fun md pd => (WPool (wp w1) pd (wp_ci w1), WMining (wm m1) md)) E) in X.
    rewrite bod_day_start in X. tauto.
  - intros [X Z]. apply W in X as ([[w1 m1] d1] & E). exists (w1, m1, d1). split; [exact E|]. destruct dt as [dt|]; [|eauto].
    cbv beta iota zeta. apply (Y w1 m1 d1 (bod dt) (fun md pd => (WPool (wp w1) pd (wp_ci w1), WMining (wm m1) md)) E).
    rewrite bod_day_start. tauto.
Qed.

Lemma change_iff now ts w m a old new :
  pool_wf now w -> mining_wf m -> odlg_wf old -> odlg_wf new -> is_u64 a ->
  succeeds (change_delegate ts w m (some_dlg new) (some_dlg old) a) <-> can_change ts w m a old new.
Proof.
  intros Hp Hm Ho Hn Ha. pose proof (pool_wf_hist _ _ Hp) as Hh. unfold can_change, change_delegate, is_u64 in *.
  transitivity (can_refresh ts (wp_ci w) m /\ can_leave ts (wp_ci w) a (p_total (wp w)) old /\
    can_join ts (wp_ci w) a (p_total (wp w) - for_delegate old a) new /\ True); [|tauto].
  apply refresh_bind; [assumption..|]. intros m1 _ _ _.
  apply leave_bind; [assumption|assumption|lia|]. intros d1 _ _.
  apply join_bind; [assumption|assumption|lia|]. intros d2 _ _. apply ok_ex.
Qed.

Lemma decrease_loop_ok_always l : forall n, 0 <= n -> values (fun v => 0 <= v) l -> succeeds (decrease_loop n l).
Proof.
  induction l as [|[k v] r IH]; intros n Hn Hv; cbn [decrease_loop]; [eauto|].
  assert (Hvr : values (fun v => 0 <= v) r) by (intros ? ? ?; eapply Hv; right; eauto).
  destruct (Z.leb_spec n v).
  - rewrite (proj2 (safe_sub_ok v n (v - n))) by auto. cbn [rbind]. eauto.
  - rewrite (proj2 (safe_sub_ok n v (n - v))) by (split; [lia|reflexivity]). cbn [rbind].
    destruct (IH (n - v) ltac:(lia) Hvr) as (x & ->). cbn [rbind]. eauto.
Qed.

Lemma decrease_iff n m : mining_wf m -> 0 <= n -> succeeds (decrease_rewards n m) <-> n <= m_share (wm m).
Proof.
  intros Hm Hn. pose proof (mw_share _ Hm) as Hs. unfold decrease_rewards, is_u64 in *.
  destruct (Z.eqb_spec n 0); [split; [lia|eauto]|].
  destruct (Z.ltb_spec (m_share (wm m)) n); [split; [intros (x & E); discriminate|lia]|].
  split; [lia|intros _]. rewrite (proj2 (safe_sub_ok _ _ (m_share (wm m) - n))) by auto. cbn [rbind].
  destruct (decrease_loop_ok_always (rev (wm_diffs m)) n Hn) as (x & ->); [|cbn [rbind]; eauto].
  intros k v Hin. apply in_rev in Hin. apply (mo_vals _ (mining_wf_min _ Hm)) in Hin. assumption.
Qed.

Lemma fill_iff now ts r x w :
  pool_wf now w -> is_u64 x ->
  succeeds (fill_pool ts r x w) <->
  day_start ts <= day_start x /\ p_ends_at (wp w) <= day_start x /\ fits (p_avail (wp w) + r).
Proof.
  intros Hp Hx. pose proof (pw_ends _ _ Hp) as He. unfold is_u64 in *. pose proof (day_start_le x ltac:(lia)).
  unfold fill_pool. cbv zeta. rewrite !bod_day_start.
  transitivity (negb (day_start x <? day_start ts) = true /\ p_ends_at (wp w) <= day_start x /\
    fits (p_ends_at (wp w) + (day_start x - p_ends_at (wp w))) /\ fits (p_avail (wp w) + r) /\ True).
  2:{ rewrite negb_true_iff, Z.ltb_ge. unfold U64 in *. split; [intros (X1 & X2 & X3 & X4 & _)|intros (X1 & X2 & X3)]; repeat split; lia. }
  apply ensure_bind. intros _. apply sub_bind. intros _. apply add_bind. intros _. apply add_bind. intros _. apply ok_ex.
Qed.

(** ** Extend *)
Lemma current_iff ts ci m :
  m_index (wm m) = visible ts ci -> dates (fun k => day_start ts < k) (wm_diffs m) -> mining_wf m ->
  can_refresh ts ci m <-> fits (m_share (wm m) + m_sfo (wm m)).
Proof.
  intros Hi Hd Hw. split; [intros []; assumption|]. intros Hf.
  pose proof (mw_share _ Hw). pose proof (mw_unclaimed _ Hw). unfold is_u64, U64 in *.
  constructor; [assumption|rewrite due_nil_below by assumption; lia|lia| |].
  - intros d v Hin Hle. apply Hd in Hin. lia.
  - unfold tokens_at. rewrite upto_none by assumption. cbn [earned]. rewrite Hi, Z.sub_diag.
    change (0 * _ / _) with 0. lia.
Qed.

Lemma extend_tail now ts w m2 base extra np cur d :
  pool_wf now w -> mining_wf m2 -> odlg_wf d -> 0 <= ts -> 0 <= base -> 0 <= extra -> fits (base + extra) ->
  m_index (wm m2) = visible ts (wp_ci w) -> dates (fun k => day_start ts < k) (wm_diffs m2) ->
  fits (m_share (wm m2) + m_sfo (wm m2)) -> 0 <= cur <= p_total (wp w) ->
  let left := p_total (wp w) - cur - for_delegate d base in
  let new := (base + extra) * weight_of np in
  let bonus := (base + extra) * (weight_of np - 1) in
  succeeds (let? (total', d1) := delegate_sub ts base (wp_ci w) (p_total (wp w) - cur) (some_dlg d) in
            deposit ts (set_wtotal w total') m2 (base + extra) np
              (match d1 with None => None | Some x => Some (Ok x) end)) <->
  can_leave ts (wp_ci w) base (p_total (wp w) - cur) d /\
  np <> LNone /\ fits new /\ fits (left + new) /\ fits (m_share (wm m2) + new) /\ fits (expiry np ts) /\
  fits (at_date (expiry np ts) (wp_diffs w) + bonus) /\
  fits (at_date (expiry np ts) (wm_diffs m2) + bonus) /\
  match d with
  | None => True
  | Some x => fits (m_sfo (wm x) + extra) /\ fits (left + new + base + extra) /\
              fits (share_at ts x + m_sfo (wm x) + extra)
  end.
Proof.
  intros Hp Hm Hd Hts Hb He Hf Hi Hdt Hs Hc left new bonus. pose proof (pool_wf_hist _ _ Hp) as Hh.
  pose proof (pw_total _ _ Hp) as Htot. unfold is_u64 in Htot.
  apply leave_bind; [assumption|assumption|assumption|]. intros d1 C E. change (match d1 with None => None | Some x => Some (Ok x) end) with (some_dlg d1).
  assert (Hleft : is_u64 left).
  { unfold left, is_u64. destruct d as [x|]; cbn [for_delegate can_leave] in *; lia. }
  fold left.
  assert (Hpw : pool_wf now (set_wtotal w left)) by (apply pool_stake_wf; [assumption|assumption|apply (pool_wf_sched now w Hp)]).
  assert (Hd1 : odlg_wf d1).
  { eapply (delegate_sub_wf now w ts base); [exact Hp| | | |exact E]; [destruct d; exact Hd|unfold is_u64; lia|assumption]. }
  rewrite (deposit_iff now ts _ m2 (base + extra) np d1 Hpw Hm Hd1) by (unfold is_u64, U64; lia).
  unfold can_deposit. change (wp_ci (set_wtotal w left)) with (wp_ci w). change (wp_diffs (set_wtotal w left)) with (wp_diffs w).
  change (p_total (wp (set_wtotal w left))) with left. fold new. fold bonus.
  assert (Hsh : share_at ts m2 = m_share (wm m2)) by (unfold share_at; rewrite due_nil_below by assumption; lia).
  rewrite Hsh, (current_iff ts (wp_ci w) m2 Hi Hdt Hm).
  assert (J : can_join ts (wp_ci w) (base + extra) (left + new) d1 <->
     match d with None => True | Some x => fits (m_sfo (wm x) + extra) /\ fits (left + new + base + extra) /\
              fits (share_at ts x + m_sfo (wm x) + extra) end).
  { destruct d as [x|]; cbn [some_dlg delegate_sub rbind for_delegate can_leave odlg_wf] in *.
    - destruct C as (C1 & C2 & C3). inv. cbn [can_join].
      match goal with H : refresh _ _ _ = Ok ?x1 |- _ => rename H into Er; set (y := x1) in * end.
      pose proof (sfo_wf x (m_sfo (wm x) - base) Hd ltac:(pose proof (mw_sfo _ Hd); unfold is_u64 in *; lia)) as Hxw.
      apply refresh_refreshed in Er; [|assumption|apply mining_wf_min; exact Hxw].
      assert (Hy : mining_wf y) by exact Hd1.
      assert (Hsf : m_sfo (wm y) = m_sfo (wm x) - base) by apply Er. rewrite Hsf.
      replace (m_sfo (wm x) - base + (base + extra)) with (m_sfo (wm x) + extra) by lia.
      assert (Hyd : dates (fun k => day_start ts < k) (wm_diffs y)).
      { intros k v Hin. rewrite (rf_diffs _ _ _ _ Er) in Hin. apply in_after in Hin. apply Hin. }
      assert (Hysh : m_share (wm y) = share_at ts x) by apply Er.
      split.
      + intros (J1 & J2 & J3). split; [assumption|]. split; [lia|]. apply cr_fits in J3. cbn in J3. lia.
      + intros (J1 & J2 & J3). split; [assumption|]. split; [lia|].
        apply current_iff; [exact (rf_index _ _ _ _ Er)|exact Hyd| |cbn; lia].
        apply sfo_wf; [assumption|]. pose proof (mw_sfo _ Hd). unfold is_u64, U64 in *. lia.
    - inv. cbn [can_join]. tauto. }
  rewrite J. tauto.
Qed.

Lemma extend_iff now ts w m op np start base extra d :
  pool_wf now w -> mining_wf m -> odlg_wf d -> 0 <= ts -> is_u64 start -> is_u64 base -> is_u64 extra ->
  succeeds (extend ts w m op np start base extra (some_dlg d)) <-> can_extend ts w m op np start base extra d.
Proof.
  intros Hp Hm Hd Hts Hst Hb He. pose proof (pool_wf_hist _ _ Hp) as Hh. unfold is_u64 in Hb, He, Hst.
  pose proof (pw_total _ _ Hp) as Htot. unfold is_u64 in Htot.
  set (C0 := can_refresh ts (wp_ci w) m). 
  assert (Hflat : can_extend ts w m op np start base extra d <->
    C0 /\ (op <> LNone /\ (op <> LFlex -> fits (expiry op start))) /\
    ((unexpired op start ts = true -> fits (base * weight_of op) /\
        holds_at (expiry op start) (base * (weight_of op - 1)) (wm_diffs m)) /\
     counted op start ts base <= share_at ts m /\ counted op start ts base <= p_total (wp w) /\
     fits (base + extra) /\
     can_leave ts (wp_ci w) base (p_total (wp w) - counted op start ts base) d /\
     np <> LNone /\ fits ((base + extra) * weight_of np) /\
     fits (p_total (wp w) - counted op start ts base - for_delegate d base + (base + extra) * weight_of np) /\
     fits (share_at ts m - counted op start ts base + (base + extra) * weight_of np) /\ fits (expiry np ts) /\
     fits (at_date (expiry np ts) (wp_diffs w) + (base + extra) * (weight_of np - 1)) /\
     fits (at_date (expiry np ts) (wm_diffs m)
        - (if unexpired op start ts && (expiry op start =? expiry np ts) then base * (weight_of op - 1) else 0)
        + (base + extra) * (weight_of np - 1)) /\
     match d with
     | None => True
     | Some x => fits (m_sfo (wm x) + extra) /\
        fits (p_total (wp w) - counted op start ts base - for_delegate d base + (base + extra) * weight_of np + base + extra) /\
        fits (share_at ts x + m_sfo (wm x) + extra)
     end)).
  { unfold can_extend. cbv zeta. fold C0. tauto. }
  rewrite Hflat. clear Hflat. unfold extend.
  apply refresh_bind; [assumption..|]. intros m1 C E R.
  pose proof (refresh_wf _ _ _ _ _ Hp Hm E) as Hm1.
  assert (Hs : m_share (wm m1) = share_at ts m) by apply R.
  pose proof (cr_fits _ _ _ C) as Cf.
  pose proof (due_bounds (day_start ts) _ (mo_vals _ (mining_wf_min _ Hm))) as Hdb.
  assert (Hsfo : m_sfo (wm m1) = m_sfo (wm m)) by apply R.
  assert (Hd1 : dates (fun k => day_start ts < k) (wm_diffs m1)).
  { intros k v Hin. rewrite (rf_diffs _ _ _ _ R) in Hin. apply in_after in Hin. apply Hin. }
  transitivity ((op <> LNone /\ (op <> LFlex -> fits (expiry op start))) /\
    succeeds (let? flex := safe_mul64 base (multiplier LFlex) in
      let? (m2, total) :=
        (if unexpired op start ts then
           let? cur := safe_mul64 base (multiplier op) in
           let? diff := safe_sub cur flex in
           let? mdiffs := modify_diffs (wm_diffs m1) (expiry op start) diff in
           let? share := safe_sub (m_share (wm m1)) cur in
           let? total := safe_sub (p_total (wp w)) cur in
           Ok (WMining (set_share (wm m1) share) mdiffs, total)
         else
           let? share := safe_sub (m_share (wm m1)) flex in
           let? total := safe_sub (p_total (wp w)) flex in
           Ok (WMining (set_share (wm m1) share) (wm_diffs m1), total)) in
      let? amount := safe_add64 base extra in
      let? (total', d1) := delegate_sub ts base (wp_ci w) total (some_dlg d) in
      deposit ts (set_wtotal w total') m2 amount np
        (match d1 with None => None | Some x => Some (Ok x) end))).
  { rewrite unexpired_alt. destruct (lockup_eqb op LFlex) eqn:El.
    - assert (op = LFlex) by (destruct op; try discriminate; reflexivity). subst op. cbn [rbind negb andb].
      rewrite (proj2 (Z.ltb_ge ts 0)) by assumption.
      split; [intros X; split; [split; congruence|exact X]|intros [_ X]; exact X].
    - assert (op <> LFlex) by (intros ->; discriminate El). cbn [negb andb].
      transitivity ((op <> LNone /\ fits (expiry op start)) /\
        succeeds (let? flex := safe_mul64 base (multiplier LFlex) in
      let? (m2, total) :=
        (if ts <? expiry op start then
           let? cur := safe_mul64 base (multiplier op) in
           let? diff := safe_sub cur flex in
           let? mdiffs := modify_diffs (wm_diffs m1) (expiry op start) diff in
           let? share := safe_sub (m_share (wm m1)) cur in
           let? total := safe_sub (p_total (wp w)) cur in
           Ok (WMining (set_share (wm m1) share) mdiffs, total)
         else
           let? share := safe_sub (m_share (wm m1)) flex in
           let? total := safe_sub (p_total (wp w)) flex in
           Ok (WMining (set_share (wm m1) share) (wm_diffs m1), total)) in
      let? amount := safe_add64 base extra in
      let? (total', d1) := delegate_sub ts base (wp_ci w) total (some_dlg d) in
      deposit ts (set_wtotal w total') m2 amount np
        (match d1 with None => None | Some x => Some (Ok x) end))); [|tauto].
      apply expiry_bind. intros _ _. reflexivity. }
  enough (X : op <> LNone -> succeeds (let? flex := safe_mul64 base (multiplier LFlex) in
      let? (m2, total) :=
        (if unexpired op start ts then
           let? cur := safe_mul64 base (multiplier op) in
           let? diff := safe_sub cur flex in
           let? mdiffs := modify_diffs (wm_diffs m1) (expiry op start) diff in
           let? share := safe_sub (m_share (wm m1)) cur in
           let? total := safe_sub (p_total (wp w)) cur in
           Ok (WMining (set_share (wm m1) share) mdiffs, total)
         else
           let? share := safe_sub (m_share (wm m1)) flex in
           let? total := safe_sub (p_total (wp w)) flex in
           Ok (WMining (set_share (wm m1) share) (wm_diffs m1), total)) in
      let? amount := safe_add64 base extra in
      let? (total', d1) := delegate_sub ts base (wp_ci w) total (some_dlg d) in
      deposit ts (set_wtotal w total') m2 amount np
        (match d1 with None => None | Some x => Some (Ok x) end)) <-> 
    ((unexpired op start ts = true -> fits (base * weight_of op) /\
        holds_at (expiry op start) (base * (weight_of op - 1)) (wm_diffs m)) /\
     counted op start ts base <= share_at ts m /\ counted op start ts base <= p_total (wp w) /\
     fits (base + extra) /\
     can_leave ts (wp_ci w) base (p_total (wp w) - counted op start ts base) d /\
     np <> LNone /\ fits ((base + extra) * weight_of np) /\
     fits (p_total (wp w) - counted op start ts base - for_delegate d base + (base + extra) * weight_of np) /\
     fits (share_at ts m - counted op start ts base + (base + extra) * weight_of np) /\ fits (expiry np ts) /\
     fits (at_date (expiry np ts) (wp_diffs w) + (base + extra) * (weight_of np - 1)) /\
     fits (at_date (expiry np ts) (wm_diffs m)
        - (if unexpired op start ts && (expiry op start =? expiry np ts) then base * (weight_of op - 1) else 0)
        + (base + extra) * (weight_of np - 1)) /\
     match d with
     | None => True
     | Some x => fits (m_sfo (wm x) + extra) /\
        fits (p_total (wp w) - counted op start ts base - for_delegate d base + (base + extra) * weight_of np + base + extra) /\
        fits (share_at ts x + m_sfo (wm x) + extra)
     end)) by tauto.
  intros Hop. pose proof (weight_pos op Hop) as Hw.
  assert (Hfl : safe_mul64 base (multiplier LFlex) = Ok base).
  { change (multiplier LFlex) with 1. apply safe_mul64_ok. unfold U64 in *. lia. }
  rewrite (bind_known _ _ _ Hfl). rewrite weight_multiplier.
  assert (Hdate : at_date (expiry np ts) (wm_diffs m) = at_date (expiry np ts) (wm_diffs m1) \/ np = LNone).
  { destruct (lockup_eqb np LNone) eqn:En; [right; destruct np; try discriminate; reflexivity|left].
    rewrite (rf_diffs _ _ _ _ R). symmetry. apply at_date_after; [apply Hm|]. apply expiry_later. intros ->. discriminate. }
  unfold counted. destruct (unexpired op start ts) eqn:Eu; cbn [andb].
  - assert (Hlate : day_start ts < expiry op start).
    { rewrite unexpired_alt in Eu. apply andb_true_iff in Eu as [_ Eu]. apply Z.ltb_lt in Eu. pose proof (day_start_le ts Hts). lia. }
    rewrite bind_assoc.
    transitivity (fits (base * weight_of op) /\
      (day_start ts < expiry op start /\ holds_at (expiry op start) (base * (weight_of op - 1)) (wm_diffs m)) /\
      base * weight_of op <= share_at ts m /\ base * weight_of op <= p_total (wp w) /\
      fits (base + extra) /\
     can_leave ts (wp_ci w) base (p_total (wp w) - base * weight_of op) d /\
     np <> LNone /\ fits ((base + extra) * weight_of np) /\
     fits (p_total (wp w) - base * weight_of op - for_delegate d base + (base + extra) * weight_of np) /\
     fits (share_at ts m - base * weight_of op + (base + extra) * weight_of np) /\ fits (expiry np ts) /\
     fits (at_date (expiry np ts) (wp_diffs w) + (base + extra) * (weight_of np - 1)) /\
     fits (at_date (expiry np ts) (wm_diffs m)
        - (if expiry op start =? expiry np ts then base * (weight_of op - 1) else 0)
        + (base + extra) * (weight_of np - 1)) /\
     match d with
     | None => True
     | Some x => fits (m_sfo (wm x) + extra) /\
        fits (p_total (wp w) - base * weight_of op - for_delegate d base + (base + extra) * weight_of np + base + extra) /\
        fits (share_at ts x + m_sfo (wm x) + extra)
     end); [|tauto].
    apply mul_bind. intros Hf.
    assert (Hdf : safe_sub (base * weight_of op) base = Ok (base * (weight_of op - 1))) by (apply safe_sub_ok; nia).
    rewrite bind_assoc, (bind_known _ _ _ Hdf), bind_assoc.
    rewrite <- holds_after by apply Hm. rewrite <- (rf_diffs _ _ _ _ R).
    apply modify_bind; [apply Hm1|]. intros md Emd. rewrite Hs, bind_assoc. apply sub_bind. intros Hc1.
    rewrite bind_assoc. apply sub_bind. intros Hc2. cbn [rbind].
    apply add_bind. intros Hfa.
    apply modify_lowered in Emd as L; [|apply Hm1].
    assert (Hmd : sched_wf 50 md) by (eapply modify_wf; [apply (mining_wf_sched m1 Hm1)| |exact Emd]; nia).
    assert (Hmd2 : dates (fun k => day_start ts < k) md).
    { destruct L as (_ & _ & L & _). intros k v Hin. apply (in_map fst) in Hin. rewrite L in Hin.
      apply in_map_iff in Hin as ([k2 v2] & E2 & Hin). cbn in E2. subst. eapply Hd1. eassumption. }
    pose proof (mw_share _ Hm1) as Hs1. unfold is_u64 in Hs1. rewrite Hs in Hs1.
    pose proof (rf_index _ _ _ _ R) as Hix. unfold share_at in *.
    rewrite (extend_tail now ts w (WMining (set_share (wm m1) (m_share (wm m) - due (day_start ts) (wm_diffs m) - base * weight_of op)) md) base extra np
      (base * weight_of op) d); try assumption; try lia; try (cbn; lia).
    + cbn [wm m_share set_share wm_diffs].
      destruct Hdate as [Hdate|Hdate]; [|tauto].
      enough (at_date (expiry np ts) md = at_date (expiry np ts) (wm_diffs m)
        - (if expiry op start =? expiry np ts then base * (weight_of op - 1) else 0)) as -> by tauto.
      rewrite Hdate. destruct L as (_ & _ & _ & L). rewrite L. f_equal. rewrite (Z.eqb_sym (expiry np ts)). reflexivity.
    + apply mining_stake_wf; [assumption|unfold is_u64; nia|assumption].
  - rewrite bind_assoc.
    transitivity (base <= share_at ts m /\ base <= p_total (wp w) /\
      fits (base + extra) /\
     can_leave ts (wp_ci w) base (p_total (wp w) - base) d /\
     np <> LNone /\ fits ((base + extra) * weight_of np) /\
     fits (p_total (wp w) - base - for_delegate d base + (base + extra) * weight_of np) /\
     fits (share_at ts m - base + (base + extra) * weight_of np) /\ fits (expiry np ts) /\
     fits (at_date (expiry np ts) (wp_diffs w) + (base + extra) * (weight_of np - 1)) /\
     fits (at_date (expiry np ts) (wm_diffs m) - 0 + (base + extra) * (weight_of np - 1)) /\
     match d with
     | None => True
     | Some x => fits (m_sfo (wm x) + extra) /\
        fits (p_total (wp w) - base - for_delegate d base + (base + extra) * weight_of np + base + extra) /\
        fits (share_at ts x + m_sfo (wm x) + extra)
     end); [|split; [intros Y; split; [discriminate|exact Y]|intros [_ Y]; exact Y]].
    rewrite Hs. apply sub_bind. intros Hc1. rewrite bind_assoc. apply sub_bind. intros Hc2. cbn [rbind].
    apply add_bind. intros Hfa. rewrite Z.sub_0_r.
    pose proof (mw_share _ Hm1) as Hs1. unfold is_u64 in Hs1. rewrite Hs in Hs1.
    pose proof (rf_index _ _ _ _ R) as Hix. unfold share_at in *.
    rewrite (extend_tail now ts w (WMining (set_share (wm m1) (m_share (wm m) - due (day_start ts) (wm_diffs m) - base)) (wm_diffs m1)) base extra np
      base d); try assumption; try lia; try (cbn; lia).
    + cbn [wm m_share set_share wm_diffs]. destruct Hdate as [Hdate|Hdate]; [rewrite Hdate|]; tauto.
    + apply mining_stake_wf; [assumption|unfold is_u64; lia|apply mining_wf_sched; assumption].
Qed.

Lemma distribute_iff now ts w :
  pool_wf now w ->
  succeeds (let? r := rewards_to_distribute ts (wp w) in distribute ts r w) <-> can_distribute ts w.
Proof.
  intros Hp. rewrite (bind_known _ _ _ (rewards_exact ts (wp w) (pw_avail _ _ Hp))).
  set (r := daily_part (p_avail (wp w)) (p_ends_at (wp w)) ts).
  pose proof (pw_avail _ _ Hp) as Ha. pose proof (pw_total _ _ Hp) as Ht. pose proof (pw_index _ _ Hp) as Hi. unfold is_u64, is_u128 in *.
  pose proof (daily_part_bounds (p_avail (wp w)) (p_ends_at (wp w)) ts ltac:(lia)) as Hr. fold r in Hr.
  unfold distribute, can_distribute. cbv zeta. rewrite bod_day_start. fold r.
  set (z := p_total (wp w) - due (day_start ts) (wp_diffs w)).
  transitivity (negb (p_total (wp w) =? 0) = true /\ due (day_start ts) (wp_diffs w) <= p_total (wp w) /\
    (has_date (day_start ts) (wp_ci w) \/ 0 < z /\
     p_index (wp w) + 10000000000000000 * r / z < 340282366920938463463374607431768211456)).
  2:{ rewrite negb_true_iff, Z.eqb_neq. unfold z. split; intros (X1 & X2 & X3); (split; [lia|]; split; [lia|exact X3]). }
  apply ensure_bind. intros _. apply consume_bind; [apply Hp|apply (pool_wf_vals now); assumption|lia|]. intros Hd.
  rewrite has_date_oget by apply Hp.
  destruct (ohas (day_start ts) (wp_ci w)) eqn:Eh.
  - apply ohas_true in Eh as (v & Ev). rewrite Ev. split; [intros _; left; discriminate|eauto].
  - apply ohas_false in Eh as Ev. rewrite Ev. unfold pool_update_index. cbn [p_total set_total p_index p_avail].
    fold z. assert (0 <= z) by (unfold z; lia).
    split.
    + intros (x & X). inv. right. unfold U128, PRECISION in *. split; [lia|assumption].
    + intros [X|[X1 X2]]; [congruence|].
      rewrite (proj2 (safe_mul128_ok _ _ (PRECISION * r))) by (unfold U128, PRECISION, U64 in *; split; [lia|reflexivity]). cbn [rbind].
      rewrite (proj2 (safe_div_ok _ _ (PRECISION * r / z))) by (split; [lia|reflexivity]). cbn [rbind].
      rewrite (proj2 (safe_add128_ok _ _ (p_index (wp w) + PRECISION * r / z))) by (unfold U128, PRECISION in *; split; [lia|reflexivity]). cbn [rbind].
      rewrite (proj2 (safe_sub_ok _ _ (p_avail (wp w) - r))) by (split; [lia|reflexivity]). cbn [rbind]. eauto.
Qed.
