(** Liveness of a disciplined pool: which events cannot fail. *)
From stdpp Require Import gmap.
From Verif Require Import Base OMap State Spec ResLemmas TreeLemmas AccrualLemmas
  RefreshLemmas FrameLemmas MapSum Core CoreInv CoreSteps CoreThms.

(** ** Withdrawing with a delegate *)
Lemma dlg_sub_succeeds s w M v ts x m a :
  Inv s w M v ts -> M !! x = Some m -> 0 <= a <= m_sfo (wm m) ->
  exists r, delegate_sub ts a (wp_ci w) (p_total (wp w)) (Some (Ok m)) = Ok r.
Proof.
  intros HI Hx Ha. pose proof (i_min _ _ _ _ _ HI x m Hx) as Hm.
  set (m0 := WMining (set_sfo (wm m) (m_sfo (wm m) - a)) (wm_diffs m)).
  set (w0 := set_wtotal w (p_total (wp w) - a)).
  assert (Ht : a <= p_total (wp w)).
  { pose proof (inv_eff_le _ _ _ _ _ _ _ (bod ts) HI Hx (Z.le_refl _)) as He.
    unfold eff, pool_net in He.
    pose proof (due_bounds (bod ts) _ (i_pvals _ _ _ _ _ HI)).
    pose proof (due_bounds (bod ts) _ (mo_vals _ (mi_ok _ _ _ Hm))).
    pose proof (mi_diffs _ _ _ Hm). lia. }
  assert (H0 : Inv s w0 (<[x := m0]> M) v ts).
  { eapply (inv_stake s w); [exact HI|exact Hx|reflexivity|reflexivity|reflexivity| | | | |reflexivity|reflexivity| | |].
    - apply HI.
    - apply HI.
    - cbn. pose proof (i_total _ _ _ _ _ HI). lia.
    - destruct Hm as [[] ? ? ? ?]. constructor; cbn; try assumption; [constructor; cbn; try assumption; lia|lia].
    - intros d Hd. unfold eff, pool_net. cbn. lia.
    - intros _ d Hd. unfold eff, pool_net. cbn. lia.
    - apply accrual_le; [apply HI|]. intros. unfold eff. cbn. lia. }
  destruct (inv_refresh_succeeds _ _ _ _ _ _ _ H0 (lookup_insert _ _ _)) as [m' Hr].
  cbn [delegate_sub rbind].
  rewrite (proj2 (safe_sub_ok _ _ (m_sfo (wm m) - a))) by lia. cbn [rbind].
  rewrite (proj2 (safe_sub_ok _ _ (p_total (wp w) - a))) by lia. cbn [rbind].
  change (wp_ci w0) with (wp_ci w) in Hr. fold m0. rewrite Hr. cbn [rbind]. eauto.
Qed.

Lemma withdraw_delegated_succeeds c ts k m a x md :
  reachable disciplined c -> c_now c <= ts -> c_min c !! k = Some m ->
  c_min c !! x = Some md -> x <> k ->
  0 <= a <= unlocked m -> a <= m_sfo (wm md) ->
  exists c', core_step ts (OWithdraw k a (Some x)) c = Ok c'.
Proof.
  intros H Ht Hk Hx Hne Ha Hs.
  destruct (withdraw_succeeds c ts k m a H Ht Hk Ha) as [c1 H1].
  apply reachable_inv in H. unfold cinv in H.
  apply (inv_time _ _ _ _ _ ts) in H; [|assumption].
  cbn [core_step] in H1 |- *. unfold get_min in H1 |- *. rewrite Hk in H1 |- *.
  cbn [rbind get_dlg] in H1 |- *. apply Z.eqb_neq in Hne. rewrite Hne. unfold get_min. rewrite Hx.
  cbn [rbind]. apply Z.eqb_neq in Hne.
  destruct (withdraw ts (c_pool c) m a None) as [[[w1 m1] d1]|] eqn:Hw; [|discriminate].
  assert (HI1 : Inv False w1 (<[k := m1]> (c_min c)) (c_vault c) ts).
  { exact (inv_withdraw False _ _ _ _ _ _ _ None None _ _ _ H Hk eq_refl (proj1 Ha) (proj2 Ha) Hw). }
  assert (Hx1 : <[k := m1]> (c_min c) !! x = Some md) by (rewrite lookup_insert_ne by auto; exact Hx).
  destruct (dlg_sub_succeeds _ _ _ _ _ _ _ _ HI1 Hx1 (conj (proj1 Ha) Hs)) as [[t2 d2] Hr].
  clear H1 HI1. unfold withdraw in Hw |- *.
  destruct (refresh ts (wp_ci (c_pool c)) m) as [m2|]; cbn [rbind] in *; [|discriminate].
  destruct (safe_sub (p_total (wp (c_pool c))) a) as [t1|]; cbn [rbind] in *; [|discriminate].
  destruct (safe_sub (m_share (wm m2)) a) as [s1|]; cbn [rbind] in *; [|discriminate].
  destruct (pool_consume (bod ts) t1 (wp_diffs (c_pool c))) as [[t3 ds]|]; cbn [rbind delegate_sub] in *; [|discriminate].
  injection Hw as <- <- <-. cbn [wp_ci wp p_total set_total] in Hr.
  change (p_total (set_total (wp (c_pool c)) t3)) with t3 in Hr. rewrite Hr. cbn [rbind]. eauto.
Qed.

(** ** Distributing *)
Lemma pool_consume_loop_nonneg b l t t' ds :
  pool_consume_loop b l t = Ok (t', ds) -> 0 <= t -> 0 <= t'.
Proof.
  revert t t' ds. induction l as [|[k x] r IH]; cbn [pool_consume_loop]; intros t t' ds H Ht.
  - inv. assumption.
  - destruct (b <? k); inv; [assumption|]. eapply IH; [eassumption|lia].
Qed.

(** the pool's index never outgrows the history: each recorded day adds less than
    10^16 * 2^64 *)
Definition index_bounded (c : core) : Prop :=
  Z.of_nat (length (wp_ci (c_pool c))) < HISTORY_CAP ->
  0 <= p_index (wp (c_pool c)) <= Z.of_nat (length (wp_ci (c_pool c))) * (PRECISION * U64).

Lemma same_index c c' :
  wp_ci (c_pool c') = wp_ci (c_pool c) -> p_index (wp (c_pool c')) = p_index (wp (c_pool c)) ->
  index_bounded c -> index_bounded c'.
Proof. unfold index_bounded. intros -> ->. auto. Qed.

Lemma distribute_index ts r w w' :
  0 <= p_total (wp w) -> ascending (wp_diffs w) -> 0 <= r ->
  distribute ts r w = Ok w' ->
  (wp_ci w' = wp_ci w /\ p_index (wp w') = p_index (wp w)) \/
  (oget (bod ts) (wp_ci w) = None /\ r <= p_avail (wp w) /\
   exists inc, 0 <= inc <= PRECISION * r /\ p_index (wp w') = p_index (wp w) + inc /\
     wp_ci w' = oinsert HISTORY_CAP (bod ts) (p_index (wp w')) (wp_ci w)).
Proof.
  intros Ht Ha Hr H. unfold distribute in H. cbv zeta in H. inv.
  destruct (ohas (bod ts) (wp_ci w)) eqn:Hh.
  { inv. left. split; reflexivity. }
  apply ohas_false in Hh. unfold pool_update_index in H. inv. right.
  cbn [p_total set_total p_index p_avail wp wp_ci set_index set_avail] in *.
  split; [assumption|]. split; [lia|]. eexists. split; [|split; reflexivity].
  assert (0 <= z).
  { unfold pool_consume in E0. inv. apply pool_consume_loop_nonneg in E5; lia. }
  split; [apply Z.div_pos; unfold PRECISION; lia|].
  apply Z.div_le_upper_bound; [lia|]. unfold PRECISION in *. nia.
Qed.

Lemma stake_only_index c c' :
  stake_only (c_pool c) (c_pool c') -> index_bounded c -> index_bounded c'.
Proof. intros (t & ds & E). apply same_index; rewrite E; reflexivity. Qed.

Lemma index_bounded_step ts o c c' :
  cinv False c -> c_now c <= ts -> op_wf o -> index_bounded c ->
  core_step ts o c = Ok c' -> index_bounded c'.
Proof.
  intros HI Ht Hwf HB H. unfold cinv in HI.
  apply (inv_time _ _ _ _ _ ts) in HI; [|assumption].
  destruct c as [w M v now]. cbn [c_pool c_min c_vault c_now] in *.
  destruct o; cbn [core_step c_pool c_min c_vault c_now] in H.
  - inv. apply deposit_frame in E1 as [E1 _]. eapply (stake_only_index (Core w M v now)); [eassumption|exact HB].
  - inv. apply withdraw_frame in E1 as [E1 _]. eapply (stake_only_index (Core w M v now)); [eassumption|exact HB].
  - inv. apply extend_frame in E1 as [E1 _]. eapply (stake_only_index (Core w M v now)); [eassumption|exact HB].
  - inv. apply change_frame in E3 as [E3 _]. eapply (stake_only_index (Core w M v now)); [eassumption|exact HB].
  - inv. apply slash_frame in E0 as [E0 _]. eapply (stake_only_index (Core w M v now)); [eassumption|exact HB].
  - inv. eapply (same_index (Core w M v now)); [..|exact HB]; reflexivity.
  - inv. eapply (same_index (Core w M v now)); [..|exact HB]; reflexivity.
  - inv. unfold fill_pool in E0. cbv zeta in E0.
    destruct from_vault; inv; (eapply (same_index (Core w M v now)); [..|exact HB]; reflexivity).
  - inv. eapply (same_index (Core w M v now)); [..|exact HB]; reflexivity.
  - inv. pose proof (rewards_nonneg _ _ _ (i_avail _ _ _ _ _ HI) E) as Hr.
    destruct (distribute_index _ _ _ _ (proj1 (i_total _ _ _ _ _ HI)) (i_pasc _ _ _ _ _ HI) Hr E0)
      as [[H1 H2]|(Hn & Hra & inc & Hinc & Hp & Hci)].
    + eapply (same_index (Core w M v now)); [..|exact HB]; assumption.
    + unfold index_bounded in *. cbn [c_pool] in *. rewrite Hp, Hci. unfold oinsert.
      rewrite (proj2 (ohas_false _ _) Hn).
      destruct (Z.ltb_spec (Z.of_nat (length (wp_ci w))) HISTORY_CAP); [|lia].
      intros _. specialize (HB H). rewrite length_oput_new by assumption.
      assert (a < U64).
      { pose proof (i_solv _ _ _ _ _ HI). pose proof (i_vault _ _ _ _ _ HI).
        assert (0 <= msum (owed (wp_ci w)) M).
        { apply msum_nonneg. intros k m Hk. pose proof (i_min _ _ _ _ _ HI k m Hk) as Hm.
          pose proof (owed_nonneg _ _ _ (i_hist _ _ _ _ _ HI) Hm).
          pose proof (mo_unclaimed _ (mi_ok _ _ _ Hm)). unfold PRECISION in *. lia. }
        unfold PRECISION in *. lia. }
      unfold PRECISION, U64 in *. lia.
  - destruct (M !! k); inv. eapply (same_index (Core w M v now)); [..|exact HB]; reflexivity.
  - inv. eapply (same_index (Core w M v now)); [..|exact HB]; reflexivity.
Qed.

Lemma reachable_index_bounded c : reachable disciplined c -> index_bounded c.
Proof.
  intros (w & v & t & Hw & Hv & Ht & H).
  assert (H0 : cinv False (fresh_core w v t)).
  { eapply inv_mono; [|apply fresh_inv]; try assumption; try lia; contradiction. }
  assert (HB : index_bounded (fresh_core w v t)).
  { destruct Hw as (b & d1 & d2 & d3 & mi & ->). unfold index_bounded. cbn. lia. }
  revert H0 HB H. generalize (fresh_core w v t) as c0. intros c0 H0 HB.
  induction 1 as [|c0 c1 c2 ts o H IH Hn Hts Hwf HP Hs]; [assumption|].
  eapply (index_bounded_step ts o c1); try eassumption.
  - eapply history_inv; [exact H0|exact H].
  - apply IH; assumption.
Qed.

Lemma rewards_to_distribute_succeeds ts p :
  0 <= p_avail p < U64 -> exists r, rewards_to_distribute ts p = Ok r /\ 0 <= r <= p_avail p.
Proof.
  intros Ha. unfold rewards_to_distribute. cbv zeta.
  set (n := saturating_sub (p_ends_at p) ts / DAY).
  assert (0 <= n).
  { apply Z.div_pos; [|reflexivity]. unfold saturating_sub. destruct (_ <=? _) eqn:X; lia. }
  destruct (Z.eqb_spec n 0); [exists (p_avail p); split; [reflexivity|lia]|].
  rewrite (proj2 (safe_mul128_ok _ _ (p_avail p * PRECISION))); [|split; [unfold U64, U128, PRECISION in *; lia|reflexivity]].
  cbn [rbind]. rewrite (proj2 (safe_div_ok _ _ (p_avail p * PRECISION / n))) by auto. cbn [rbind].
  rewrite (proj2 (safe_div_ok _ _ (p_avail p * PRECISION / n / PRECISION))) by (split; [discriminate|reflexivity]).
  cbn [rbind].
  assert (0 <= p_avail p * PRECISION / n / PRECISION <= p_avail p).
  { split.
    - apply Z.div_pos; [|reflexivity]. apply Z.div_pos; [unfold PRECISION; lia|lia].
    - apply Z.div_le_upper_bound; [reflexivity|]. apply Z.div_le_upper_bound; [lia|].
      unfold PRECISION. nia. }
  exists (p_avail p * PRECISION / n / PRECISION). rewrite (proj2 (try_u64_ok _ _)) by (split; [lia|reflexivity]).
  split; [reflexivity|assumption].
Qed.

Lemma distribute_succeeds c ts :
  reachable disciplined c -> c_now c <= ts ->
  Z.of_nat (length (wp_ci (c_pool c))) < 1095 ->
  due (day_start ts) (wp_diffs (c_pool c)) < p_total (wp (c_pool c)) ->
  exists c', core_step ts ODistribute c = Ok c'.
Proof.
  intros H Ht Hlen Hnet. pose proof (reachable_index_bounded c H Hlen) as HB.
  apply reachable_inv in H. unfold cinv in H.
  apply (inv_time _ _ _ _ _ ts) in H; [|assumption].
  destruct c as [w M v now]. cbn [c_pool c_min c_vault c_now] in *.
  rewrite <- bod_day_start in Hnet.
  pose proof (i_avail _ _ _ _ _ H) as Hav.
  assert (p_avail (wp w) < U64).
  { pose proof (i_solv _ _ _ _ _ H). pose proof (i_vault _ _ _ _ _ H).
    assert (0 <= msum (owed (wp_ci w)) M).
    { apply msum_nonneg. intros k m Hk. pose proof (i_min _ _ _ _ _ H k m Hk) as Hm.
      pose proof (owed_nonneg _ _ _ (i_hist _ _ _ _ _ H) Hm).
      pose proof (mo_unclaimed _ (mi_ok _ _ _ Hm)). unfold PRECISION in *. lia. }
    unfold PRECISION in *. lia. }
  cbn [core_step c_pool c_min c_vault].
  destruct (rewards_to_distribute_succeeds ts (wp w)) as (r & Hr & Hb); [lia|].
  rewrite Hr. cbn [rbind]. unfold distribute.
  pose proof (due_bounds (bod ts) _ (i_pvals _ _ _ _ _ H)) as Hdb.
  replace (p_total (wp w) =? 0) with false by lia. cbn [negb ensure rbind].
  rewrite pool_consume_succeeds; [|apply H|apply H|lia]. cbn [rbind]. cbv zeta.
  destruct (ohas _ _); [eauto|].
  unfold pool_update_index. cbn [p_total set_total p_index p_avail].
  set (z := p_total (wp w) - due (bod ts) (wp_diffs w)).
  rewrite (proj2 (safe_mul128_ok _ _ (PRECISION * r))); [|split; [unfold U64, U128, PRECISION in *; lia|reflexivity]].
  cbn [rbind]. rewrite (proj2 (safe_div_ok _ _ (PRECISION * r / z))) by (split; [unfold z; lia|reflexivity]).
  cbn [rbind].
  assert (PRECISION * r / z <= PRECISION * U64).
  { apply Z.div_le_upper_bound; [unfold z; lia|]. unfold z, PRECISION in *. nia. }
  rewrite (proj2 (safe_add128_ok _ _ (p_index (wp w) + PRECISION * r / z)))
    by (split; [unfold PRECISION, U64, U128 in *; lia|reflexivity]).
  cbn [rbind]. rewrite (proj2 (safe_sub_ok _ _ (p_avail (wp w) - r))) by lia. cbn [rbind]. eauto.
Qed.

(** ** Depositing *)
Lemma safe_add64_fits a b : a + b < U64 -> safe_add64 a b = Ok (a + b).
Proof. intros H. apply safe_add64_ok. auto. Qed.
Lemma owed_le_vault s w M v t k m :
  Inv s w M v t -> M !! k = Some m -> owed (wp_ci w) m <= PRECISION * v.
Proof.
  intros HI Hk. pose proof (i_solv _ _ _ _ _ HI). pose proof (i_avail _ _ _ _ _ HI).
  pose proof (msum_ge (owed (wp_ci w)) M k m) as Hge.
  specialize (Hge ltac:(intros k' m' Hk'; pose proof (i_min _ _ _ _ _ HI k' m' Hk') as Hm';
                        pose proof (owed_nonneg _ _ _ (i_hist _ _ _ _ _ HI) Hm');
                        pose proof (mo_unclaimed _ (mi_ok _ _ _ Hm')); unfold PRECISION in *; lia) Hk).
  unfold PRECISION in *. lia.
Qed.

Lemma dlg_add_succeeds s w M v ts x m a :
  Inv s w M v ts -> M !! x = Some m -> 0 <= a ->
  m_share (wm m) + m_sfo (wm m) + a < U64 ->
  visible ts (wp_ci w) = last_from 0 (wp_ci w) -> m_index (wm m) = visible ts (wp_ci w) ->
  forall t, t + a < U64 -> exists r, delegate_add ts a (wp_ci w) t (Some (Ok m)) = Ok r.
Proof.
  intros HI Hx Ha Hu Hvis Hidx t Ht. pose proof (i_min _ _ _ _ _ HI x m Hx) as Hm.
  set (m0 := WMining (set_sfo (wm m) (m_sfo (wm m) + a)) (wm_diffs m)).
  destruct (refresh_succeeds ts (wp_ci w) m0 v) as [m' Hr].
  - apply HI.
  - destruct Hm as [[] ? ? ? ?]. constructor; cbn; try assumption. lia.
  - cbn. lia.
  - apply Hm.
  - intros d y Hin _. apply (mi_dates _ _ _ Hm _ _ Hin).
  - apply Hm.
  - apply HI.
  - pose proof (owed_le_vault _ _ _ _ _ _ _ HI Hx) as Ho.
    unfold owed in *. cbn [wm m0 m_unclaimed m_index set_sfo] in *.
    rewrite accrual_settled in Ho |- *; try apply HI; try lia.
  - cbn [delegate_add rbind].
    pose proof (mo_share _ (mi_ok _ _ _ Hm)).
    rewrite (proj2 (safe_add64_ok _ _ (m_sfo (wm m) + a))) by lia. cbn [rbind].
    rewrite (proj2 (safe_add64_ok _ _ (t + a))) by lia. cbn [rbind].
    fold m0. rewrite Hr. cbn [rbind]. eauto.
Qed.

Lemma expiry_at p ts :
  p <> LNone -> 0 <= ts -> ts + 366 * 86400 < U64 -> end_timestamp p ts = Ok (expiry p ts).
Proof.
  intros Hp H0 Ht. unfold expiry. rewrite <- bod_day_start.
  assert (0 <= bod ts <= ts) by (unfold bod, DAY; pose proof (Z.mod_pos_bound ts 86400); pose proof (Z.mod_le ts 86400); lia).
  destruct p; [congruence| | | |]; cbn [end_timestamp days_of]; unfold plain_add64;
    (destruct (_ <? U64) eqn:X; [reflexivity|unfold DAY in *; lia]).
Qed.

Lemma weight_multiplier p : multiplier p = weight_of p.
Proof. destruct p; reflexivity. Qed.

Lemma deposit_succeeds c ts k m a p d :
  reachable disciplined c -> c_now c <= ts -> ts + 366 * 86400 < U64 ->
  disciplined ts (ODeposit k a p d) c ->
  c_min c !! k = Some m -> p <> LNone -> 0 <= a ->
  p_total (wp (c_pool c)) + a * weight_of p + (match d with Some _ => a | None => 0 end) < U64 ->
  (forall x, d = Some x -> x <> k /\ exists md, c_min c !! x = Some md /\
                           m_share (wm md) + m_sfo (wm md) + a < U64) ->
  exists c', core_step ts (ODeposit k a p d) c = Ok c'.
Proof.
  intros HR Ht Hts Hdis Hk Hp Ha Hfit Hd. apply reachable_inv in HR. unfold cinv in HR.
  apply (inv_time _ _ _ _ _ ts) in HR; [|assumption]. rename HR into HI.
  destruct c as [w M v now]. cbn [c_pool c_min c_vault c_now] in *.
  pose proof (Hdis FreshDelegate) as Hup. pose proof (Hdis NoMidnight) as Hmid.
  cbn [cond_ok] in Hup, Hmid. unfold up_to_date, no_midnight in *. cbn [c_pool c_min] in *.
  assert (Hvis : visible ts (wp_ci w) = last_from 0 (wp_ci w)) by (apply visible_now; [apply HI|assumption]).
  destruct (inv_refresh_succeeds _ _ _ _ _ _ _ HI Hk) as [m1 Hr].
  pose proof (inv_refresh _ _ _ _ _ _ _ _ HI Hk Hr) as HI1.
  pose proof (i_min _ _ _ _ _ HI1 k m1 (lookup_insert _ _ _)) as Hm1.
  pose proof (inv_eff_le _ _ _ _ _ _ _ (bod ts) HI1 (lookup_insert _ _ _) (Z.le_refl _)) as He.
  unfold eff, pool_net in He.
  pose proof (due_bounds (bod ts) _ (i_pvals _ _ _ _ _ HI)) as Hdb.
  pose proof (mo_sfo _ (mi_ok _ _ _ Hm1)). pose proof (mo_vals _ (mi_ok _ _ _ Hm1)) as Hvals.
  pose proof (refresh_ok _ _ _ _ (i_hist _ _ _ _ _ HI) (mi_ok _ _ _ (i_min _ _ _ _ _ HI k m Hk)) Hr) as R.
  cbv zeta in R. destruct R as (Rd & _).
  assert (Hdue0 : due (bod ts) (wm_diffs m1) = 0) by (rewrite Rd, due_after by lia; lia).
  assert (Hshare : m_share (wm m1) <= p_total (wp w)) by lia.
  pose proof (i_total _ _ _ _ _ HI) as Htot.
  assert (Hw : 1 <= weight_of p <= 6) by (destruct p; cbn; try lia; congruence).
  assert (Hadd : exists pd, add_pool_diff (wp_diffs w) (expiry p ts) (a * weight_of p - a) = Ok pd).
  { unfold add_pool_diff. cbv zeta.
    assert (Hv : match oget (expiry p ts) (wp_diffs w) with Some v => v | None => 0 end <= p_total (wp w)).
    { destruct (oget (expiry p ts) (wp_diffs w)) as [x|] eqn:Eo; [|pose proof (i_total _ _ _ _ _ HI); lia].
      assert (x <= due (expiry p ts) (wp_diffs w)).
      { apply oget_in in Eo. pose proof (i_pvals _ _ _ _ _ HI) as Hpv. revert Eo Hpv. clear.
        induction (wp_diffs w) as [|[k0 v0] r IH]; cbn [due]; [intros []|].
        intros [E|Hin] Hpv.
        - injection E as -> ->. rewrite Z.leb_refl.
          assert (Hpr : values (fun x => 0 <= x) r) by (intros ? ? ?; apply (Hpv k v); right; assumption).
          pose proof (due_bounds (expiry p ts) r Hpr). lia.
        - assert (Hpr : values (fun x => 0 <= x) r) by (intros ? ? ?; apply (Hpv k v); right; assumption).
          specialize (IH Hin Hpr). specialize (Hpv k0 v0 (or_introl eq_refl)). cbv beta in Hpv.
          destruct (k0 <=? _); lia. }
      assert (bod ts <= expiry p ts) by (unfold expiry; rewrite bod_day_start; destruct p; cbn; lia).
      pose proof (inv_eff_le _ _ _ _ _ _ _ (expiry p ts) HI Hk H1) as He'. unfold pool_net in He'.
      pose proof (eff_nonneg _ _ _ (expiry p ts) (i_min _ _ _ _ _ HI k m Hk)). lia. }
    rewrite safe_add64_fits by (destruct d; lia). cbn [rbind]. eauto. }
  destruct Hadd as [pd Hpd].
  assert (Hadm : exists md, add_mining_diff (wm_diffs m1) (expiry p ts) (a * weight_of p - a) = Ok md).
  { unfold add_mining_diff. destruct (oget (expiry p ts) (wm_diffs m1)) as [x|] eqn:Eo; [|eauto].
    pose proof (at_date_le_total _ _ _ Hvals Eo). pose proof (mi_diffs _ _ _ Hm1).
    rewrite safe_add64_fits by (destruct d; lia). cbn [rbind]. eauto. }
  destruct Hadm as [mdf Hmd].
  cbn [core_step c_pool c_min c_vault]. unfold get_min. rewrite Hk. cbn [rbind].
  assert (Hg : exists dl, get_dlg M k d = Ok dl /\
    forall t, t + (match d with Some _ => a | None => 0 end) < U64 ->
    exists r, delegate_add ts a (wp_ci w) t dl = Ok r).
  { destruct d as [x|]; [|exists None; split; [reflexivity|cbn; eauto]].
    destruct (Hd x eq_refl) as (Hne & md & Hx & Hfx).
    exists (Some (Ok md)). split.
    - cbn [get_dlg]. apply Z.eqb_neq in Hne. rewrite Hne. unfold get_min. rewrite Hx. reflexivity.
    - intros t Hf. exact (dlg_add_succeeds _ _ _ _ _ _ _ _ HI Hx Ha Hfx Hvis (Hup x md eq_refl Hx) t Hf). }
  destruct Hg as (dl & Hdl & Hadd). rewrite Hdl. cbn [rbind].
  unfold deposit. rewrite Hr. cbn [rbind]. rewrite weight_multiplier.
  rewrite (proj2 (safe_mul64_ok _ _ (a * weight_of p))) by (split; [destruct d; nia|reflexivity]).
  cbn [rbind]. change (multiplier LFlex) with 1.
  rewrite (proj2 (safe_mul64_ok _ _ a)) by (split; [destruct d; nia|lia]). cbn [rbind].
  rewrite (proj2 (safe_sub_ok _ _ (a * weight_of p - a))) by (split; [nia|reflexivity]). cbn [rbind].
  rewrite (proj2 (safe_add64_ok _ _ (p_total (wp w) + a * weight_of p))) by (split; [destruct d; lia|reflexivity]).
  cbn [rbind].
  rewrite (proj2 (safe_add64_ok _ _ (m_share (wm m1) + a * weight_of p))) by (split; [destruct d; lia|reflexivity]).
  cbn [rbind]. rewrite expiry_at; [|assumption|pose proof (i_time _ _ _ _ _ HI); lia|assumption].
  cbn [rbind]. rewrite Hpd. cbn [rbind]. rewrite Hmd. cbn [rbind].
  destruct (Hadd (p_total (wp w) + a * weight_of p)) as [[t' d'] Hda]; [lia|].
  rewrite Hda. cbn [rbind]. eauto.
Qed.
