(** Proofs of C82: one mining's account. *)
From stdpp Require Import gmap.
From Verif Require Import Base OMap State Spec EffectSpec Ledger Program ResLemmas TreeLemmas AccrualLemmas RefreshLemmas WfLemmas LedgerLemmas LedgerSpec
  CodecLemmas History HistoryLemmas Changes AccessLemmas HistoryThms ReachThms EffectLemmas EffectMethods EffectThms EffectMore
  SuccessSpec SuccessThms LedgerCore Determined Commute CompleteSpec Complete PowerSpec Powers FreezeSpec Freeze CapSpec Cap
  CoreInv DustSpec DebtSpec Debt IncomeSpec LedgerView DebtLedger.

(** [x] tokens were paid, [y] was added and at most [z] rounded away *)
Definition booked (ci : sched) (m : wmining) (x y z : Z) (ci' : sched) (m' : wmining) : Prop :=
  exists q, 0 <= q <= z /\ 10000000000000000 * x + owed ci' m' = owed ci m + y - q.

Definition most (ts : Z) (m : wmining) : Z := (10000000000000000 - 1) * (1 + count_due (day_start ts) (wm_diffs m)).
Lemma most_nonneg ts m : 0 <= most ts m.
Proof. unfold most, count_due. lia. Qed.

Lemma booked_same ci m x y z : x = 0 -> y = 0 -> 0 <= z -> booked ci m x y z ci m.
Proof. intros -> -> Hz. exists 0. lia. Qed.
Lemma booked_trans ci m x y z ci1 m1 x1 y1 z1 ci2 m2 :
  booked ci m x y z ci1 m1 -> booked ci1 m1 x1 y1 z1 ci2 m2 -> booked ci m (x + x1) (y + y1) (z + z1) ci2 m2.
Proof. intros (q & Hq & E) (q1 & Hq1 & E1). exists (q + q1). lia. Qed.

Section one.
Context (ci : sched) (ts : Z) (Hh : hist_ok ci) (Hd : dates (fun k => k <= day_start ts) ci).

(** a mining whose stake changes after a refresh *)
Lemma book_own m m1 m' x y :
  0 <= m_index (wm m) -> refreshed ts ci m m1 -> only_stake m1 m' ->
  m_share (wm m') = m_share (wm m1) + x -> dates (fun d => day_start ts < d) (wm_diffs m') ->
  y = x * late ts ci -> booked ci m 0 y (most ts m) ci m'.
Proof.
  intros Hi R (_ & Oi & Ou & Os) Es Hdt ->.
  destruct (refreshed_owed ci ts Hh Hd _ _ Hi R) as (q & Hq & Eq & Ei & Ee & Hd1).
  exists q. split; [exact Hq|]. rewrite Ei in Oi. rewrite (owed_now ci ts Hh Hd m' Oi).
  rewrite (owed_now ci ts Hh Hd m1 Ei) in Eq.
  assert (E : eff m' (day_start ts) = eff m1 (day_start ts) + x).
  { unfold eff. rewrite Es, Os, !due_nil_below by assumption. lia. }
  rewrite E, Ou. lia.
Qed.

Lemma book_delegate a m m' y :
  0 <= m_index (wm m) -> refreshed ts ci (with_delegated m (m_sfo (wm m) + a)) m' ->
  y = a * (seen ts ci - m_index (wm m)) -> booked ci m 0 y (most ts m) ci m'.
Proof.
  intros Hi R ->. pose proof (rf_index_le _ _ _ _ R) as Hle. cbn [with_delegated wm m_index] in Hle.
  pose proof (visible_seen ci ts Hh Hd) as Hv.
  destruct (refreshed_owed ci ts Hh Hd (with_delegated m (m_sfo (wm m) + a)) m' Hi R) as (q & Hq & Eq & _).
  exists q. split; [exact Hq|]. rewrite Eq, (owed_delegated ci ts Hh Hd) by lia. lia.
Qed.

Lemma book_extended b a m m' y :
  0 <= m_index (wm m) -> redelegated ts ci b a (Some m) (Some m') ->
  y = (b + a) * late ts ci - b * (seen ts ci - m_index (wm m)) -> booked ci m 0 y (most ts m) ci m'.
Proof.
  intros Hi (z & R & ->) ->. pose proof (rf_index_le _ _ _ _ R) as Hle. cbn [with_delegated wm m_index] in Hle.
  pose proof (visible_seen ci ts Hh Hd) as Hv.
  destruct (refreshed_owed ci ts Hh Hd (with_delegated m (m_sfo (wm m) - b)) z Hi R) as (q & Hq & Eq & Ei & _).
  exists q. split; [exact Hq|].
  pose proof (rf_sfo _ _ _ _ R) as Es. cbn [with_delegated wm m_sfo] in Es.
  replace (m_sfo (wm m) + a) with (m_sfo (wm z) + (b + a)) by lia.
  rewrite (owed_delegated ci ts Hh Hd z) by (rewrite Ei; exact Hv). rewrite Eq.
  change (m_sfo (wm m) - b) with (m_sfo (wm m) + - b). rewrite (owed_delegated ci ts Hh Hd m) by lia.
  rewrite Ei. unfold late. lia.
Qed.

Lemma book_claim m m1 :
  0 <= m_index (wm m) -> refreshed ts ci m m1 -> booked ci m (m_unclaimed (wm m1)) 0 (most ts m) ci (emptied m1).
Proof.
  intros Hi R. destruct (refreshed_owed ci ts Hh Hd _ _ Hi R) as (q & Hq & Eq & _).
  exists q. split; [exact Hq|]. unfold owed at 1. cbn [emptied wm m_unclaimed m_index].
  change (eff (emptied m1)) with (eff m1). rewrite Z.add_0_r, <- Eq. unfold owed, PRECISION. lia.
Qed.
End one.

(** refreshed with the history [cq] of another pool *)
Lemma book_strike ci cq ts a m m' : growing 0 ci ->
  refreshed ts cq (with_delegated m (m_sfo (wm m) + - a)) m' ->
  booked ci m 0 (strike_adds ts a cq ci m) (most ts m) ci m'.
Proof.
  intros G R. pose proof (rf_credit _ _ _ _ R) as C. cbn [with_delegated wm m_index m_unclaimed] in C.
  set (A := accrual (m_index (wm m)) (eff (with_delegated m (m_sfo (wm m) + - a))) (EffectSpec.before ts cq)) in *.
  assert (EA : A = accrual (m_index (wm m)) (fun d => eff m d - a) (EffectSpec.before ts cq)).
  { unfold A. rewrite (EffectCompare.accrual_add _ (fun d => eff m d - a) (fun _ => 0)).
    - assert (Z0 : forall t j prev, accrual_from j (fun _ => 0) prev t = 0).
      { induction t as [|[d v] r IH]; intros j prev; cbn [accrual_from]; [reflexivity|]. rewrite IH. lia. }
      unfold accrual at 2. rewrite Z0. lia.
    - intros d. unfold eff. cbn. lia. }
  assert (EB : accrual (m_index (wm m')) (eff m') ci =
    accrual (visible ts cq) (fun d => eff m (Z.max d (day_start ts)) - a) ci).
  { rewrite (rf_index _ _ _ _ R). apply accrual_ext; [exact G|]. intros d i _ _. cbv beta. unfold eff.
    rewrite (rf_share _ _ _ _ R), (rf_sfo _ _ _ _ R), (rf_diffs _ _ _ _ R). cbn [with_delegated wm m_share m_sfo wm_diffs].
    destruct (Z.le_gt_cases (day_start ts) d).
    - rewrite Z.max_l by lia. rewrite due_after by lia. lia.
    - rewrite Z.max_r by lia. rewrite (due_nil_below d (Spec.after _ _)); [lia|]. intros d' v' Hin.
      pose proof (Worth.dates_after _ _ d' v' Hin). cbv beta in *. lia. }
  exists (A - 10000000000000000 * (m_unclaimed (wm m') - m_unclaimed (wm m))). split.
  - unfold most. unfold segments in C. cbn [with_delegated wm_diffs] in C. exact C.
  - unfold strike_adds, owed, PRECISION. rewrite EB, <- EA. lia.
Qed.

Lemma book_decrease ci n m m' : dates (fun d => 0 <= d) (wm_diffs m) -> decreased m n m' ->
  booked ci m 0
    (accrual (m_index (wm m)) (fun d => Z.min n (total (wm_diffs m)) - Z.min n (total (Spec.after d (wm_diffs m))) - n) ci) 0 ci m'.
Proof.
  intros Hd ((_ & Oi & Ou & Os) & Es & Ek & T). exists 0. split; [lia|]. unfold owed. rewrite Oi, Ou.
  rewrite (EffectCompare.accrual_add _ (eff m) (fun d => Z.min n (total (wm_diffs m)) - Z.min n (total (Spec.after d (wm_diffs m))) - n)); [lia|].
  intros d. unfold eff. rewrite Es, Os.
  assert (H0 : forall t, dates (fun d => 0 <= d) t -> due (-1) t = 0).
  { intros t Ht. apply due_nil_below. intros k v Hin. specialize (Ht k v Hin). cbv beta in *. lia. }
  assert (Hd' : dates (fun d => 0 <= d) (wm_diffs m')) by (eapply dates_keys; [|exact Hd]; congruence).
  pose proof (T (-1)) as T1. rewrite !total_after, (H0 _ Hd), (H0 _ Hd') in T1.
  specialize (T d). rewrite total_after in T. pose proof (total_after d (wm_diffs m)). lia.
Qed.

Lemma book_distribution ci ts w w' m : hist_ok (wp_ci w) -> distributed ts w w' -> wp_ci w = ci ->
  (Z.of_nat (length (wp_ci w)) < 1095 -> p_index (wp w) = last_from 0 (wp_ci w)) ->
  booked ci m 0 (rise_above (m_index (wm m)) ts w * eff m (day_start ts)) 0 (wp_ci w') m.
Proof.
  intros Hh (_ & Et & Ed & D1 & D2) <- Hl. exists 0. split; [lia|].
  unfold rise_above, rise. pose proof (recorded_iff ts w) as HR. cbv zeta.
  destruct (recorded ts w) eqn:Er.
  - destruct D1 as (-> & _); [apply HR; reflexivity|]. lia.
  - destruct D2 as (Ei & _ & ->); [intros H; apply HR in H; discriminate|]. unfold unfilled.
    destruct (Z.of_nat (length (wp_ci w)) <? 1095) eqn:El; [|lia].
    apply Z.ltb_lt in El. unfold owed. unfold accrual at 1. rewrite accrual_app. fold (accrual (m_index (wm m)) (eff m) (wp_ci w)).
    rewrite Ei, Hl, Et by exact El. unfold net, part. lia.
Qed.

Section env.
Context (e : env) (Henv : env_ok e) (Hinj : env_inj e).

Lemma named_true ms n k : names ms n k = true <-> account_at ms n k.
Proof. unfold names, account_at. destruct (nth_error _ _); [|split; discriminate]. rewrite Z.eqb_eq. split; congruence. Qed.
Lemma named_not ms n q k : account_at ms n q -> q <> k -> names ms n k = false.
Proof. unfold names, account_at. intros -> H. apply Z.eqb_neq. exact H. Qed.
Lemma named_yes ms n k : account_at ms n k -> names ms n k = true.
Proof. apply named_true. Qed.

(** ** The newest index is recorded while there is room *)
Definition logged (w : wpool) : Prop := Z.of_nat (length (wp_ci w)) < 1095 -> p_index (wp w) = last_from 0 (wp_ci w).
Definition all_logged (L : ledger) : Prop := forall P w, is_pool e L P w -> logged w.

Lemma exec_logged now ts ms i L L' r : reached e now L -> now <= ts -> ix_in_range i -> exec e ts ms i L = Ok (L', r) ->
  all_logged L -> all_logged L'.
Proof.
  intros HR Hts Hi X HA P w' Hw'.
  pose proof (exec_effect e Henv now ts ms i L L' r HR Hts Hi X) as F.
  assert (Same : acc L' P = acc L P -> logged w').
  { intros E. apply (HA P). destruct Hw' as [H1 H2]. unfold is_pool, owner_of, data_of in *. rewrite E in *. auto. }
  assert (Kept : forall x, acc L' P = having (acc L P) x -> logged w').
  { intros x E. apply (HA P). destruct Hw' as [H1 H2]. unfold is_pool, owner_of, data_of in *. rewrite E in *. auto. }
  assert (New : forall a x, acc L' P = holding a (DPool x) -> w' = x).
  { intros a x E. destruct Hw' as [_ H2]. unfold data_of in H2. rewrite E in H2. cbn in H2. congruence. }
  assert (Other : forall a, acc L' P = a -> (forall x, a_data a <> DPool x) -> logged w').
  { intros a E Ha. destruct Hw' as [_ H2]. unfold data_of in H2. rewrite E in H2. destruct (Ha _ H2). }
  assert (Stake : forall q w x, is_pool e L q w -> only_total w x -> q = P -> acc L' P = holding (acc L q) (DPool x) -> logged w').
  { intros q w x Hq (_ & _ & _ & _ & E1 & _ & _ & _ & _ & E2) -> E. rewrite (New _ _ E). unfold logged. rewrite E1, E2. exact (HA P w Hq). }
  destruct i; cbn [effect] in F.
  - destruct F as (p & mi & v & pa & au & b & Hms & _ & _ & B). specialize (B P). cbn [listed pool_now] in B.
    destruct (Z.eqb_spec p P) as [->|]; [rewrite (New _ _ B); intros _; reflexivity|].
    destruct (v =? P); [eapply Other; [exact B|intros; discriminate]|]. destruct (Z.eqb_spec pa P) as [->|]; [eapply Kept; exact B|auto].
  - destruct F as (p & mi & v & au & so & w & sv & vv & Hms & Hw & _ & _ & _ & B). specialize (B P). cbn [listed pool_now] in B.
    destruct (Z.eqb_spec p P) as [->|]; [rewrite (New _ _ B); exact (HA P w Hw)|].
    unfold tokens_now in B. destruct (so =? v); [auto|]. cbn [listed] in B.
    destruct (so =? P); [eapply Other; [exact B|intros; discriminate]|]. destruct (v =? P); [eapply Other; [exact B|intros; discriminate]|auto].
  - destruct F as (p & mi & pa & b & Hms & FM & _ & B). specialize (B P). cbn [listed] in B.
    destruct (mi =? P); [eapply Other; [exact B|intros; discriminate]|]. destruct (Z.eqb_spec pa P) as [->|]; [eapply Kept; exact B|auto].
  - destruct F as (p & q & au & dm & w & x & D & w2 & x' & D' & Hms & Hw & Hx & HD & (_ & O & _) & _ & B).
    specialize (B P). cbn [listed pool_now mining_now] in B.
    destruct (Z.eqb_spec p P); [eapply Stake; eassumption|]. destruct (q =? P); [eapply Other; [exact B|intros; discriminate]|].
    destruct D'; cbn [delegate_now listed mining_now] in B; [|auto]. destruct (dm =? P); [eapply Other; [exact B|intros; discriminate]|auto].
  - destruct F as (p & q & au & dm & w & x & D & w2 & x' & D' & Hms & Hw & Hx & HD & (_ & O & _) & _ & B).
    specialize (B P). cbn [listed pool_now mining_now] in B.
    destruct (Z.eqb_spec p P); [eapply Stake; eassumption|]. destruct (q =? P); [eapply Other; [exact B|intros; discriminate]|].
    destruct D'; cbn [delegate_now listed mining_now] in B; [|auto]. destruct (dm =? P); [eapply Other; [exact B|intros; discriminate]|auto].
  - destruct F as (p & mi & v & q & ow & au & de & w & x & x1 & Hms & Hw & Hx & R & -> & B).
    destruct B as [[_ B]|(_ & tv & tt & _ & _ & B)]; specialize (B P); cbn [listed mining_now] in B;
      (destruct (q =? P); [eapply Other; [exact B|intros; discriminate]|]); [auto|].
    unfold tokens_now in B. destruct (v =? de); [auto|]. cbn [listed] in B.
    destruct (v =? P); [eapply Other; [exact B|intros; discriminate]|]. destruct (de =? P); [eapply Other; [exact B|intros; discriminate]|auto].
  - destruct F as (p & q & au & dm & w & x & D & w2 & x' & D' & Hms & Hw & Hx & HD & (_ & O & _) & _ & B).
    specialize (B P). cbn [listed pool_now mining_now] in B.
    destruct (Z.eqb_spec p P); [eapply Stake; eassumption|]. destruct (q =? P); [eapply Other; [exact B|intros; discriminate]|].
    destruct D'; cbn [delegate_now listed mining_now] in B; [|auto]. destruct (dm =? P); [eapply Other; [exact B|intros; discriminate]|auto].
  - destruct F as (p & au & w & w2 & Hms & Hw & (_ & _ & _ & D1 & D2) & _ & B). specialize (B P). cbn [listed pool_now] in B.
    destruct (Z.eqb_spec p P) as [->|]; [|auto]. rewrite (New _ _ B).
    assert (HD : has_date (day_start ts) (wp_ci w) \/ ~ has_date (day_start ts) (wp_ci w)).
    { pose proof (recorded_iff ts w) as HI. destruct (recorded ts w); [left; apply HI; reflexivity|right; intros H; apply HI in H; discriminate]. }
    destruct HD as [H|H].
    + destruct (D1 H) as (E1 & E2 & _). unfold logged. rewrite E1, E2. exact (HA P w Hw).
    + destruct (D2 H) as (E1 & _ & E2). unfold logged. rewrite E2.
      destruct (Z.of_nat (length (wp_ci w)) <? 1095) eqn:El; [rewrite last_app; reflexivity|].
      apply Z.ltb_ge in El. lia.
  - destruct F as (mi & ow & ta & Hms & _ & B). specialize (B P). cbn [listed] in B.
    destruct (mi =? P); [eapply Other; [exact B|intros; discriminate]|]. destruct (Z.eqb_spec ta P) as [->|]; [eapply Kept; exact B|auto].
  - destruct F as (p & q & au & ow & od & nd & w & x & O & N & w2 & x' & O' & N' & Hms & Hw & Hx & HO & HN & (_ & OT & _) & _ & B).
    specialize (B P). cbn [listed pool_now mining_now] in B.
    destruct (Z.eqb_spec p P); [eapply Stake; eassumption|]. destruct (q =? P); [eapply Other; [exact B|intros; discriminate]|].
    rewrite listed_app in B.
    destruct O'; cbn [delegate_now listed mining_now] in B; [destruct (od =? P); [eapply Other; [exact B|intros; discriminate]|]|];
      (destruct N'; cbn [delegate_now listed mining_now] in B; [destruct (nd =? P); [eapply Other; [exact B|intros; discriminate]|auto]|auto]).
  - destruct F as (au & p & q & w & x & w2 & x' & Hms & Hw & Hx & (x1 & _ & _ & OT & _) & _ & B).
    specialize (B P). cbn [listed pool_now mining_now] in B.
    destruct (Z.eqb_spec p P); [eapply Stake; eassumption|]. destruct (q =? P); [eapply Other; [exact B|intros; discriminate]|auto].
  - destruct F as (au & p & q & x & x' & Hms & Hx & _ & _ & B).
    specialize (B P). cbn [listed mining_now] in B. destruct (q =? P); [eapply Other; [exact B|intros; discriminate]|auto].
Qed.

Lemma zero_logged w : all_zero (DPool w) = true -> logged w.
Proof.
  intros H. rewrite (all_zero_pool w H). intros _. reflexivity.
Qed.

Lemma reached_logged now L : reached e now L -> all_logged L.
Proof.
  intros (L0 & evs & G & R).
  assert (H0 : reached e 0 L0) by (exists L0, []; split; [exact G|apply run_nil]).
  assert (A0 : all_logged L0).
  { intros P w [Ho Hd]. destruct (G P) as [_ G0]. specialize (G0 Ho). unfold data_of in *. rewrite Hd in G0. apply zero_logged. exact G0. }
  clear G. induction R as [|now0 L0 ev L1 evs now1 L2 S R IH]; [assumption|].
  apply IH.
  - eapply reached_run; [exact H0|]. econstructor; [exact S|]. destruct S; apply run_nil.
  - destruct S as [ts ms i L1 r Hts Hu Hi X|ts L1 Hts Hu X].
    + eapply exec_logged; eassumption.
    + intros P w [Ho Hd]. destruct (X P) as (_ & Y & Z). unfold owner_of, data_of in *.
      destruct (Z.eq_dec (a_owner (acc L0 P)) (program_id e)) as [Eo|No].
      * destruct (Y Eo) as [(Y1 & Y2 & _)|[_ Y2]]; [|rewrite Y2 in Hd; discriminate].
        apply (A0 P). split; [exact Eo|]. unfold data_of. congruence.
      * specialize (Z No Ho). rewrite Hd in Z. apply zero_logged. exact Z.
Qed.

(** ** One call *)
Lemma exec_booked now ts ms i L L' r P k w m w' m' :
  reached e now L -> now <= ts -> ix_in_range i -> exec e ts ms i L = Ok (L', r) ->
  open_in e P k L w m -> open_in e P k L' w' m' ->
  booked (wp_ci w) m (takes k ms i r) (call_adds e P k ts ms i L) (call_slack k ts ms i L) (wp_ci w') m'.
Proof.
  intros HR Hts Hi X (Hw & Htw & Hm & Htm & HP) (Hw' & Htw' & Hm' & Htm' & HP').
  pose proof (exec_effect e Henv now ts ms i L L' r HR Hts Hi X) as F.
  pose proof (only_allowed e Henv now ts ms i L L' r HR Hts Hi X) as AL.
  destruct (reached_ok e Henv _ _ HR) as (HL & _ & Hn).
  assert (Hist : forall p u, is_pool e L p u -> hist_ok (wp_ci u) /\ dates (fun d => d <= day_start ts) (wp_ci u)).
  { intros p u [Ho Hu]. pose proof (ok_pool e _ _ _ _ HL Ho Hu) as W. split; [eapply pool_wf_hist; exact W|eapply c_dates; eassumption]. }
  pose proof (ok_mining e _ _ _ _ HL (proj1 Hm) (proj2 Hm)) as Wm.
  assert (Hj : 0 <= m_index (wm m)) by exact (mo_index _ (mining_wf_min _ Wm)).
  destruct (Hist _ _ Hw) as [Hh Hd].
  assert (Same : acc L' k = acc L k -> m' = m).
  { intros E. destruct Hm as [_ H1], Hm' as [_ H2]. unfold data_of in *. congruence. }
  assert (SameP : acc L' P = acc L P -> w' = w).
  { intros E. destruct Hw as [_ H1], Hw' as [_ H2]. unfold data_of in *. congruence. }
  assert (New : forall a x, acc L' k = holding a (DMining x) -> m' = x).
  { intros a x E. destruct Hm' as [_ H2]. unfold data_of in H2. rewrite E in H2. cbn in H2. congruence. }
  assert (Kept : forall x, acc L' k = having (acc L k) x -> m' = m).
  { intros x E. destruct Hm as [_ H1], Hm' as [_ H2]. unfold data_of in *. rewrite E in H2. cbn in H2. congruence. }
  assert (NewP : forall a x, acc L' P = holding a (DPool x) -> w' = x).
  { intros a x E. destruct Hw' as [_ H2]. unfold data_of in H2. rewrite E in H2. cbn in H2. congruence. }
  assert (NkP : k <> P).
  { intros ->. destruct Hm as [_ H1], Hw as [_ H2]. congruence. }
  assert (Sl : call_slack k ts ms i L = if refreshes k ms i then most ts m else 0).
  { unfold call_slack. rewrite (proj2 Hm). reflexivity. }
  assert (Sl0 : 0 <= call_slack k ts ms i L).
  { rewrite Sl. pose proof (most_nonneg ts m). destruct (refreshes k ms i); lia. }
  destruct (pool_named e ts ms i L L' r X) as [Q HQ].
  destruct (Z.eq_dec Q P) as [->|NQ].
  2:{ (* for another pool *)
    assert (Ew : w' = w) by (apply SameP; exact (isolation_pool e Henv ts ms i L L' r Q P w X HQ Hw (not_eq_sym NQ))). subst w'.
    assert (Np : names ms (pool_position i) P = false) by (eapply named_not; [exact HQ|congruence]).
    unfold call_adds. rewrite (proj2 Hw), (proj2 Hm), Np.
    assert (Hhole : hole ms i k \/ ~ hole ms i k).
    { unfold hole. destruct i; try (right; intros [[(? & ? & ?) _]|[? _]]; discriminate).
      - destruct (names ms 0 k) eqn:E0; [left; right; split; [reflexivity|apply named_true; exact E0]|].
        right. intros [[(? & ? & ?) _]|[_ H]]; [discriminate|]. apply named_true in H. congruence.
      - destruct (names ms 4 k) eqn:E4; [left; left; split; [eauto|apply named_true; exact E4]|].
        right. intros [[_ H]|[? _]]; [|discriminate]. apply named_true in H. congruence. }
    destruct Hhole as [[[(a & n & ->) H4]|[-> H0]]|NH].
    - (* a strike *)
      cbn [effect] in F. cbn [pool_position] in HQ.
      destruct F as (p & q & au & ow & od & nd & u & x & O & N & u' & x' & O' & N' & [rs Hms] & Hu & Hx & HO & HN & (R & _ & _ & _ & RO & RN) & -> & B).
      cbn [allowed] in AL. destruct AL as (p2 & q2 & au2 & ow2 & od2 & nd2 & u2 & x2 & O2 & N2 & [rs2 Hms2] & SA & _ & Hne & _ & _ & _).
      pose proof Hms as Hms0. rewrite Hms in Hms2. cbn in Hms2. injection Hms2 as <- <- <- <- <- <- _.
      unfold account_at in HQ, H4. rewrite Hms in HQ, H4. cbn in HQ, H4. injection HQ as ->. injection H4 as ->.
      assert (Nq : q <> k).
      { intros ->. pose proof (sa_of _ _ _ _ _ _ _ _ _ SA) as E. rewrite (mining_fun e _ _ _ _ (sa_mining _ _ _ _ _ _ _ _ _ SA) Hm) in E. congruence. }
      rewrite (named_yes ms 4 k) by (unfold account_at; rewrite Hms; reflexivity). rewrite Hms. cbn [nth_error app]. rewrite (proj2 Hu).
      specialize (B k). cbn [listed pool_now mining_now] in B. destruct (Z.eqb_spec Q k) as [->|_]; [destruct Hm as [_ H1], Hu as [_ H2]; congruence|].
      rewrite (proj2 (Z.eqb_neq _ _) Nq) in B. rewrite listed_app in B.
      destruct HO as [[-> _]|(_ & y & Hy & ->)]; [congruence|]. rewrite (mining_fun e _ _ _ _ Hy Hm) in RO.
      cbn [delegated] in RO. destruct O' as [y'|]; [|contradiction]. cbn [delegate_now listed mining_now] in B. rewrite Z.eqb_refl in B.
      rewrite (New _ _ B). rewrite no_claim by discriminate. rewrite Sl. unfold refreshes.
      rewrite (named_yes ms 4 k) by (unfold account_at; rewrite Hms; reflexivity). rewrite orb_true_r. cbn [orb].
      apply book_strike; [apply Hh|exact RO].
    - (* closed *)
      cbn [effect] in F. destruct F as (mi & ow & ta & [rs Hms] & _ & B). unfold account_at in H0. rewrite Hms in H0. cbn in H0. injection H0 as ->.
      specialize (B k). cbn [listed] in B. rewrite Z.eqb_refl in B. destruct Hm' as [_ H2]. unfold data_of in H2. rewrite B in H2.
      cbn in H2. injection H2 as <-. discriminate Htm'.
    - assert (Em : m' = m).
      { apply Same. apply (other_minings e Henv Hinj now ts ms i L L' r Q k m HR X HQ Hm); [exact Htm|congruence|exact NH]. }
      subst m'. apply booked_same; [| |exact Sl0].
      + destruct i; try reflexivity. cbn [allowed] in AL.
        destruct AL as (p & mi & v & q & ow & au & de & u & x & t & [rs Hms] & Hu & Hx & _ & _ & _ & _ & _ & _ & _ & _ & _ & Hpx & _).
        cbn [pool_position] in HQ. unfold account_at in HQ. rewrite Hms in HQ. cbn in HQ. injection HQ as ->.
        eapply at_third; [exact Hms|]. intros ->. rewrite (mining_fun e _ _ _ _ Hx Hm) in Hpx. congruence.
      + destruct i; try reflexivity. destruct (nth_error (map mt_key ms) 0); [|reflexivity]. destruct (data_of L p); try reflexivity.
        destruct (names ms 4 k) eqn:E; [|reflexivity]. exfalso. apply NH. left. split; [eauto|apply named_true; exact E]. }
  (* for this pool *)
  assert (Ea : call_adds e P k ts ms i L = adds_to ts w m k ms i).
  { unfold call_adds. rewrite (proj2 Hw), (proj2 Hm), (named_yes _ _ _ HQ). reflexivity. }
  rewrite Ea, Sl. clear Ea.
  assert (Quiet : acc L' k = acc L k -> wp_ci w' = wp_ci w -> takes k ms i r = 0 -> adds_to ts w m k ms i = 0 ->
    booked (wp_ci w) m (takes k ms i r) (adds_to ts w m k ms i) (if refreshes k ms i then most ts m else 0) (wp_ci w') m').
  { intros E1 E2 E3 E4. rewrite (Same E1), E2. apply booked_same; [exact E3|exact E4|]. rewrite <- Sl. exact Sl0. }
  assert (Stake : forall w2, acc L' P = holding (acc L P) (DPool w2) -> only_total w w2 -> wp_ci w' = wp_ci w).
  { intros w2 E O. rewrite (NewP _ _ E). apply O. }
  assert (Own : forall x x1 x2 y, acc L' k = holding (acc L k) (DMining x2) -> wp_ci w' = wp_ci w ->
    refreshed ts (wp_ci w) m x1 -> only_stake x1 x2 -> m_share (wm x2) = m_share (wm x1) + x ->
    dates (fun d => day_start ts < d) (wm_diffs x2) -> y = x * late ts (wp_ci w) -> booked (wp_ci w) m 0 y (most ts m) (wp_ci w') m').
  { intros x x1 x2 y E Ec R O Es Hd2 Hy. rewrite (New _ _ E), Ec. eapply (book_own _ ts Hh Hd); eassumption. }
  assert (Later : forall x1, refreshed ts (wp_ci w) m x1 -> dates (fun d => day_start ts < d) (wm_diffs x1)).
  { intros x1 R. rewrite (rf_diffs _ _ _ _ R). apply Worth.dates_after. }
  assert (Keys : forall t t', map fst t' = map fst t -> dates (fun d => day_start ts < d) t -> dates (fun d => day_start ts < d) t').
  { intros t t' E. apply dates_keys. congruence. }
  assert (PP : forall q x, is_mining e L q x -> q <> P).
  { intros q x [_ H1] ->. destruct Hw as [_ H2]. congruence. }
  destruct i; cbn [pool_position] in HQ; cbn [effect] in F; cbn [allowed] in AL; cbn [adds_to refreshes] in *;
    try (rewrite no_claim in Quiet |- * by discriminate).
  - (* InitializePool *)
    destruct AL as (p & mi & v & pa & au & u & [rs Hms] & Hu & Ht & _). unfold account_at in HQ. rewrite Hms in HQ. cbn in HQ. injection HQ as ->.
    rewrite (pool_fun e _ _ _ _ Hu Hw) in Ht. congruence.
  - (* FillVault *)
    destruct F as (p & mi & v & au & so & u & sv & vv & [rs Hms] & Hu & Ds & Dv & _ & B). unfold account_at in HQ. rewrite Hms in HQ. cbn in HQ. injection HQ as ->.
    pose proof (B P) as BP. cbn [listed pool_now] in BP. rewrite Z.eqb_refl in BP. rewrite (pool_fun e _ _ _ _ Hu Hw) in BP.
    pose proof (B k) as Bk. cbn [listed pool_now] in Bk. rewrite (proj2 (Z.eqb_neq P k)) in Bk by congruence.
    assert (Nk : forall q t, data_of L q = DToken t -> (q =? k) = false).
    { intros q t H. apply Z.eqb_neq. intros ->. destruct Hm as [_ H1]. congruence. }
    apply Quiet; [|rewrite (NewP _ _ BP); reflexivity|reflexivity|reflexivity].
    rewrite Bk. unfold tokens_now. destruct (so =? v); [reflexivity|]. cbn [listed]. rewrite (Nk _ _ Ds), (Nk _ _ Dv). reflexivity.
  - (* InitializeMining *)
    destruct F as (p & mi & pa & b & [rs Hms] & _ & _ & B). pose proof (B P) as BP. pose proof (B k) as Bk. cbn [listed] in BP, Bk.
    destruct AL as (p2 & mi2 & pa2 & [rs2 Hms2] & _ & _ & (_ & Vo & _) & _). rewrite Hms in Hms2. cbn in Hms2. injection Hms2 as <- <- <- _.
    assert (Vk : forall q, owner_of L q = program_id e -> (mi =? q) = false).
    { intros q H. apply Z.eqb_neq. intros ->. pose proof (eo_sys _ Henv). congruence. }
    rewrite (Vk P (proj1 Hw)) in BP. rewrite (Vk k (proj1 Hm)) in Bk.
    assert (Ew : wp_ci w' = wp_ci w).
    { destruct (pa =? P) eqn:E; [apply Z.eqb_eq in E as ->|rewrite (SameP BP); reflexivity].
      destruct Hw as [_ H1], Hw' as [_ H2]. unfold data_of in *. rewrite BP in H2. cbn in H2. congruence. }
    assert (Em : m' = m) by (destruct (Z.eqb_spec pa k) as [->|]; [exact (Kept _ Bk)|exact (Same Bk)]).
    rewrite Em, Ew. apply booked_same; [reflexivity|reflexivity|lia].
  - (* DepositMining *)
    destruct F as (p & q & au & dm & u & x & D & u' & x' & D' & [rs Hms] & Hu & Hx & HD & ((x1 & R & O & Es & S & _) & OT & _ & _ & _ & RD) & _ & B).
    destruct AL as (p2 & q2 & au2 & dm2 & u2 & x2 & D2 & [rs2 Hms2] & _ & _ & (Hp & _)).
    unfold account_at in HQ. rewrite Hms in HQ. cbn in HQ. injection HQ as ->. rewrite (pool_fun e _ _ _ _ Hu Hw) in *.
    pose proof (B P) as BP. cbn [listed pool_now mining_now] in BP. rewrite Z.eqb_refl in BP.
    pose proof (Stake _ BP OT) as Ew.
    pose proof (B k) as Bk. cbn [listed pool_now mining_now] in Bk. rewrite (proj2 (Z.eqb_neq P k)) in Bk by congruence.
    unfold names. rewrite Hms. cbn [nth_error app].
    destruct (Z.eqb_spec q k) as [->|Nq].
    { cbn [orb]. rewrite (mining_fun e _ _ _ _ Hx Hm) in *. eapply Own; [exact Bk|exact Ew|exact R|exact O|exact Es| |reflexivity].
      eapply Worth.scheduled_dates; [exact S|apply Later; exact R|apply Worth.expiry_later; exact Hp]. }
    unfold names in Quiet. rewrite Hms in Quiet. cbn [nth_error app] in Quiet. rewrite (proj2 (Z.eqb_neq _ _) Nq) in Quiet.
    destruct (Z.eqb_spec dm k) as [->|Nd].
    { cbn [orb]. destruct HD as [[<- _]|(_ & y & Hy & ->)]; [congruence|]. rewrite (mining_fun e _ _ _ _ Hy Hm) in RD.
      cbn [delegated] in RD. destruct D' as [y'|]; [|contradiction]. cbn [delegate_now listed mining_now] in Bk. rewrite Z.eqb_refl in Bk.
      rewrite (New _ _ Bk), Ew. eapply (book_delegate _ ts Hh Hd); [exact Hj|exact RD|reflexivity]. }
    apply Quiet; [|exact Ew|reflexivity|reflexivity].
    rewrite Bk. destruct D'; cbn [delegate_now listed mining_now]; [|reflexivity]. rewrite (proj2 (Z.eqb_neq _ _) Nd). reflexivity.
  - (* WithdrawMining *)
    destruct F as (p & q & au & dm & u & x & D & u' & x' & D' & [rs Hms] & Hu & Hx & HD & ((x1 & R & O & Es & S) & OT & _ & _ & RD) & _ & B).
    unfold account_at in HQ. rewrite Hms in HQ. cbn in HQ. injection HQ as ->. rewrite (pool_fun e _ _ _ _ Hu Hw) in *.
    pose proof (B P) as BP. cbn [listed pool_now mining_now] in BP. rewrite Z.eqb_refl in BP.
    pose proof (Stake _ BP OT) as Ew.
    pose proof (B k) as Bk. cbn [listed pool_now mining_now] in Bk. rewrite (proj2 (Z.eqb_neq P k)) in Bk by congruence.
    unfold names. rewrite Hms. cbn [nth_error app].
    destruct (Z.eqb_spec q k) as [->|Nq].
    { cbn [orb]. rewrite (mining_fun e _ _ _ _ Hx Hm) in *. eapply (Own (- amount)); [exact Bk|exact Ew|exact R|exact O|lia| |lia].
      rewrite S. apply Later. exact R. }
    unfold names in Quiet. rewrite Hms in Quiet. cbn [nth_error app] in Quiet. rewrite (proj2 (Z.eqb_neq _ _) Nq) in Quiet.
    destruct (Z.eqb_spec dm k) as [->|Nd].
    { cbn [orb]. destruct HD as [[<- _]|(_ & y & Hy & ->)]; [congruence|]. rewrite (mining_fun e _ _ _ _ Hy Hm) in RD.
      cbn [delegated] in RD. destruct D' as [y'|]; [|contradiction]. cbn [delegate_now listed mining_now] in Bk. rewrite Z.eqb_refl in Bk.
      rewrite (New _ _ Bk), Ew. eapply (book_delegate _ ts Hh Hd); [exact Hj|exact RD|lia]. }
    apply Quiet; [|exact Ew|reflexivity|reflexivity].
    rewrite Bk. destruct D'; cbn [delegate_now listed mining_now]; [|reflexivity]. rewrite (proj2 (Z.eqb_neq _ _) Nd). reflexivity.
  - (* Claim *)
    destruct F as (p & mi & v & q & ow & au & de & u & x & x1 & [rs Hms] & Hu & Hx & R & -> & B).
    destruct AL as (p2 & mi2 & v2 & q2 & ow2 & au2 & de2 & u2 & x2 & t2 & [rs2 Hms2] & _ & _ & _ & Vo & Do & _).
    rewrite Hms in Hms2. cbn in Hms2. injection Hms2 as <- <- <- <- <- <- <- _.
    unfold account_at in HQ. rewrite Hms in HQ. cbn in HQ. injection HQ as ->. rewrite (pool_fun e _ _ _ _ Hu Hw) in *.
    assert (Tk : forall y, owner_of L y = program_id e -> (v =? y) = false /\ (de =? y) = false).
    { intros y H. pose proof (eo_tok _ Henv). split; apply Z.eqb_neq; intros ->; congruence. }
    assert (Bq : forall y, owner_of L y = program_id e -> q <> y -> acc L' y = acc L y).
    { intros y Ho Ny. destruct (Tk y Ho) as [T1 T2]. destruct B as [[_ B]|(_ & tv & tt & _ & _ & B)]; rewrite (B y); cbn [listed mining_now];
        rewrite (proj2 (Z.eqb_neq _ _) Ny); [reflexivity|]. unfold tokens_now. destruct (v =? de); [reflexivity|]. cbn [listed]. rewrite T1, T2. reflexivity. }
    assert (Ew : wp_ci w' = wp_ci w).
    { rewrite SameP; [reflexivity|]. apply Bq; [apply Hw|]. intros ->. exact (PP _ _ Hx eq_refl). }
    unfold names in *. rewrite Hms in *. cbn [nth_error app] in *. unfold takes in *. rewrite Hms in *. cbn [nth_error app] in *.
    destruct (Z.eqb_spec q k) as [->|N].
    + rewrite (mining_fun e _ _ _ _ Hx Hm) in R.
      assert (E : acc L' k = holding (acc L k) (DMining (emptied x1))).
      { destruct B as [[_ B]|(_ & tv & tt & _ & _ & B)]; rewrite (B k); cbn [listed mining_now]; rewrite Z.eqb_refl; reflexivity. }
      rewrite (New _ _ E), Ew. apply (book_claim _ ts Hh Hd); assumption.
    + apply Quiet; [apply Bq; [apply Hm|exact N]|exact Ew|reflexivity|reflexivity].
  - (* ExtendStake *)
    destruct F as (p & q & au & dm & u & x & D & u' & x' & D' & [rs Hms] & Hu & Hx & HD & ((x1 & t & R & O & Es & Hlow & S & _) & OT & _ & _ & _ & RD) & _ & B).
    destruct AL as (p2 & q2 & au2 & dm2 & u2 & x2 & D2 & [rs2 Hms2] & _ & _ & CE).
    destruct CE as (_ & Hp & _).
    unfold account_at in HQ. rewrite Hms in HQ. cbn in HQ. injection HQ as ->. rewrite (pool_fun e _ _ _ _ Hu Hw) in *.
    pose proof (B P) as BP. cbn [listed pool_now mining_now] in BP. rewrite Z.eqb_refl in BP.
    pose proof (Stake _ BP OT) as Ew.
    pose proof (B k) as Bk. cbn [listed pool_now mining_now] in Bk. rewrite (proj2 (Z.eqb_neq P k)) in Bk by congruence.
    unfold names. rewrite Hms. cbn [nth_error app].
    destruct (Z.eqb_spec q k) as [->|Nq].
    { cbn [orb]. rewrite (mining_fun e _ _ _ _ Hx Hm) in *.
      eapply Own; [exact Bk|exact Ew|exact R|exact O| | |reflexivity]; [lia|].
      eapply Worth.scheduled_dates; [exact S| |apply Worth.expiry_later; exact Hp].
      destruct (unexpired _ _ _); [|subst t; apply Later; exact R].
      destruct Hlow as (_ & _ & T & _). eapply Keys; [exact T|apply Later; exact R]. }
    unfold names in Quiet. rewrite Hms in Quiet. cbn [nth_error app] in Quiet. rewrite (proj2 (Z.eqb_neq _ _) Nq) in Quiet.
    destruct (Z.eqb_spec dm k) as [->|Nd].
    { cbn [orb]. destruct HD as [[<- _]|(_ & y & Hy & ->)]; [congruence|]. rewrite (mining_fun e _ _ _ _ Hy Hm) in RD.
      destruct D' as [y'|]; [|contradiction]. cbn [delegate_now listed mining_now] in Bk. rewrite Z.eqb_refl in Bk.
      rewrite (New _ _ Bk), Ew. eapply (book_extended _ ts Hh Hd); [exact Hj|exact RD|reflexivity]. }
    apply Quiet; [|exact Ew|reflexivity|reflexivity].
    rewrite Bk. destruct D'; cbn [delegate_now listed mining_now]; [|reflexivity]. rewrite (proj2 (Z.eqb_neq _ _) Nd). reflexivity.
  - (* DistributeRewards *)
    destruct F as (p & au & u & u' & [rs Hms] & Hu & DD & _ & B).
    unfold account_at in HQ. rewrite Hms in HQ. cbn in HQ. injection HQ as ->. rewrite (pool_fun e _ _ _ _ Hu Hw) in *.
    pose proof (B P) as BP. cbn [listed pool_now mining_now] in BP. rewrite Z.eqb_refl in BP.
    pose proof (B k) as Bk. cbn [listed pool_now mining_now] in Bk. rewrite (proj2 (Z.eqb_neq P k)) in Bk by congruence.
    rewrite (Same Bk), (NewP _ _ BP). apply book_distribution; [exact Hh|exact DD|reflexivity|].
    exact (reached_logged now L HR P w Hw).
  - (* CloseMining *)
    destruct F as (mi & ow & ta & [rs Hms] & _ & B). pose proof (B k) as Bk. pose proof (B P) as BP. cbn [listed] in Bk, BP.
    destruct AL as (mi2 & ow2 & ta2 & au2 & p2 & u2 & x2 & [rs2 Hms2] & _ & Hx2 & To & _). rewrite Hms in Hms2. cbn in Hms2. injection Hms2 as <- <- <- _.
    assert (Tk : forall y, owner_of L y = program_id e -> (ta =? y) = false).
    { intros y H. pose proof (eo_sys _ Henv). apply Z.eqb_neq; intros ->; congruence. }
    rewrite (Tk k (proj1 Hm)) in Bk. rewrite (Tk P (proj1 Hw)) in BP. rewrite (proj2 (Z.eqb_neq mi P)) in BP by exact (PP _ _ Hx2).
    destruct (mi =? k). { destruct Hm' as [_ H2]. unfold data_of in H2. rewrite Bk in H2. cbn in H2. injection H2 as <-. discriminate Htm'. }
    apply Quiet; [exact Bk|rewrite (SameP BP); reflexivity|reflexivity|reflexivity].
  - (* ChangeDelegate *)
    destruct F as (p & q & au & ow & od & nd & u & x & O & N & u' & x' & O' & N' & [rs Hms] & Hu & Hx & HO & HN & (R & OT & _ & _ & RO & RN) & _ & B).
    destruct AL as (p2 & q2 & au2 & ow2 & od2 & nd2 & u2 & x2 & O2 & N2 & [rs2 Hms2] & SA & _ & Hne & _ & _ & _).
    rewrite Hms in Hms2. cbn in Hms2. injection Hms2 as <- <- <- <- <- <- _.
    unfold account_at in HQ. rewrite Hms in HQ. cbn in HQ. injection HQ as ->. rewrite (pool_fun e _ _ _ _ Hu Hw) in *.
    pose proof (B P) as BP. cbn [listed pool_now mining_now] in BP. rewrite Z.eqb_refl in BP.
    pose proof (Stake _ BP OT) as Ew.
    pose proof (B k) as Bk. cbn [listed pool_now mining_now] in Bk. rewrite (proj2 (Z.eqb_neq P k)) in Bk by congruence.
    unfold names. rewrite Hms. cbn [nth_error app]. unfold names in Quiet. rewrite Hms in Quiet. cbn [nth_error app] in Quiet.
    destruct (Z.eqb_spec q k) as [->|Nq].
    { cbn [orb]. rewrite (mining_fun e _ _ _ _ Hx Hm) in *.
      eapply (Own 0); [exact Bk|exact Ew|exact R|repeat split|lia|apply Later; exact R|lia]. }
    rewrite listed_app in Bk. cbn [orb] in *.
    destruct (Z.eqb_spec od k) as [->|No].
    { cbn [orb]. destruct HO as [[<- _]|(_ & y & Hy & ->)]; [congruence|]. rewrite (mining_fun e _ _ _ _ Hy Hm) in RO.
      cbn [delegated] in RO. destruct O' as [y'|]; [|contradiction]. cbn [delegate_now listed mining_now] in Bk. rewrite Z.eqb_refl in Bk.
      rewrite (New _ _ Bk), Ew. eapply (book_delegate _ ts Hh Hd); [exact Hj|exact RO|lia]. }
    assert (Bk2 : acc L' k = match listed k (delegate_now L nd N') with Some a => a | None => acc L k end).
    { rewrite Bk. destruct O'; cbn [delegate_now listed mining_now]; [rewrite (proj2 (Z.eqb_neq _ _) No)|]; reflexivity. }
    cbn [orb] in *.
    destruct (Z.eqb_spec nd k) as [->|Nd].
    { destruct HN as [[<- _]|(_ & y & Hy & ->)]; [congruence|]. rewrite (mining_fun e _ _ _ _ Hy Hm) in RN.
      cbn [delegated] in RN. destruct N' as [y'|]; [|contradiction]. cbn [delegate_now listed mining_now] in Bk2. rewrite Z.eqb_refl in Bk2.
      rewrite (New _ _ Bk2), Ew. eapply (book_delegate _ ts Hh Hd); [exact Hj|exact RN|reflexivity]. }
    apply Quiet; [|exact Ew|reflexivity|reflexivity].
    rewrite Bk2. destruct N'; cbn [delegate_now listed mining_now]; [|reflexivity]. rewrite (proj2 (Z.eqb_neq _ _) Nd). reflexivity.
  - (* Slash *)
    destruct F as (au & p & q & u & x & u' & x' & [rs Hms] & Hu & Hx & (x1 & R & O & OT & Es & _ & T) & _ & B).
    unfold account_at in HQ. rewrite Hms in HQ. cbn in HQ. injection HQ as ->. rewrite (pool_fun e _ _ _ _ Hu Hw) in *.
    pose proof (B P) as BP. cbn [listed pool_now mining_now] in BP. rewrite Z.eqb_refl in BP.
    pose proof (Stake _ BP OT) as Ew.
    pose proof (B k) as Bk. cbn [listed pool_now mining_now] in Bk. rewrite (proj2 (Z.eqb_neq P k)) in Bk by congruence.
    unfold names. rewrite Hms. cbn [nth_error app]. unfold names in Quiet. rewrite Hms in Quiet. cbn [nth_error app] in Quiet.
    destruct (Z.eqb_spec q k) as [->|Nq].
    { rewrite (mining_fun e _ _ _ _ Hx Hm) in *.
      eapply Own; [exact Bk|exact Ew|exact R|exact O|rewrite Es; apply Z.add_opp_r| |lia].
      match type of T with match ?d with _ => _ end => destruct d as [y|] end; [|destruct T as [-> _]; apply Later; exact R].
      destruct T as ((_ & _ & T & _) & _). eapply Keys; [exact T|apply Later; exact R]. }
    apply Quiet; [exact Bk|exact Ew|reflexivity|reflexivity].
  - (* DecreaseRewards *)
    destruct F as (au & p & q & x & x' & [rs Hms] & Hx & DD & _ & B).
    pose proof (B P) as BP. cbn [listed mining_now] in BP. rewrite (proj2 (Z.eqb_neq q P)) in BP by exact (PP _ _ Hx).
    pose proof (B k) as Bk. cbn [listed mining_now] in Bk.
    unfold names. rewrite Hms. cbn [nth_error app]. unfold names in Quiet. rewrite Hms in Quiet. cbn [nth_error app] in Quiet.
    destruct (Z.eqb_spec q k) as [->|Nq].
    { rewrite (mining_fun e _ _ _ _ Hx Hm) in *. rewrite (New _ _ Bk), (SameP BP). apply book_decrease; [|exact DD].
      intros d v Hin. pose proof (mw_dates _ Wm d v Hin) as [[Hdd _] _]. exact Hdd. }
    apply Quiet; [exact Bk|rewrite (SameP BP); reflexivity|reflexivity|reflexivity].
Qed.

(** ** A history *)
Lemma income_open P k now L now' L' x y z : income e P k now L now' L' x y z -> exists w m, open_in e P k L w m.
Proof. intros H. destruct H; eauto. Qed.
Lemma open_fun P k L w m w1 m1 : open_in e P k L w m -> open_in e P k L w1 m1 -> w1 = w /\ m1 = m.
Proof. intros (A & _ & B & _) (C & _ & D & _). split; [exact (pool_fun e _ _ _ _ C A)|exact (mining_fun e _ _ _ _ D B)]. Qed.
Lemma ext_open P k L L1 w m w1 m1 : external e L L1 -> open_in e P k L w m -> open_in e P k L1 w1 m1 -> w1 = w /\ m1 = m.
Proof.
  intros X ([Ho Hd] & Ht & [Hmo Hmd] & Hmt & _) ([Ho1 Hd1] & Ht1 & [Hmo1 Hmd1] & Hmt1 & _). unfold data_of, owner_of in *.
  destruct (X P) as (_ & XP & _). destruct (X k) as (_ & Xk & _). specialize (XP Ho). specialize (Xk Hmo). split.
  - destruct XP as [(_ & E & _)|[_ E]]; [congruence|]. rewrite E in Hd1. discriminate.
  - destruct Xk as [(_ & E & _)|[_ E]]; [congruence|]. rewrite E in Hmd1. discriminate.
Qed.

Lemma income_booked P k now L now' L' x y z :
  income e P k now L now' L' x y z -> reached e now L -> forall w m w' m', open_in e P k L w m -> open_in e P k L' w' m' ->
  reached e now' L' /\ booked (wp_ci w) m x y z (wp_ci w') m'.
Proof.
  induction 1 as [now L w0 m0 O|now L ts ms i L1 r now' L' x y z w0 m0 O Hts Hu Hi X HI IH|now L ts L1 now' L' x y z w0 m0 O Hts Hu X HI IH];
    intros HR w m w' m' O1 O2.
  - destruct (open_fun _ _ _ _ _ _ _ O1 O2) as [-> ->]. split; [assumption|]. apply booked_same; lia.
  - destruct (income_open _ _ _ _ _ _ _ _ _ HI) as (w1 & m1 & O3).
    destruct (IH (reached_exec e now ts ms i L L1 r HR Hts Hu Hi X) _ _ _ _ O3 O2) as [HR' B]. split; [assumption|].
    eapply booked_trans; [|exact B]. eapply exec_booked; eassumption.
  - destruct (income_open _ _ _ _ _ _ _ _ _ HI) as (w1 & m1 & O3).
    destruct (ext_open _ _ _ _ _ _ _ _ X O1 O3) as [-> ->]. apply IH; [|assumption|assumption].
    eapply (reached_run e now L [EvExt ts]); [exact HR|]. econstructor; [|apply run_nil]. constructor; assumption.
Qed.

Lemma income_claim P k now ts L now' L' x y z w m w' m' a :
  income e P k now L now' L' x y z -> reached e now L -> open_in e P k L w m -> open_in e P k L' w' m' -> now' <= ts ->
  claim_returns e ts L' P k a ->
  10000000000000000 * (x + a) <= owed (wp_ci w) m + y /\
  ((forall i, ~ In (ts, i) (wp_ci w')) ->
   owed (wp_ci w) m + y <= 10000000000000000 * (x + a) + z + most ts m').
Proof.
  intros HI HR O1 O2 Hts Hc. destruct (income_booked _ _ _ _ _ _ _ _ _ HI HR _ _ _ _ O1 O2) as [HR' (q & Hq & E)].
  destruct (reached_ok e Henv _ _ HR') as (HL & _).
  destruct O2 as (Hw & _ & Hm & _ & HP).
  destruct (claim_owed e P now' ts L' w' k m' a HL Hts Hw (conj Hm HP) Hc) as [C1 C2].
  split; [lia|]. intros Hno. specialize (C2 Hno). unfold most. lia.
Qed.

(** a mining starts with nothing *)
Lemma accrual_zero j f t : (forall d, f d = 0) -> accrual j f t = 0.
Proof.
  intros H. unfold accrual. generalize 0 at 1 as prev. induction t as [|[d i] r IH]; intros prev; [reflexivity|].
  cbn [accrual_from]. rewrite IH, H. lia.
Qed.
Lemma born_owed now ts ms o L L' r P k w m :
  reached e now L -> now <= ts -> is_u64 ts -> ix_in_range (InitializeMining o) -> exec e ts ms (InitializeMining o) L = Ok (L', r) ->
  account_at ms 1 k -> open_in e P k L' w m -> reached e ts L' /\ owed (wp_ci w) m = 0.
Proof.
  intros HR Hts Hu Hi X A (_ & _ & [_ Hm] & _). split; [eapply reached_exec; eassumption|].
  pose proof (exec_effect e Henv now ts ms _ L L' r HR Hts Hi X) as F. cbn [effect] in F.
  destruct F as (p & mi & pa & b & [rs Hms] & _ & _ & B). unfold account_at in A. rewrite Hms in A. cbn in A. injection A as ->.
  specialize (B k). cbn [listed] in B. rewrite Z.eqb_refl in B. unfold data_of in Hm. rewrite B in Hm. cbn in Hm. injection Hm as <-.
  unfold owed. rewrite accrual_zero; [reflexivity|]. intros d. unfold eff. cbn. reflexivity.
Qed.
Lemma income_life now0 ts0 ms o L0 r P k ts L now' L' x y z w' m' a :
  reached e now0 L0 -> now0 <= ts0 -> is_u64 ts0 -> ix_in_range (InitializeMining o) ->
  exec e ts0 ms (InitializeMining o) L0 = Ok (L, r) -> account_at ms 1 k ->
  income e P k ts0 L now' L' x y z -> open_in e P k L' w' m' -> now' <= ts -> claim_returns e ts L' P k a ->
  10000000000000000 * (x + a) <= y /\
  ((forall i, ~ In (ts, i) (wp_ci w')) -> y <= 10000000000000000 * (x + a) + z + most ts m').
Proof.
  intros HR Hts Hu Hi X A HI O2 Ht Hc. destruct (income_open _ _ _ _ _ _ _ _ _ HI) as (w & m & O1).
  destruct (born_owed _ _ _ _ _ _ _ _ _ _ _ HR Hts Hu Hi X A O1) as [HR1 E].
  pose proof (income_claim _ _ _ ts _ _ _ _ _ _ _ _ _ _ _ HI HR1 O1 O2 Ht Hc) as H. rewrite E in H. exact H.
Qed.
End env.
