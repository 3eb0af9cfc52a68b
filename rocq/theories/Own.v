(** Proofs of C88: more stake of one's own. *)
From stdpp Require Import gmap.
From Verif Require Import Base OMap State Spec EffectSpec Ledger Program ResLemmas TreeLemmas AccrualLemmas RefreshLemmas WfLemmas LedgerLemmas LedgerSpec
  CodecLemmas History HistoryLemmas Changes AccessLemmas HistoryThms ReachThms EffectLemmas EffectMethods EffectThms EffectMore
  SuccessSpec SuccessThms LedgerCore Determined Commute CompleteSpec Complete PowerSpec Powers FreezeSpec Choice GapSpec Gap CapSpec Cap
  CoreInv DustSpec DebtSpec Debt IncomeSpec Income DiarySpec Diary LogSpec Log CompareSpec Compare LongerSpec Longer OwnSpec.

Local Notation P16 := 10000000000000000.

(** ** The larger share of a distribution *)
Lemma share_more e1 e2 a1 a2 r : 0 <= e1 -> e2 <= e1 -> 0 < a1 -> 0 < a2 -> 0 <= r -> e2 <= a2 -> a1 - e1 <= a2 - e2 ->
  r / a2 * e2 <= r / a1 * e1 + e1.
Proof.
  intros H1 H2 A1 A2 Hr Hc Hs.
  pose proof (Z.mul_div_le r a2 A2) as D2. pose proof (Z.mul_succ_div_gt r a1 A1) as D1.
  assert (0 <= r / a1) by (apply Z.div_pos; lia). assert (0 <= r / a2) by (apply Z.div_pos; lia).
  destruct (Z_le_gt_dec e2 0) as [N|N]; [nia|].
  assert (C : e2 * a1 <= e1 * a2) by nia.
  set (p := r / a1) in *. set (q := r / a2) in *.
  assert (a1 * (q * e2) <= a1 * (p * e1 + e1)); [|nia].
  assert (a2 * q * e1 <= a1 * Z.succ p * e1) by (apply Z.mul_le_mono_nonneg_r; lia).
  assert (q * (e2 * a1) <= q * (e1 * a2)) by (apply Z.mul_le_mono_nonneg_l; lia).
  lia.
Qed.

(** ** Pools *)
Definition beside (v w v' w' : wpool) : Prop :=
  map fst (wp_diffs v') = map fst (wp_diffs w') /\ p_avail (wp v') = p_avail (wp w') /\ p_ends_at (wp v') = p_ends_at (wp w') /\
  wp_ci v' = wp_ci v /\ wp_ci w' = wp_ci w.
Lemma totals_beside v w v' w' : p_avail (wp v) = p_avail (wp w) -> p_ends_at (wp v) = p_ends_at (wp w) -> only_total v v' -> only_total w w' ->
  map fst (wp_diffs v') = map fst (wp_diffs w') -> beside v w v' w'.
Proof.
  intros A E (_ & _ & _ & _ & _ & E1 & A1 & _ & _ & C1) (_ & _ & _ & _ & _ & E2 & A2 & _ & _ & C2) K.
  split; [exact K|]. split; [congruence|]. split; [congruence|]. split; assumption.
Qed.

(** the same call of somebody else *)
Lemma others_step ts i b v w v' w' :
  map fst (wp_diffs v) = map fst (wp_diffs w) -> p_avail (wp v) = p_avail (wp w) -> p_ends_at (wp v) = p_ends_at (wp w) ->
  ascending (wp_diffs v) -> ascending (wp_diffs w) -> ascending (wp_diffs v') -> ascending (wp_diffs w') ->
  i <> DistributeRewards -> pstep (ts, i, b) v v' -> pstep (ts, i, b) w w' ->
  beside v w v' w' /\ exists f : Z -> Z, forall d, day_start ts <= d -> all v' d = all v d + f d /\ all w' d = all w d + f d.
Proof.
  intros K A E A1 A2 A1' A2' ND P1 P2.
  assert (Same : v' = v -> w' = w -> beside v w v' w' /\ exists f : Z -> Z, forall d, day_start ts <= d -> all v' d = all v d + f d /\ all w' d = all w d + f d).
  { intros -> ->. split; [repeat (split; [assumption|]); split; reflexivity|]. exists (fun _ => 0). intros d _. lia. }
  destruct i; cbn [pstep] in P1, P2; try (apply Same; assumption); try contradiction.
  - (* FillVault *)
    subst. unfold beside. cbn [filled wp_diffs wp p_avail p_ends_at wp_ci]. split; [|exists (fun _ => 0); intros d _; unfold all; cbn; lia].
    split; [exact K|]. split; [lia|]. split; [reflexivity|]. split; reflexivity.
  - (* DepositMining *)
    destruct P1 as (O1 & T1 & S1 & _), P2 as (O2 & T2 & S2 & _).
    destruct (scheduled_both _ _ _ _ _ _ _ _ K A1 A2 A1' A2' S1 S2) as (K' & cc & HH). split; [exact (totals_beside _ _ _ _ A E O1 O2 K')|].
    exists (fun d => amount * weight_of period + if_there b 0 amount - (if cc d then amount * (weight_of period - 1) else 0)).
    intros d _. destruct (HH d) as [H1 H2]. unfold all. rewrite T1, T2, H1, H2. lia.
  - (* WithdrawMining *)
    destruct P1 as (O1 & T1 & S1), P2 as (O2 & T2 & S2).
    split; [apply (totals_beside _ _ _ _ A E O1 O2); rewrite S1, S2; apply keys_after; exact K|].
    exists (fun _ => - amount - if_there b 0 amount). intros d Hd. unfold all. rewrite T1, T2, S1, S2, !due_late, Z.max_l by lia. lia.
  - (* ExtendStake *)
    destruct P1 as (O1 & T1 & S1 & _), P2 as (O2 & T2 & S2 & _).
    destruct (scheduled_both _ _ _ _ _ _ _ _ K A1 A2 A1' A2' S1 S2) as (K' & cc & HH). split; [exact (totals_beside _ _ _ _ A E O1 O2 K')|].
    exists (fun d => - counted old_period start_ts ts base + (base + additional) * weight_of new_period + if_there b 0 additional
      - (if cc d then (base + additional) * (weight_of new_period - 1) else 0)). intros d _. destruct (HH d) as [H1 H2]. unfold all. rewrite T1, T2, H1, H2. lia.
  - (* ChangeDelegate *)
    destruct P1 as (O1 & S1 & T1), P2 as (O2 & S2 & T2).
    split; [apply (totals_beside _ _ _ _ A E O1 O2); rewrite S1, S2; exact K|].
    exists (fun _ => - if_there b 0 staked_amount + if_there b 1 staked_amount). intros d Hd. unfold all. rewrite T1, T2, S1, S2. lia.
  - (* Slash *)
    destruct P1 as (O1 & T1 & S1), P2 as (O2 & T2 & S2).
    match type of S1 with match ?d with _ => _ end => destruct d as [u|] end.
    + pose proof S1 as (_ & _ & K1 & _). pose proof S2 as (_ & _ & K2 & _).
      split; [apply (totals_beside _ _ _ _ A E O1 O2); rewrite K1, K2; apply keys_after; exact K|].
      exists (fun d => - weighted + (if day_start u <=? d then weighted - native else 0)). intros d Hd. unfold all.
      rewrite (lowered_less _ _ _ _ d (ascending_after _ _ A1) S1), (lowered_less _ _ _ _ d (ascending_after _ _ A2) S2), T1, T2, !due_late, Z.max_l by lia.
      destruct (day_start u <=? d); lia.
    + split; [apply (totals_beside _ _ _ _ A E O1 O2); rewrite S1, S2; apply keys_after; exact K|].
      exists (fun _ => - weighted). intros d Hd. unfold all. rewrite T1, T2, S1, S2, !due_late, Z.max_l by lia. lia.
Qed.

(** ** One step of both *)
Record ahead (t : Z) (v w : wpool) (m n : wmining) (z err : Z) : Prop := {
  ah_dates : map fst (wm_diffs m) = map fst (wm_diffs n);
  ah_own : forall d, own n d <= own m d;
  ah_sfo : m_sfo (wm n) <= m_sfo (wm m);
  ah_rest : forall d, t <= d -> all v d - eff m d <= all w d - eff n d;
  ah_pool_dates : map fst (wp_diffs v) = map fst (wp_diffs w);
  ah_avail : p_avail (wp v) = p_avail (wp w);
  ah_ends : p_ends_at (wp v) = p_ends_at (wp w);
  ah_days : map fst (wp_ci v) = map fst (wp_ci w);
  ah_index : m_index (wm m) <= last_from 0 (wp_ci v);
  ah_index' : m_index (wm n) <= last_from 0 (wp_ci w);
  ah_owed : P16 * z + owed (wp_ci w) n <= owed (wp_ci v) m + err }.

Lemma eff_own m d : eff m d = own m d + m_sfo (wm m).
Proof. unfold eff, own. lia. Qed.
Lemma ahead_others ts i b t v w m n z err v' w' : ahead t v w m n z err -> t <= day_start ts -> i <> DistributeRewards ->
  ascending (wp_diffs v) -> ascending (wp_diffs w) -> ascending (wp_diffs v') -> ascending (wp_diffs w') ->
  pstep (ts, i, b) v v' -> pstep (ts, i, b) w w' -> ahead (day_start ts) v' w' m n z err.
Proof.
  intros [D O S R PD A E C I I' U] Ht ND A1 A2 A1' A2' P1 P2.
  destruct (others_step ts i b v w v' w' PD A E A1 A2 A1' A2' ND P1 P2) as [(K & A' & E' & C1 & C2) (f & F)].
  constructor; try assumption; rewrite ?C1, ?C2; try assumption.
  intros d Hd. destruct (F d Hd) as [-> ->]. specialize (R d ltac:(lia)). lia.
Qed.

(** a mining that has just been brought up to date has nothing in the history left to get *)
Lemma nothing_left ts ci m : growing 0 ci -> dates (fun k => k <= day_start ts) ci -> day_start ts < ts -> m_index (wm m) = visible ts ci ->
  m_index (wm m) = last_from 0 ci /\ owed ci m = P16 * m_unclaimed (wm m).
Proof.
  intros G D L I. assert (V : visible ts ci = last_from 0 ci).
  { apply visible_all. intros k i Hin. specialize (D k i Hin). cbv beta in *. lia. }
  rewrite V in I. split; [exact I|]. unfold owed, accrual. rewrite accrual_below; [unfold PRECISION; lia|exact G|lia].
Qed.

Lemma there b a c : (In true b -> a = c) -> if_there b 0 a = if_there b 0 c.
Proof.
  intros H. unfold if_there. destruct (nth 0 b false) eqn:E; [|reflexivity]. apply H. destruct b as [|[] b]; cbn in E; try discriminate. left. reflexivity.
Qed.
Lemma lengths_eq (t u : sched) : map fst t = map fst u -> length t = length u.
Proof. apply keys_length. Qed.
Lemma lost_room cap d x t k : Z.of_nat (length t) < cap -> GapSpec.lost cap d x t k = 0.
Proof. intros H. unfold GapSpec.lost. rewrite (proj2 (Z.ltb_lt _ _) H), orb_true_r. reflexivity. Qed.
Lemma lost_more cap d x y t u k : map fst t = map fst u -> y <= x -> GapSpec.lost cap d y u k <= GapSpec.lost cap d x t k.
Proof.
  intros K H. rewrite <- (lost_keys cap d x t u k (eq_sym K)). unfold GapSpec.lost. destruct (_ || _); [lia|]. destruct (d <=? k); lia.
Qed.
Definition lockups (i : ix) : Prop :=
  match i with DepositMining _ p _ _ => 0 < weight_of p | ExtendStake _ q _ _ _ _ _ => 0 < weight_of q | _ => True end.

Lemma ahead_own ts i j b l t v w m n z err p1 p2 v' w' m' n' :
  ahead t v w m n z err -> t <= day_start ts -> day_start ts < ts -> own_more b l i j -> lockups j -> plus j ->
  hist_ok (wp_ci v) -> dates (fun k => k <= day_start ts) (wp_ci v) -> hist_ok (wp_ci w) -> dates (fun k => k <= day_start ts) (wp_ci w) ->
  mining_wf m -> mining_wf n -> ascending (wm_diffs m') -> ascending (wm_diffs n') ->
  ascending (wp_diffs v) -> ascending (wp_diffs w) -> ascending (wp_diffs v') -> ascending (wp_diffs w') ->
  Z.of_nat (length (wp_diffs v)) + (if dates_pool (ts, j, b, l) then 1 else 0) <= 365 ->
  pstep (ts, i, b) v v' -> pstep (ts, j, b) w w' -> page (ts, i, l, wp_ci v) m p1 m' -> page (ts, j, l, wp_ci w) n p2 n' ->
  exists g, ahead (day_start ts) v' w' m' n' (z + p2 - p1) (err + (P16 - 1) * g) /\
    g + Z.of_nat (length (wm_diffs m')) <= Z.of_nat (length (wm_diffs m)) + 1 + adds i l.
Proof.
  intros [D O S R PD A E C I I' U] Ht Hnm OM LK PJ Hv Dv Hw Dw M N Am' An' Av Aw Av' Aw' RM P1 P2 G1 G2.
  assert (AD : forall i, 0 <= adds i l) by (intros k; unfold adds; destruct (opens _); lia).
  assert (Hgv : growing 0 (wp_ci v)) by apply Hv. assert (Hgw : growing 0 (wp_ci w)) by apply Hw.
  assert (Jm : 0 <= m_index (wm m)) by exact (mo_index _ (mining_wf_min _ M)). assert (Jn : 0 <= m_index (wm n)) by exact (mo_index _ (mining_wf_min _ N)).
  assert (RK : forall m1 n1, refreshed ts (wp_ci v) m m1 -> refreshed ts (wp_ci w) n n1 ->
    map fst (wm_diffs m1) = map fst (wm_diffs n1) /\ (forall d, own n1 d <= own m1 d) /\ ascending (wm_diffs m1) /\ ascending (wm_diffs n1)).
  { intros m1 n1 R1 R2. split; [rewrite (rf_diffs _ _ _ _ R1), (rf_diffs _ _ _ _ R2); apply keys_after; exact D|].
    split; [intros d; rewrite (own_refreshed _ _ _ _ d R1), (own_refreshed _ _ _ _ d R2); apply O|].
    split; [exact (refreshed_asc _ _ _ _ (mw_asc _ M) R1)|exact (refreshed_asc _ _ _ _ (mw_asc _ N) R2)]. }
  assert (FIN : forall m1 n1 a1 a2, refreshed ts (wp_ci v) m m1 -> refreshed ts (wp_ci w) n n1 ->
    m_index (wm m') = m_index (wm m1) -> m_index (wm n') = m_index (wm n1) -> m_sfo (wm m') = m_sfo (wm m1) -> m_sfo (wm n') = m_sfo (wm n1) ->
    m_unclaimed (wm m1) = m_unclaimed (wm m') + a1 -> m_unclaimed (wm n1) = m_unclaimed (wm n') + a2 ->
    beside v w v' w' -> map fst (wm_diffs m') = map fst (wm_diffs n') -> (forall d, own n' d <= own m' d) ->
    (forall d, day_start ts <= d -> all v' d - all v d - (own m' d - own m1 d) <= all w' d - all w d - (own n' d - own n1 d)) ->
    Z.of_nat (length (wm_diffs m')) <= Z.of_nat (length (wm_diffs m1)) + adds i l ->
    exists g, ahead (day_start ts) v' w' m' n' (z + a2 - a1) (err + (P16 - 1) * g) /\
      g + Z.of_nat (length (wm_diffs m')) <= Z.of_nat (length (wm_diffs m)) + 1 + adds i l).
  { intros m1 n1 a1 a2 R1 R2 I1 I2 S1 S2 U1 U2 (K & A' & E' & C1 & C2) KM OO RR LL. exists (segments ts m).
    destruct (refreshed_owed _ _ Hv Dv _ _ Jm R1) as (q1 & Q1 & W1 & X1 & _). destruct (refreshed_owed _ _ Hw Dw _ _ Jn R2) as (q2 & Q2 & W2 & X2 & _).
    pose proof (refreshed_length _ _ _ _ R1) as RL.
    destruct (nothing_left ts _ m1 Hgv Dv Hnm X1) as [_ Z1]. destruct (nothing_left ts _ n1 Hgw Dw Hnm X2) as [_ Z2].
    rewrite <- I1 in X1. rewrite <- I2 in X2.
    destruct (nothing_left ts _ m' Hgv Dv Hnm X1) as [Y1 Z1']. destruct (nothing_left ts _ n' Hgw Dw Hnm X2) as [Y2 Z2'].
    split; [|lia]. constructor; rewrite ?C1, ?C2; try assumption; try lia.
    - rewrite S1, S2, (rf_sfo _ _ _ _ R1), (rf_sfo _ _ _ _ R2). exact S.
    - intros d Hd. specialize (RR d Hd). specialize (R d ltac:(lia)). rewrite !eff_own in *. rewrite S1, S2, (rf_sfo _ _ _ _ R1), (rf_sfo _ _ _ _ R2).
      rewrite (own_refreshed _ _ _ _ d R1), (own_refreshed _ _ _ _ d R2), Z.max_l in RR by lia. lia.
    - rewrite Z1', Z2'. change (1 + count_due (day_start ts) (wm_diffs m)) with (segments ts m) in Q1. lia. }
  assert (STK : forall m1 n1, refreshed ts (wp_ci v) m m1 -> refreshed ts (wp_ci w) n n1 -> only_stake m1 m' -> only_stake n1 n' ->
    beside v w v' w' -> map fst (wm_diffs m') = map fst (wm_diffs n') -> (forall d, own n' d <= own m' d) ->
    (forall d, day_start ts <= d -> all v' d - all v d - (own m' d - own m1 d) <= all w' d - all w d - (own n' d - own n1 d)) ->
    Z.of_nat (length (wm_diffs m')) <= Z.of_nat (length (wm_diffs m1)) + adds i l ->
    exists g, ahead (day_start ts) v' w' m' n' (z + 0 - 0) (err + (P16 - 1) * g) /\
      g + Z.of_nat (length (wm_diffs m')) <= Z.of_nat (length (wm_diffs m)) + 1 + adds i l).
  { intros m1 n1 R1 R2 (_ & I1 & U1 & S1) (_ & I2 & U2 & S2) B KM OO RR LL.
    eapply FIN; try eassumption; lia. }
  destruct i, j; cbn [own_more] in OM; try contradiction; cbn [pstep] in P1, P2; cbn [page] in G1, G2.
  - (* DepositMining *)
    destruct OM as (H1 & <- & Ha & Hb). apply here_in in H1. rewrite H1 in *. destruct G1 as [-> (m1 & R1 & O1 & E1 & S1 & _)], G2 as [-> (n1 & R2 & O2 & E2 & S2 & _)].
    destruct P1 as (Q1 & T1 & Y1 & _), P2 as (Q2 & T2 & Y2 & _). destruct (RK _ _ R1 R2) as (K1 & OO & B1 & B2).
    destruct (scheduled_both _ _ _ _ _ _ _ _ K1 B1 B2 Am' An' S1 S2) as (KM & cm & HM).
    destruct (scheduled_both _ _ _ _ _ _ _ _ PD Av Aw Av' Aw' Y1 Y2) as (KP & _).
    cbn [lockups plus dates_pool] in *. pose proof (scheduled_length _ _ _ _ _ B1 Am' S1) as SL.
    eapply STK; [exact R1|exact R2|exact O1|exact O2|exact (totals_beside _ _ _ _ A E Q1 Q2 KP)|exact KM| | |].
    + intros d. destruct (HM d) as [X1 X2]. specialize (OO d). unfold own in *. rewrite X1, X2, E1, E2. destruct (cm d), period; cbn [weight_of] in *; lia.
    + intros d Hd. rewrite (lengths_eq _ _ PD) in RM. unfold all, own. rewrite T1, T2, E1, E2.
      rewrite (scheduled_exact _ _ _ _ _ d Av Av' Y1), (scheduled_exact _ _ _ _ _ d Aw Aw' Y2), (scheduled_exact _ _ _ _ _ d B1 Am' S1), (scheduled_exact _ _ _ _ _ d B2 An' S2).
      rewrite (lost_room 365 _ _ (wp_diffs v)), (lost_room 365 _ _ (wp_diffs w)) by (rewrite ?(lengths_eq _ _ PD); lia). rewrite (there b amount amount0 Hb).
      pose proof (lost_more 50 (expiry period ts) (amount * (weight_of period - 1)) (amount0 * (weight_of period - 1)) _ _ d K1) as LM.
      assert (amount0 * (weight_of period - 1) <= amount * (weight_of period - 1)) by (destruct period; cbn [weight_of] in *; lia).
      specialize (LM ltac:(assumption)). destruct (expiry period ts <=? d); lia.
    + unfold adds, opens. change (existsb (Nat.eqb 1) l) with (here 1 l). rewrite H1. lia.
  - (* WithdrawMining *)
    destruct OM as (H1 & Ha & Hb). apply here_in in H1. rewrite H1 in *. destruct G1 as [-> (m1 & R1 & O1 & E1 & S1)], G2 as [-> (n1 & R2 & O2 & E2 & S2)].
    destruct P1 as (Q1 & T1 & Y1), P2 as (Q2 & T2 & Y2). destruct (RK _ _ R1 R2) as (K1 & OO & B1 & B2).
    eapply STK; [exact R1|exact R2|exact O1|exact O2|apply (totals_beside _ _ _ _ A E Q1 Q2); rewrite Y1, Y2; apply keys_after; exact PD|rewrite S1, S2; exact K1| | |].
    + intros d. specialize (OO d). unfold own in *. rewrite S1, S2, E1, E2. lia.
    + intros d Hd. unfold all, own. rewrite T1, T2, E1, E2, S1, S2, Y1, Y2, !due_late, Z.max_l, (there b amount amount0 Hb) by lia. lia.
    + rewrite S1. pose proof (AD (WithdrawMining amount mining_owner delegate)). lia.
  - (* Claim *)
    destruct G1 as (m1 & R1 & -> & ->), G2 as (n1 & R2 & -> & ->). subst v' w'. destruct (RK _ _ R1 R2) as (K1 & OO & B1 & B2).
    eapply (FIN m1 n1); try assumption; try reflexivity; try (cbn [emptied wm m_unclaimed]; lia).
    + split; [exact PD|]. split; [exact A|]. split; [exact E|]. split; reflexivity.
    + intros d Hd. change (own (emptied m1) d) with (own m1 d). change (own (emptied n1) d) with (own n1 d). lia.
    + cbn [emptied wm_diffs]. pose proof (AD Claim). lia.
  - (* ExtendStake *)
    destruct OM as (H1 & <- & <- & <- & <- & Ha & Hb). apply here_in in H1. rewrite H1 in *.
    destruct G1 as [-> (m1 & t1 & R1 & O1 & E1 & L1 & S1 & _)], G2 as [-> (n1 & t2 & R2 & O2 & E2 & L2 & S2 & _)].
    destruct P1 as (Q1 & T1 & Y1 & _), P2 as (Q2 & T2 & Y2 & _). destruct (RK _ _ R1 R2) as (K1 & OO & B1 & B2).
    assert (LL : map fst t1 = map fst (wm_diffs m1) /\ map fst t2 = map fst (wm_diffs n1) /\ ascending t1 /\ ascending t2 /\
        exists h : Z -> Z, forall d, Spec.due d t1 = Spec.due d (wm_diffs m1) - h d /\ Spec.due d t2 = Spec.due d (wm_diffs n1) - h d).
    { destruct (unexpired _ _ ts).
      - pose proof L1 as (_ & _ & X1 & _). pose proof L2 as (_ & _ & X2 & _). split; [exact X1|]. split; [exact X2|].
        split; [eapply ascending_keys; [symmetry; exact X1|exact B1]|]. split; [eapply ascending_keys; [symmetry; exact X2|exact B2]|].
        eexists (fun d => if _ <=? d then _ else 0). intros d. split; [exact (lowered_less _ _ _ _ d B1 L1)|exact (lowered_less _ _ _ _ d B2 L2)].
      - subst. split; [reflexivity|]. split; [reflexivity|]. split; [exact B1|]. split; [exact B2|]. exists (fun _ => 0). intros d. lia. }
    destruct LL as (X1 & X2 & C1 & C2 & h & HL). assert (K2 : map fst t1 = map fst t2) by congruence. pose proof (keys_length _ _ X1) as X1l.
    destruct (scheduled_both _ _ _ _ _ _ _ _ K2 C1 C2 Am' An' S1 S2) as (KM & cm & HM).
    destruct (scheduled_both _ _ _ _ _ _ _ _ PD Av Aw Av' Aw' Y1 Y2) as (KP & _).
    cbn [lockups plus dates_pool] in *. pose proof (scheduled_length _ _ _ _ _ C1 Am' S1) as SL.
    eapply STK; [exact R1|exact R2|exact O1|exact O2|exact (totals_beside _ _ _ _ A E Q1 Q2 KP)|exact KM| | |].
    + intros d. destruct (HM d) as [Z1 Z2]. destruct (HL d) as [W1 W2]. specialize (OO d). unfold own in *. rewrite Z1, Z2, E1, E2, W1, W2. destruct (cm d), new_period; cbn [weight_of] in *; lia.
    + intros d Hd. rewrite (lengths_eq _ _ PD) in RM. destruct (HL d) as [W1 W2]. unfold all, own. rewrite T1, T2, E1, E2.
      rewrite (scheduled_exact _ _ _ _ _ d Av Av' Y1), (scheduled_exact _ _ _ _ _ d Aw Aw' Y2), (scheduled_exact _ _ _ _ _ d C1 Am' S1), (scheduled_exact _ _ _ _ _ d C2 An' S2), W1, W2.
      rewrite (lost_room 365 _ _ (wp_diffs v)), (lost_room 365 _ _ (wp_diffs w)) by (rewrite ?(lengths_eq _ _ PD); lia). rewrite (there b additional additional0 Hb).
      pose proof (lost_more 50 (expiry new_period ts) ((base + additional) * (weight_of new_period - 1)) ((base + additional0) * (weight_of new_period - 1)) _ _ d K2) as LM.
      assert ((base + additional0) * (weight_of new_period - 1) <= (base + additional) * (weight_of new_period - 1)) by (destruct new_period; cbn [weight_of] in *; lia).
      specialize (LM ltac:(assumption)). destruct (expiry new_period ts <=? d); lia.
    + unfold adds, opens. change (existsb (Nat.eqb 1) l) with (here 1 l). rewrite H1. lia.
  - (* ChangeDelegate *)
    destruct OM as (H1 & <-). apply here_in in H1. rewrite H1 in *. destruct G1 as [-> R1], G2 as [-> R2].
    destruct P1 as (Q1 & Y1 & T1), P2 as (Q2 & Y2 & T2). destruct (RK _ _ R1 R2) as (K1 & OO & B1 & B2).
    eapply (FIN m' n'); try assumption; try reflexivity; try lia.
    + apply (totals_beside _ _ _ _ A E Q1 Q2); rewrite Y1, Y2; exact PD.
    + intros d Hd. unfold all. rewrite T1, T2, Y1, Y2. lia.
    + pose proof (AD (ChangeDelegate staked_amount new_delegate)). lia.
  - (* Slash *)
    destruct OM as (<- & Hn & Hwt). destruct G1 as [-> (m1 & R1 & O1 & E1 & S1)], G2 as [-> (n1 & R2 & O2 & E2 & S2)].
    destruct P1 as (Q1 & T1 & Y1), P2 as (Q2 & T2 & Y2). destruct (RK _ _ R1 R2) as (K1 & OO & B1 & B2).
    match type of S1 with match ?d with _ => _ end => destruct d as [u|] end.
    + pose proof Y1 as (_ & _ & X1 & _). pose proof Y2 as (_ & _ & X2 & _). pose proof S1 as (_ & _ & X3 & _). pose proof S2 as (_ & _ & X4 & _).
      eapply STK; [exact R1|exact R2|exact O1|exact O2|apply (totals_beside _ _ _ _ A E Q1 Q2); rewrite X1, X2; apply keys_after; exact PD|rewrite X3, X4; exact K1| | |].
      * intros d. specialize (OO d). unfold own in *. rewrite (lowered_less _ _ _ _ d B1 S1), (lowered_less _ _ _ _ d B2 S2), E1, E2. destruct (_ <=? d); lia.
      * intros d Hd. unfold all, own. rewrite (lowered_less _ _ _ _ d B1 S1), (lowered_less _ _ _ _ d B2 S2), E1, E2.
        rewrite (lowered_less _ _ _ _ d (ascending_after _ _ Av) Y1), (lowered_less _ _ _ _ d (ascending_after _ _ Aw) Y2), T1, T2, !due_late, Z.max_l by lia. lia.
      * apply keys_length in X3. rewrite X3. pose proof (AD (Slash mining_owner native weighted (Some u))). lia.
    + eapply STK; [exact R1|exact R2|exact O1|exact O2|apply (totals_beside _ _ _ _ A E Q1 Q2); rewrite Y1, Y2; apply keys_after; exact PD|rewrite S1, S2; exact K1| | |].
      * intros d. specialize (OO d). unfold own in *. rewrite S1, S2, E1, E2. lia.
      * intros d Hd. unfold all, own. rewrite T1, T2, E1, E2, S1, S2, Y1, Y2, !due_late, Z.max_l by lia. lia.
      * rewrite S1. pose proof (AD (Slash mining_owner native weighted None)). lia.
Qed.

Lemma part_pos a x ts : 0 <= a -> 0 <= daily_part a x ts.
Proof.
  intros H. unfold daily_part. assert (0 <= Z.max 0 (x - ts) / 86400) by (apply Z.div_pos; lia).
  destruct (Z.eqb_spec (Z.max 0 (x - ts) / 86400) 0); [exact H|]. apply Z.div_pos; lia.
Qed.
Lemma rise_eq ts w j : hist_ok (wp_ci w) -> 0 <= rise ts w -> j <= last_from 0 (wp_ci w) -> rise_above j ts w = rise ts w.
Proof. intros _ H Hj. unfold rise_above. cbv zeta. lia. Qed.
Lemma distributed_last ts w w' : (Z.of_nat (length (wp_ci w)) < 1095 -> p_index (wp w) = last_from 0 (wp_ci w)) -> 0 <= rise ts w ->
  distributed ts w w' -> last_from 0 (wp_ci w') = last_from 0 (wp_ci w) + rise ts w.
Proof.
  intros Hl Hr (_ & Et & _ & D1 & D2). unfold rise in *. pose proof (recorded_iff ts w) as HR.
  destruct (recorded ts w); [destruct D1 as (-> & _); [apply HR; reflexivity|lia]|].
  destruct D2 as (Ei & _ & ->); [intros H; apply HR in H; discriminate|]. unfold unfilled in *.
  destruct (Z.ltb_spec (Z.of_nat (length (wp_ci w))) 1095); [|lia]. rewrite last_app, Ei, Et, Hl by assumption. unfold part, net. lia.
Qed.

Lemma ahead_distribute ts b t v w m n z err v' w' s :
  ahead t v w m n z err -> t <= day_start ts -> hist_ok (wp_ci v) -> hist_ok (wp_ci w) ->
  (Z.of_nat (length (wp_ci v)) < 1095 -> p_index (wp v) = last_from 0 (wp_ci v)) ->
  (Z.of_nat (length (wp_ci w)) < 1095 -> p_index (wp w) = last_from 0 (wp_ci w)) ->
  can_distribute ts v -> can_distribute ts w -> 0 <= p_avail (wp v) ->
  0 <= eff m (day_start ts) <= s -> eff n (day_start ts) <= all w (day_start ts) ->
  pstep (ts, DistributeRewards, b) v v' -> pstep (ts, DistributeRewards, b) w w' -> ahead (day_start ts) v' w' m n z (err + s).
Proof.
  intros [D O S R PD A E C I I' U] Ht Hv Hw Lv Lw Cv Cw Av Hs Hc P1 P2.
  assert (DY : map fst (wp_ci v') = map fst (wp_ci w')).
  { eapply (pstep_days ts DistributeRewards DistributeRewards b b); [split; reflexivity|exact C|exact P1|exact P2]. }
  cbn [pstep] in P1, P2.
  assert (RC : recorded ts v = recorded ts w).
  { unfold recorded. rewrite <- !existsb_map_fst, C. reflexivity. }
  assert (UF : unfilled v = unfilled w) by (unfold unfilled; rewrite (keys_length _ _ C); reflexivity).
  assert (PT : part ts v = part ts w) by (unfold part; rewrite A, E; reflexivity).
  assert (PP : 0 <= part ts w) by (rewrite <- PT; apply part_pos; exact Av).
  assert (RR : 0 <= rise ts v /\ 0 <= rise ts w /\ rise ts w * eff n (day_start ts) <= rise ts v * eff m (day_start ts) + s).
  { unfold rise. rewrite RC, UF, PT. pose proof (recorded_iff ts w) as HR. pose proof (recorded_iff ts v) as HV. rewrite RC in HV.
    destruct (recorded ts w); [lia|]. destruct (unfilled w); [|lia].
    destruct Cv as (_ & _ & [Cv|[Cv _]]); [apply HV in Cv; discriminate|]. destruct Cw as (_ & _ & [Cw|[Cw _]]); [apply HR in Cw; discriminate|].
    fold (net ts v) in Cv. fold (net ts w) in Cw.
    split; [apply Z.div_pos; lia|]. split; [apply Z.div_pos; lia|].
    assert (eff n (day_start ts) <= eff m (day_start ts)) by (rewrite !eff_own; specialize (O (day_start ts)); lia).
    specialize (R (day_start ts) Ht). unfold all in R, Hc. fold (net ts v) in R. fold (net ts w) in R, Hc.
    pose proof (share_more (eff m (day_start ts)) (eff n (day_start ts)) (net ts v) (net ts w) (P16 * part ts w)). lia. }
  destruct RR as (R1 & R2 & R3).
  destruct (book_distribution _ ts v v' m Hv P1 eq_refl Lv) as (q1 & B1 & W1). destruct (book_distribution _ ts w w' n Hw P2 eq_refl Lw) as (q2 & B2 & W2).
  rewrite (rise_eq ts v _ Hv R1 I) in W1. rewrite (rise_eq ts w _ Hw R2 I') in W2.
  pose proof (distributed_last ts v v' Lv R1 P1) as V1. pose proof (distributed_last ts w w' Lw R2 P2) as V2.
  destruct P1 as (X1 & T1 & S1 & Y1 & N1), P2 as (X2 & T2 & S2 & Y2 & N2).
  constructor; try assumption; try lia.
  - intros d Hd. specialize (R d ltac:(lia)). unfold all in *. rewrite T1, T2, S1, S2, !due_late, Z.max_l by lia. lia.
  - rewrite S1, S2. apply keys_after. exact PD.
  - destruct (date_or_not (day_start ts) (wp_ci v)) as [HD|HD].
    + destruct (Y1 HD) as (_ & _ & ->). destruct (Y2 (proj1 (has_keys _ _ _ C) HD)) as (_ & _ & ->). exact A.
    + destruct (N1 HD) as (_ & -> & _). destruct (N2 (fun H => HD (proj2 (has_keys _ _ _ C) H))) as (_ & -> & _). rewrite A, E. reflexivity.
  - destruct X1 as (_ & _ & _ & _ & -> & _), X2 as (_ & _ & _ & _ & -> & _). exact E.
Qed.

(** a schedule grows only where a date is written *)
Lemma pstep_length ts i b l w w' : ascending (wp_diffs w) -> ascending (wp_diffs w') -> pstep (ts, i, b) w w' ->
  Z.of_nat (length (wp_diffs w')) <= Z.of_nat (length (wp_diffs w)) + (if dates_pool (ts, i, b, l) then 1 else 0).
Proof.
  intros A A' P. destruct i; cbn [pstep dates_pool] in *; try (subst; cbn [filled wp_diffs]; lia).
  - destruct P as (_ & _ & S & _). pose proof (scheduled_length _ _ _ _ _ A A' S). lia.
  - destruct P as (_ & _ & ->). pose proof (length_after (day_start ts) (wp_diffs w)). lia.
  - destruct P as (_ & _ & S & _). pose proof (scheduled_length _ _ _ _ _ A A' S). lia.
  - destruct P as (_ & _ & -> & _). pose proof (length_after (day_start ts) (wp_diffs w)). lia.
  - destruct P as (_ & -> & _). lia.
  - destruct P as (_ & _ & S). pose proof (length_after (day_start ts) (wp_diffs w)). destruct expiration as [u|]; [|rewrite S; lia].
    destruct S as (_ & _ & K & _). apply keys_length in K. rewrite K. lia.
Qed.

(** ** Steps with what is known about the states in between *)
Inductive gwalk (Q : Z -> wpool -> wmining -> Prop) : Z -> list full_entry -> wpool -> wmining -> Z -> wpool -> wmining -> Prop :=
| gk_nil now w m : pool_wf now w -> mining_wf m -> gwalk Q now [] w m 0 w m
| gk_cons now ts i bs l b w m p w1 m1 y w' m' :
    pool_wf now w -> mining_wf m -> now <= ts -> 0 <= ts ->
    (Z.of_nat (length (wp_ci w)) < 1095 -> p_index (wp w) = last_from 0 (wp_ci w)) ->
    lockups i -> plus i -> (i = DistributeRewards -> can_distribute ts w /\ Q ts w m) ->
    step (ts, i, bs, l) w m p w1 m1 -> gwalk Q ts b w1 m1 y w' m' -> gwalk Q now ((ts, i, bs, l) :: b) w m (p + y) w' m'.
Lemma gwalk_good Q now b w m y w' m' : gwalk Q now b w m y w' m' -> pool_wf now w /\ mining_wf m.
Proof. intros H. destruct H; auto. Qed.
Lemma gwalk_earlier Q now t b w m y w' m' : gwalk Q now b w m y w' m' -> t <= now -> pool_wf t w -> gwalk Q t b w m y w' m'.
Proof. intros H Ht Hw. destruct H; econstructor; try eassumption. lia. Qed.

Lemma gwalks_ahead s now b1 v m x v' m' : gwalk (fun ts v m => 0 <= eff m (day_start ts) <= s) now b1 v m x v' m' -> 0 <= s ->
  forall b2, Forall2 staking_more b1 b2 ->
  forall now2 w n y w' n' t z err, gwalk (fun ts w n => eff n (day_start ts) <= all w (day_start ts)) now2 b2 w n y w' n' ->
  Z.of_nat (length (wp_diffs v)) + how_many dates_pool b1 <= 365 -> t <= day_start now ->
  ahead t v w m n z err -> exists g t', ahead t' v' w' m' n' (z + y - x) (err + (P16 - 1) * g + s * how_many distributes b1) /\
    g + Z.of_nat (length (wm_diffs m')) <= Z.of_nat (length (wm_diffs m)) + how_many works b1 + how_many opens b1.
Proof.
  induction 1 as [now v m G M|now ts i bs l b v m p v1 m1 x v' m' G M Hn Hts Lg LK PL HD P H IH]; intros Hs b2 B now2 w n y w' n' t z err W RM Ht A.
  - inversion B; subst. inversion W; subst. exists 0, t. replace (z + 0 - 0) with z by lia.
    change (how_many distributes []) with 0. change (how_many works []) with 0. change (how_many opens []) with 0.
    replace (err + (P16 - 1) * 0 + s * 0) with err by lia. split; [exact A|lia].
  - inversion B as [|? [[[ts2 j] cs] l2] ? c BT BF]; subst.
    inversion W as [|? ? ? ? ? ? ? ? q w1 n1 y1 ? ? G2 M2 Hn2 Hts2 Lg2 LK2 PL2 HD2 P2 W2]; subst.
    destruct BT as (<- & <- & <- & BT). destruct P as [P1 PM1], P2 as [P2 PM2].
    rewrite !how_many_cons in *. rewrite opens_adds.
    destruct (gwalk_good _ _ _ _ _ _ _ _ H) as [GG1 MM1]. destruct (gwalk_good _ _ _ _ _ _ _ _ W2) as [GG2 MM2].
    pose proof (pstep_length ts i bs l v v1 (pw_diffs_asc _ _ G) (pw_diffs_asc _ _ GG1) P1) as PLN.
    assert (Hdm : day_start now <= day_start ts) by (rewrite <- !bod_day_start; apply bod_mono; exact Hn).
    assert (A1 : exists g, ahead (day_start ts) v1 w1 m1 n1 (z + q - p) (err + (P16 - 1) * g + s * (if distributes (ts, i, bs, l) then 1 else 0)) /\
      g + Z.of_nat (length (wm_diffs m1)) <= Z.of_nat (length (wm_diffs m)) + (if works (ts, i, bs, l) then 1 else 0) + adds i l).
    { assert (AD : 0 <= adds i l) by (unfold adds; destruct (opens _); lia).
      destruct l as [|n0 l].
      - subst j. destruct PM1 as [-> ->], PM2 as [-> ->]. replace (z + 0 - 0) with z by lia. exists 0. cbn [works snd]. split; [|lia].
        destruct (ix_is_distribute i) as [->|ND].
        + cbn [distributes]. replace (err + (P16 - 1) * 0 + s * 1) with (err + s) by lia.
          destruct (HD eq_refl) as [Cv Qv]. destruct (HD2 eq_refl) as [Cw Qw].
          eapply (ahead_distribute ts bs t v w); try eassumption; try lia.
          * eapply pool_wf_hist; exact G.
          * eapply pool_wf_hist; exact G2.
          * pose proof (pw_avail _ _ G) as Q. unfold is_u64 in Q. lia.
        + replace (distributes (ts, i, bs, [])) with false by (destruct i; try reflexivity; contradiction).
          replace (err + (P16 - 1) * 0 + s * 0) with err by lia.
          eapply (ahead_others ts i bs t v w); try eassumption; try lia;
            [exact (pw_diffs_asc _ _ G)|exact (pw_diffs_asc _ _ G2)|exact (pw_diffs_asc _ _ GG1)|exact (pw_diffs_asc _ _ GG2)].
      - destruct BT as [Hm OM].
        assert (DP : dates_pool (ts, j, bs, n0 :: l) = dates_pool (ts, i, bs, n0 :: l)) by (destruct i, j; cbn [own_more] in OM; try contradiction; reflexivity).
        assert (DS : distributes (ts, i, bs, n0 :: l) = false) by (destruct i, j; cbn [own_more] in OM; try contradiction; reflexivity).
        rewrite DS. change (if works (ts, i, bs, n0 :: l) then 1 else 0) with 1.
        pose proof (how_many_pos dates_pool b).
        destruct (ahead_own ts i j bs (n0 :: l) t v w m n z err p q v1 w1 m1 n1) as (g & Ag & Hg); try assumption; try lia.
        + eapply pool_wf_hist; exact G.
        + eapply c_dates; [exact Hn|exact G].
        + eapply pool_wf_hist; exact G2.
        + eapply c_dates; [exact Hn2|exact G2].
        + exact (mw_asc _ MM1).
        + exact (mw_asc _ MM2).
        + exact (pw_diffs_asc _ _ G).
        + exact (pw_diffs_asc _ _ G2).
        + exact (pw_diffs_asc _ _ GG1).
        + exact (pw_diffs_asc _ _ GG2).
        + rewrite DP. lia.
        + exists g. replace (err + (P16 - 1) * g + s * 0) with (err + (P16 - 1) * g) by lia. split; [exact Ag|exact Hg]. }
    destruct A1 as (g & A1 & Hg).
    destruct (IH Hs _ BF _ _ _ _ _ _ (day_start ts) _ _ W2 ltac:(lia) ltac:(lia) A1) as (g' & t' & A' & Hg').
    exists (g + g'), t'. split; [|lia].
    replace (z + (q + y1) - (p + x)) with ((z + q - p) + y1 - x) by lia.
    replace (err + (P16 - 1) * (g + g') + s * ((if distributes (ts, i, bs, l) then 1 else 0) + how_many distributes b))
      with (err + (P16 - 1) * g + s * (if distributes (ts, i, bs, l) then 1 else 0) + (P16 - 1) * g' + s * how_many distributes b) by lia.
    exact A'.
Qed.

Section env.
Context (e : env) (Henv : env_ok e).

Lemma full_log_app P k now L now1 L1 b x : full_log e P k now L now1 L1 b x -> forall now2 L2 c y, full_log e P k now1 L1 now2 L2 c y ->
  full_log e P k now L now2 L2 (b ++ c) (x + y).
Proof.
  induction 1; intros now2 L2 c y HC; [exact HC| |].
  - rewrite <- app_assoc, <- Z.add_assoc. econstructor; eauto.
  - eapply fl_ext; eauto.
Qed.
Lemma exec_lockups now ts ms i L L' r : reached e now L -> now <= ts -> ix_in_range i -> exec e ts ms i L = Ok (L', r) -> lockups (gist i).
Proof.
  intros HR Hts Hi X. pose proof (only_allowed e Henv now ts ms i L L' r HR Hts Hi X) as AL.
  assert (W : forall p, p <> LNone -> 0 < weight_of p) by (intros []; cbn; try lia; contradiction).
  destruct i; cbn [gist lockups]; try exact I; cbn [allowed] in AL.
  - destruct AL as (p & q & au & dm & u & x & D & [rs Hms] & SA & CD & (N & _)). apply W. exact N.
  - destruct AL as (p & q & au & dm & u & x & D & [rs Hms] & SA & [CD _] & CE). destruct CE as (_ & N & _). apply W. exact N.
Qed.

Lemma full_log_gwalk Q P k now0 L0 b0 now L now' L' b x : full_log e P k now L now' L' b x -> reached e now L ->
  forall d y, full_log e P k now0 L0 now L d y -> b0 = d ++ b -> whenever e P k now0 L0 b0 Q ->
  forall w m, is_pool e L P w -> is_mining e L k m -> exists w' m', is_pool e L' P w' /\ is_mining e L' k m' /\ gwalk Q now b w m x w' m'.
Proof.
  induction 1 as [now L O OM|now L ts ms i L1 r now' L' b x O OM Hts Hu Hi X HH HI IH|now L ts L1 now' L' b x O OM Hts Hu X HI IH];
    intros HR d y Hd Eb Hq w m Hw Hm; destruct (reached_ok e Henv _ _ HR) as (HL & _);
    pose proof (ok_pool e _ _ _ _ HL (proj1 Hw) (proj2 Hw)) as Wp; pose proof (ok_mining e _ _ _ _ HL (proj1 Hm) (proj2 Hm)) as Wm.
  - exists w, m. split; [assumption|]. split; [assumption|constructor; assumption].
  - pose proof (full_log_running e _ _ _ _ _ _ _ _ HI) as [RU OP]. pose proof RU as (w1 & Hw1 & T1). pose proof OP as (m1 & Hm1 & U1). pose proof O as (w0 & Hw0 & T0).
    rewrite (pool_fun e _ _ _ _ Hw0 Hw) in T0.
    pose proof (reached_exec e now ts ms i L L1 r HR Hts Hu Hi X) as HR1.
    assert (Hd1 : full_log e P k now0 L0 ts L1 (d ++ logged_with P k ts ms i) (y + takes k ms i r)).
    { eapply full_log_app; [exact Hd|]. rewrite <- (app_nil_r (logged_with P k ts ms i)), <- (Z.add_0_r (takes k ms i r)).
      eapply fl_ix; try eassumption. constructor; assumption. }
    destruct (IH HR1 _ _ Hd1 ltac:(rewrite <- app_assoc; exact Eb) Hq w1 m1 Hw1 Hm1) as (w' & m' & Hw' & Hm' & PS). exists w', m'. split; [assumption|]. split; [assumption|].
    pose proof (exec_step e Henv now ts ms i L L1 r P k w w1 m m1 HR Hts Hi X Hw T0 Hw1 Hm Hm1 U1 HH) as E.
    destruct (logged_with P k ts ms i) as [|z t] eqn:En.
    { destruct E as (-> & E1 & E2). rewrite E1, E2 in PS. eapply gwalk_earlier; [exact PS|exact Hts|exact Wp]. }
    assert (Z : z = (ts, gist i, delegates ms i, places k ms i) /\ names ms (pool_position i) P = true).
    { unfold logged_with in En. destruct (names _ _ _); [|discriminate]. split; [|reflexivity]. destruct (writes_pool i), (places k ms i); congruence. }
    destruct Z as [-> Np]. pose proof (logged_with_short _ _ _ _ _ _ _ En) as ->. cbn [app] in *.
    econstructor; [exact Wp|exact Wm|exact Hts|unfold is_u64 in Hu; lia|exact (reached_logged e Henv now L HR P w Hw)
      |exact (exec_lockups _ _ _ _ _ _ _ HR Hts Hi X)|exact (gist_amounts _ Hi)| |exact E|exact PS].
    intros Eg. split; [exact (exec_sound_pool e Henv _ _ _ _ _ _ _ _ _ HR Hts Hi X Hw Np Eg)|].
    rewrite Eg in Eb. eapply Hq; [exact Eb|exact Hd|exact Hw|exact Hm].
  - destruct (full_log_running e _ _ _ _ _ _ _ _ HI) as [RU OP]. pose proof RU as (w1 & Hw1 & T1). pose proof OP as (m1 & Hm1 & U1).
    pose proof (ext_pool e _ _ _ _ _ X Hw Hw1) as ->. pose proof (ext_mining e _ _ _ _ _ X Hm Hm1) as ->.
    assert (Hd1 : full_log e P k now0 L0 ts L1 d y).
    { rewrite <- (app_nil_r d), <- (Z.add_0_r y). eapply full_log_app; [exact Hd|]. eapply fl_ext; try eassumption. constructor; assumption. }
    destruct (IH (ext_reached e _ _ _ _ HR Hts Hu X) _ _ Hd1 Eb Hq w m Hw1 Hm1) as (w' & m' & Hw' & Hm' & PS).
    exists w', m'. split; [assumption|]. split; [assumption|]. eapply gwalk_earlier; [exact PS|exact Hts|exact Wp].
Qed.
End env.

Lemma own_stake e1 e2 : env_ok e1 -> env_ok e2 -> forall P1 P2 k1 k2 now1 L1 now1' L1' now2 L2 now2' L2' b c x y v w v' w' m n m' n' s,
  reached e1 now1 L1 -> reached e2 now2 L2 ->
  full_log e1 P1 k1 now1 L1 now1' L1' b x -> full_log e2 P2 k2 now2 L2 now2' L2' c y -> Forall2 staking_more b c ->
  0 <= s -> whenever e1 P1 k1 now1 L1 b (fun ts _ m => 0 <= eff m (day_start ts) <= s) ->
  whenever e2 P2 k2 now2 L2 c (fun ts w n => eff n (day_start ts) <= all w (day_start ts)) ->
  is_pool e1 L1 P1 v -> is_pool e2 L2 P2 w -> is_mining e1 L1 k1 m -> is_mining e2 L2 k2 n -> stakes_more (day_start now1) v w m n ->
  Z.of_nat (length (wp_diffs v)) + how_many dates_pool b <= 365 ->
  is_pool e1 L1' P1 v' -> is_pool e2 L2' P2 w' -> is_mining e1 L1' k1 m' -> is_mining e2 L2' k2 n' ->
  P16 * y + owed (wp_ci w') n' <= P16 * x + owed (wp_ci v') m' +
    (P16 - 1) * (how_many works b + how_many opens b + Z.of_nat (length (wm_diffs m))) + s * how_many distributes b /\
  forall d, eff n' d <= eff m' d.
Proof.
  intros H1 H2 P1 P2 k1 k2 now1 L1 now1' L1' now2 L2 now2' L2' b c x y v w v' w' m n m' n' s R1 R2 D1 D2 B Hs Q1 Q2 V W M N A RM V' W' M' N'.
  destruct (full_log_running _ _ _ _ _ _ _ _ _ D1) as [RU1 OP1]. destruct (full_log_running _ _ _ _ _ _ _ _ _ D2) as [RU2 OP2].
  destruct (full_log_gwalk e1 H1 _ _ _ now1 L1 b _ _ _ _ _ _ D1 R1 [] 0 (fl_nil _ _ _ _ _ RU1 OP1) eq_refl Q1 v m V M) as (v1 & m1 & X1 & Y1 & S1).
  rewrite (pool_fun e1 _ _ _ _ X1 V'), (mining_fun e1 _ _ _ _ Y1 M') in S1.
  destruct (full_log_gwalk e2 H2 _ _ _ now2 L2 c _ _ _ _ _ _ D2 R2 [] 0 (fl_nil _ _ _ _ _ RU2 OP2) eq_refl Q2 w n W N) as (w1 & n1 & X2 & Y2 & S2).
  rewrite (pool_fun e2 _ _ _ _ X2 W'), (mining_fun e2 _ _ _ _ Y2 N') in S2.
  destruct A as [E1 E2 E3 E4 E5 E6 E7 E8 E9 E10 E11].
  assert (A0 : ahead (day_start now1) v w m n 0 0) by (constructor; try assumption; lia).
  destruct (gwalks_ahead s _ _ _ _ _ _ _ S1 Hs _ B _ _ _ _ _ _ _ _ _ S2 RM (Z.le_refl _) A0) as (g & t' & A' & Hg).
  destruct A' as [F1 F2 F3 F4 F5 F6 F7 F8 F9 F10 F11]. split; [lia|]. intros d. rewrite !eff_own. specialize (F2 d). lia.
Qed.
Lemma stakes_same t w m : m_index (wm m) <= last_from 0 (wp_ci w) -> stakes_more t w w m m.
Proof. intros H. constructor; try reflexivity; try (intros; lia); assumption. Qed.
