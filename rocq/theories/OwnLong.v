(** Proofs of C89: longer lockups of one's own in the same pool. *)
From stdpp Require Import gmap.
From Verif Require Import Base OMap State Spec EffectSpec Ledger Program ResLemmas TreeLemmas AccrualLemmas RefreshLemmas WfLemmas LedgerLemmas LedgerSpec
  CodecLemmas History HistoryLemmas Changes AccessLemmas HistoryThms ReachThms EffectLemmas EffectMethods EffectThms EffectMore
  SuccessSpec SuccessThms LedgerCore Determined Commute CompleteSpec Complete PowerSpec Powers FreezeSpec Choice GapSpec Gap CapSpec Cap
  CoreInv DustSpec DebtSpec Debt IncomeSpec Income DiarySpec Diary LogSpec Log CompareSpec Compare LongerSpec Longer OwnSpec Own OwnLongSpec.

Local Notation P16 := 10000000000000000.

(** ** Pools *)
Definition level (v w v' w' : wpool) : Prop :=
  p_avail (wp v') = p_avail (wp w') /\ p_ends_at (wp v') = p_ends_at (wp w') /\ wp_ci v' = wp_ci v /\ wp_ci w' = wp_ci w.
Lemma totals_level v w v' w' : p_avail (wp v) = p_avail (wp w) -> p_ends_at (wp v) = p_ends_at (wp w) -> only_total v v' -> only_total w w' -> level v w v' w'.
Proof.
  intros A E (_ & _ & _ & _ & _ & E1 & A1 & _ & _ & C1) (_ & _ & _ & _ & _ & E2 & A2 & _ & _ & C2).
  split; [congruence|]. split; [congruence|]. split; assumption.
Qed.
Lemma lost_pos cap d x t k : 0 <= x -> 0 <= GapSpec.lost cap d x t k.
Proof. intros H. unfold GapSpec.lost. destruct (_ || _); [lia|]. destruct (d <=? k); lia. Qed.
Lemma bonus_pos p x : 0 < weight_of p -> 0 <= x -> 0 <= x * (weight_of p - 1).
Proof. destruct p; cbn [weight_of]; lia. Qed.

(** the same call of somebody else, with a place for its date in the first schedule *)
Lemma others_level ts i b l v w v' w' : p_avail (wp v) = p_avail (wp w) -> p_ends_at (wp v) = p_ends_at (wp w) ->
  ascending (wp_diffs v) -> ascending (wp_diffs w) -> ascending (wp_diffs v') -> ascending (wp_diffs w') -> lockups i -> plus i ->
  Z.of_nat (length (wp_diffs v)) + (if dates_pool (ts, i, b, l) then 1 else 0) <= 365 ->
  i <> DistributeRewards -> pstep (ts, i, b) v v' -> pstep (ts, i, b) w w' ->
  level v w v' w' /\ forall d, day_start ts <= d -> all v' d - all v d <= all w' d - all w d.
Proof.
  intros A E A1 A2 A1' A2' LK PL RM ND P1 P2.
  assert (Same : v' = v -> w' = w -> level v w v' w' /\ forall d, day_start ts <= d -> all v' d - all v d <= all w' d - all w d).
  { intros -> ->. split; [split; [assumption|split; [assumption|split; reflexivity]]|]. intros d _. lia. }
  destruct i; cbn [pstep] in P1, P2; try (apply Same; assumption); try contradiction; cbn [lockups plus dates_pool] in *.
  - (* FillVault *)
    subst. unfold level. cbn [filled wp_diffs wp p_avail p_ends_at wp_ci]. split; [|intros d _; unfold all; cbn; lia].
    split; [lia|]. split; [reflexivity|]. split; reflexivity.
  - (* DepositMining *)
    destruct P1 as (O1 & T1 & S1 & _), P2 as (O2 & T2 & S2 & _). split; [exact (totals_level _ _ _ _ A E O1 O2)|].
    intros d _. unfold all. rewrite T1, T2, (scheduled_exact _ _ _ _ _ d A1 A1' S1), (scheduled_exact _ _ _ _ _ d A2 A2' S2), (lost_room 365 _ _ (wp_diffs v)) by lia.
    pose proof (lost_pos 365 (expiry period ts) _ (wp_diffs w) d (bonus_pos _ _ LK PL)). lia.
  - (* WithdrawMining *)
    destruct P1 as (O1 & T1 & S1), P2 as (O2 & T2 & S2). split; [exact (totals_level _ _ _ _ A E O1 O2)|].
    intros d Hd. unfold all. rewrite T1, T2, S1, S2, !due_late, Z.max_l by lia. lia.
  - (* ExtendStake *)
    destruct P1 as (O1 & T1 & S1 & _), P2 as (O2 & T2 & S2 & _). split; [exact (totals_level _ _ _ _ A E O1 O2)|].
    intros d _. unfold all. rewrite T1, T2, (scheduled_exact _ _ _ _ _ d A1 A1' S1), (scheduled_exact _ _ _ _ _ d A2 A2' S2), (lost_room 365 _ _ (wp_diffs v)) by lia.
    pose proof (lost_pos 365 (expiry new_period ts) _ (wp_diffs w) d (bonus_pos _ _ LK PL)). lia.
  - (* ChangeDelegate *)
    destruct P1 as (O1 & S1 & T1), P2 as (O2 & S2 & T2). split; [exact (totals_level _ _ _ _ A E O1 O2)|].
    intros d Hd. unfold all. rewrite T1, T2, S1, S2. lia.
  - (* Slash *)
    destruct P1 as (O1 & T1 & S1), P2 as (O2 & T2 & S2). split; [exact (totals_level _ _ _ _ A E O1 O2)|]. intros d Hd. unfold all.
    match type of S1 with match ?d with _ => _ end => destruct d as [u|] end.
    + rewrite (lowered_less _ _ _ _ d (ascending_after _ _ A1) S1), (lowered_less _ _ _ _ d (ascending_after _ _ A2) S2), T1, T2, !due_late, Z.max_l by lia. lia.
    + rewrite T1, T2, S1, S2, !due_late, Z.max_l by lia. lia.
Qed.

(** ** One step of both *)
Record ahead_of (t : Z) (v w : wpool) (m n : wmining) (z err : Z) : Prop := {
  ao_own : forall d, own n d <= own m d;
  ao_sfo : m_sfo (wm n) <= m_sfo (wm m);
  ao_rest : forall d, t <= d -> all v d - eff m d <= all w d - eff n d;
  ao_avail : p_avail (wp v) = p_avail (wp w);
  ao_ends : p_ends_at (wp v) = p_ends_at (wp w);
  ao_days : map fst (wp_ci v) = map fst (wp_ci w);
  ao_index : m_index (wm m) <= last_from 0 (wp_ci v);
  ao_index' : m_index (wm n) <= last_from 0 (wp_ci w);
  ao_owed : P16 * z + owed (wp_ci w) n <= owed (wp_ci v) m + err }.

Lemma ahead_of_others ts i b l t v w m n z err v' w' : ahead_of t v w m n z err -> t <= day_start ts -> i <> DistributeRewards ->
  ascending (wp_diffs v) -> ascending (wp_diffs w) -> ascending (wp_diffs v') -> ascending (wp_diffs w') -> lockups i -> plus i ->
  Z.of_nat (length (wp_diffs v)) + (if dates_pool (ts, i, b, l) then 1 else 0) <= 365 ->
  pstep (ts, i, b) v v' -> pstep (ts, i, b) w w' -> ahead_of (day_start ts) v' w' m n z err.
Proof.
  intros [O S R A E C I I' U] Ht ND A1 A2 A1' A2' LK PL RM P1 P2.
  destruct (others_level ts i b l v w v' w' A E A1 A2 A1' A2' LK PL RM ND P1 P2) as [(A' & E' & C1 & C2) F].
  constructor; try assumption; rewrite ?C1, ?C2; try assumption.
  intros d Hd. specialize (F d Hd). specialize (R d ltac:(lia)). lia.
Qed.

(** a mining's schedule grows only where a date is written *)
Lemma page_length ts i l ci m p m' : ascending (wm_diffs m) -> ascending (wm_diffs m') -> page (ts, i, l, ci) m p m' ->
  Z.of_nat (length (wm_diffs m')) <= Z.of_nat (length (wm_diffs m)) + adds i l.
Proof.
  intros A A' P.
  assert (LE : forall x x1, refreshed ts ci x x1 -> Z.of_nat (length (wm_diffs x1)) <= Z.of_nat (length (wm_diffs x))).
  { intros x x1 R. rewrite (rf_diffs _ _ _ _ R). pose proof (length_after (day_start ts) (wm_diffs x)). lia. }
  unfold adds, opens. destruct i; cbn [page] in P; try contradiction; change (existsb (Nat.eqb 1) l) with (here 1 l).
  - destruct P as [_ P]. destruct (here 1 l).
    + destruct P as (m1 & R & _ & _ & S & _). pose proof (LE _ _ R). pose proof (scheduled_length _ _ _ _ _ (refreshed_asc _ _ _ _ A R) A' S). lia.
    + apply LE in P. cbn [with_delegated wm_diffs] in P. lia.
  - destruct P as [_ P]. destruct (here 1 l).
    + destruct P as (m1 & R & _ & _ & ->). pose proof (LE _ _ R). lia.
    + apply LE in P. cbn [with_delegated wm_diffs] in P. lia.
  - destruct P as (m1 & R & _ & ->). pose proof (LE _ _ R). cbn [emptied wm_diffs]. lia.
  - destruct P as [_ P]. destruct (here 1 l).
    + destruct P as (m1 & t & R & _ & _ & T & S & _). pose proof (LE _ _ R). pose proof (refreshed_asc _ _ _ _ A R) as A1.
      assert (map fst t = map fst (wm_diffs m1)) as K by (destruct (unexpired _ _ _); [apply T|rewrite T; reflexivity]).
      assert (ascending t) as At by (eapply ascending_keys; [symmetry; exact K|exact A1]). apply keys_length in K.
      pose proof (scheduled_length _ _ _ _ _ At A' S). lia.
    + destruct P as (z & R & ->). apply LE in R. cbn [with_delegated wm_diffs] in *. lia.
  - destruct P as [_ P]. destruct (here 1 l); [apply LE in P; lia|]. destruct (here 4 l); apply LE in P; cbn [with_delegated wm_diffs] in P; lia.
  - destruct P as [_ (m1 & R & _ & _ & T)]. pose proof (LE _ _ R). destruct expiration as [u|]; [|rewrite T; lia].
    destruct T as (_ & _ & K & _). apply keys_length in K. lia.
  - destruct P as [_ (_ & _ & K & _)]. apply keys_length in K. lia.
Qed.

Lemma ahead_of_own ts i j b l t v w m n z err p1 p2 v' w' m' n' :
  ahead_of t v w m n z err -> t <= day_start ts -> day_start ts < ts -> own_longer b l i j -> lockups i -> plus i -> lockups j -> plus j ->
  hist_ok (wp_ci v) -> dates (fun k => k <= day_start ts) (wp_ci v) -> hist_ok (wp_ci w) -> dates (fun k => k <= day_start ts) (wp_ci w) ->
  mining_wf m -> mining_wf n -> ascending (wm_diffs m') -> ascending (wm_diffs n') ->
  ascending (wp_diffs v) -> ascending (wp_diffs w) -> ascending (wp_diffs v') -> ascending (wp_diffs w') ->
  Z.of_nat (length (wp_diffs v)) + (if dates_pool (ts, i, b, l) then 1 else 0) <= 365 -> Z.of_nat (length (wm_diffs n)) + adds j l <= 50 ->
  pstep (ts, i, b) v v' -> pstep (ts, j, b) w w' -> page (ts, i, l, wp_ci v) m p1 m' -> page (ts, j, l, wp_ci w) n p2 n' ->
  exists g, ahead_of (day_start ts) v' w' m' n' (z + p2 - p1) (err + (P16 - 1) * g) /\
    g + Z.of_nat (length (wm_diffs m')) <= Z.of_nat (length (wm_diffs m)) + 1 + adds i l.
Proof.
  intros [O S R A E C I I' U] Ht Hnm OM LI PI LK PJ Hv Dv Hw Dw M N Am' An' Av Aw Av' Aw' RM RN P1 P2 G1 G2.
  assert (AD : forall i, 0 <= adds i l) by (intros k; unfold adds; destruct (opens _); lia).
  assert (Hgv : growing 0 (wp_ci v)) by apply Hv. assert (Hgw : growing 0 (wp_ci w)) by apply Hw.
  assert (Jm : 0 <= m_index (wm m)) by exact (mo_index _ (mining_wf_min _ M)). assert (Jn : 0 <= m_index (wm n)) by exact (mo_index _ (mining_wf_min _ N)).
  assert (RK : forall m1 n1, refreshed ts (wp_ci v) m m1 -> refreshed ts (wp_ci w) n n1 ->
    Z.of_nat (length (wm_diffs n1)) <= Z.of_nat (length (wm_diffs n)) /\ (forall d, own n1 d <= own m1 d) /\ ascending (wm_diffs m1) /\ ascending (wm_diffs n1)).
  { intros m1 n1 R1 R2. split; [rewrite (rf_diffs _ _ _ _ R2); pose proof (length_after (day_start ts) (wm_diffs n)); lia|].
    split; [intros d; rewrite (own_refreshed _ _ _ _ d R1), (own_refreshed _ _ _ _ d R2); apply O|].
    split; [exact (refreshed_asc _ _ _ _ (mw_asc _ M) R1)|exact (refreshed_asc _ _ _ _ (mw_asc _ N) R2)]. }
  assert (FIN : forall m1 n1 a1 a2, refreshed ts (wp_ci v) m m1 -> refreshed ts (wp_ci w) n n1 ->
    m_index (wm m') = m_index (wm m1) -> m_index (wm n') = m_index (wm n1) -> m_sfo (wm m') = m_sfo (wm m1) -> m_sfo (wm n') = m_sfo (wm n1) ->
    m_unclaimed (wm m1) = m_unclaimed (wm m') + a1 -> m_unclaimed (wm n1) = m_unclaimed (wm n') + a2 ->
    level v w v' w' -> (forall d, own n' d <= own m' d) ->
    (forall d, day_start ts <= d -> all v' d - all v d - (own m' d - own m1 d) <= all w' d - all w d - (own n' d - own n1 d)) ->
    Z.of_nat (length (wm_diffs m')) <= Z.of_nat (length (wm_diffs m1)) + adds i l ->
    exists g, ahead_of (day_start ts) v' w' m' n' (z + a2 - a1) (err + (P16 - 1) * g) /\
      g + Z.of_nat (length (wm_diffs m')) <= Z.of_nat (length (wm_diffs m)) + 1 + adds i l).
  { intros m1 n1 a1 a2 R1 R2 I1 I2 S1 S2 U1 U2 (A' & E' & C1 & C2) OO RR LL. exists (segments ts m).
    destruct (refreshed_owed _ _ Hv Dv _ _ Jm R1) as (q1 & Q1 & W1 & X1 & _). destruct (refreshed_owed _ _ Hw Dw _ _ Jn R2) as (q2 & Q2 & W2 & X2 & _).
    pose proof (refreshed_length _ _ _ _ R1) as RL.
    destruct (nothing_left ts _ m1 Hgv Dv Hnm X1) as [_ Z1]. destruct (nothing_left ts _ n1 Hgw Dw Hnm X2) as [_ Z2].
    rewrite <- I1 in X1. rewrite <- I2 in X2.
    destruct (nothing_left ts _ m' Hgv Dv Hnm X1) as [Y1 Z1']. destruct (nothing_left ts _ n' Hgw Dw Hnm X2) as [Y2 Z2'].
    split; [|lia]. constructor; rewrite ?C1, ?C2; try assumption; try lia.
    - rewrite S1, S2, (rf_sfo _ _ _ _ R1), (rf_sfo _ _ _ _ R2). exact S.
    - intros d Hd. specialize (RR d Hd). specialize (R d ltac:(lia)). rewrite !eff_own in *. rewrite S1, S2, (rf_sfo _ _ _ _ R1), (rf_sfo _ _ _ _ R2).
      rewrite (own_refreshed _ _ _ _ d R1), (own_refreshed _ _ _ _ d R2), Z.max_l in RR by lia. lia.
    - rewrite Z1', Z2'. change (1 + count_due (day_start ts) (wm_diffs m)) with (segments ts m) in Q1. lia. }
  assert (STK : forall m1 n1, refreshed ts (wp_ci v) m m1 -> refreshed ts (wp_ci w) n n1 -> only_stake m1 m' -> only_stake n1 n' ->
    level v w v' w' -> (forall d, own n' d <= own m' d) ->
    (forall d, day_start ts <= d -> all v' d - all v d - (own m' d - own m1 d) <= all w' d - all w d - (own n' d - own n1 d)) ->
    Z.of_nat (length (wm_diffs m')) <= Z.of_nat (length (wm_diffs m1)) + adds i l ->
    exists g, ahead_of (day_start ts) v' w' m' n' (z + 0 - 0) (err + (P16 - 1) * g) /\
      g + Z.of_nat (length (wm_diffs m')) <= Z.of_nat (length (wm_diffs m)) + 1 + adds i l).
  { intros m1 n1 R1 R2 (_ & I1 & U1 & S1) (_ & I2 & U2 & S2) B OO RR LL.
    eapply FIN; try eassumption; lia. }
  destruct i, j; cbn [own_longer own_more] in OM; try contradiction; cbn [pstep] in P1, P2; cbn [page] in G1, G2.
  - (* DepositMining *)
    destruct OM as (H1 & NS & Ha & Hb). apply here_in in H1. rewrite H1 in *. destruct G1 as [-> (m1 & R1 & O1 & E1 & S1 & _)], G2 as [-> (n1 & R2 & O2 & E2 & S2 & _)].
    destruct P1 as (Q1 & T1 & Y1 & _), P2 as (Q2 & T2 & Y2 & _). destruct (RK _ _ R1 R2) as (K1 & OO & B1 & B2).
    cbn [lockups plus dates_pool] in *. unfold adds, opens in RN. change (existsb (Nat.eqb 1) l) with (here 1 l) in RN. rewrite H1 in RN. pose proof (scheduled_length _ _ _ _ _ B1 Am' S1) as SL.
    eapply STK; [exact R1|exact R2|exact O1|exact O2|exact (totals_level _ _ _ _ A E Q1 Q2)| | |].
    + intros d. specialize (OO d). unfold own in *.
      pose proof (locked_more _ _ _ _ _ _ _ _ _ _ NS (conj PJ Ha) B1 B2 Am' An' ltac:(lia) S1 S2 d). rewrite E1, E2. lia.
    + intros d Hd. unfold all, own. rewrite T1, T2, E1, E2.
      rewrite (scheduled_exact _ _ _ _ _ d Av Av' Y1), (scheduled_exact _ _ _ _ _ d Aw Aw' Y2), (scheduled_exact _ _ _ _ _ d B1 Am' S1), (scheduled_exact _ _ _ _ _ d B2 An' S2).
      rewrite (lost_room 365 _ _ (wp_diffs v)), (lost_room 50 _ _ (wm_diffs n1)) by lia. rewrite (there b amount amount0 Hb).
      pose proof (lost_pos 50 (expiry period ts) _ (wm_diffs m1) d (bonus_pos _ _ LI PI)). pose proof (lost_pos 365 (expiry period0 ts) _ (wp_diffs w) d (bonus_pos _ _ LK PJ)).
      lia.
    + unfold adds, opens. change (existsb (Nat.eqb 1) l) with (here 1 l). rewrite H1. lia.
  - (* WithdrawMining *)
    destruct OM as (H1 & Ha & Hb). apply here_in in H1. rewrite H1 in *. destruct G1 as [-> (m1 & R1 & O1 & E1 & S1)], G2 as [-> (n1 & R2 & O2 & E2 & S2)].
    destruct P1 as (Q1 & T1 & Y1), P2 as (Q2 & T2 & Y2). destruct (RK _ _ R1 R2) as (K1 & OO & B1 & B2).
    eapply STK; [exact R1|exact R2|exact O1|exact O2|exact (totals_level _ _ _ _ A E Q1 Q2)| | |].
    + intros d. specialize (OO d). unfold own in *. rewrite S1, S2, E1, E2. lia.
    + intros d Hd. unfold all, own. rewrite T1, T2, E1, E2, S1, S2, Y1, Y2, !due_late, Z.max_l, (there b amount amount0 Hb) by lia. lia.
    + rewrite S1. pose proof (AD (WithdrawMining amount mining_owner delegate)). lia.
  - (* Claim *)
    destruct G1 as (m1 & R1 & -> & ->), G2 as (n1 & R2 & -> & ->). subst v' w'. destruct (RK _ _ R1 R2) as (K1 & OO & B1 & B2).
    eapply (FIN m1 n1); try assumption; try reflexivity; try (cbn [emptied wm m_unclaimed]; lia).
    + split; [exact A|]. split; [exact E|]. split; reflexivity.
    + intros d Hd. change (own (emptied m1) d) with (own m1 d). change (own (emptied n1) d) with (own n1 d). lia.
    + cbn [emptied wm_diffs]. pose proof (AD Claim). lia.
  - (* ExtendStake *)
    destruct OM as (H1 & <- & NS & <- & <- & Ha & Hb). apply here_in in H1. rewrite H1 in *.
    destruct G1 as [-> (m1 & t1 & R1 & O1 & E1 & L1 & S1 & _)], G2 as [-> (n1 & t2 & R2 & O2 & E2 & L2 & S2 & _)].
    destruct P1 as (Q1 & T1 & Y1 & _), P2 as (Q2 & T2 & Y2 & _). destruct (RK _ _ R1 R2) as (K1 & OO & B1 & B2).
    assert (LL : map fst t1 = map fst (wm_diffs m1) /\ map fst t2 = map fst (wm_diffs n1) /\ ascending t1 /\ ascending t2 /\
        exists h : Z -> Z, forall d, Spec.due d t1 = Spec.due d (wm_diffs m1) - h d /\ Spec.due d t2 = Spec.due d (wm_diffs n1) - h d).
    { destruct (unexpired _ _ ts).
      - pose proof L1 as (_ & _ & X1 & _). pose proof L2 as (_ & _ & X2 & _). split; [exact X1|]. split; [exact X2|].
        split; [eapply ascending_keys; [symmetry; exact X1|exact B1]|]. split; [eapply ascending_keys; [symmetry; exact X2|exact B2]|].
        eexists (fun d => if _ <=? d then _ else 0). intros d. split; [exact (lowered_less _ _ _ _ d B1 L1)|exact (lowered_less _ _ _ _ d B2 L2)].
      - subst. split; [reflexivity|]. split; [reflexivity|]. split; [exact B1|]. split; [exact B2|]. exists (fun _ => 0). intros d. lia. }
    destruct LL as (X1 & X2 & C1 & C2 & h & HL). pose proof (keys_length _ _ X1) as X1l. pose proof (keys_length _ _ X2) as X2l.
    cbn [lockups plus dates_pool] in *. unfold adds, opens in RN. change (existsb (Nat.eqb 1) l) with (here 1 l) in RN. rewrite H1 in RN. pose proof (scheduled_length _ _ _ _ _ C1 Am' S1) as SL.
    eapply STK; [exact R1|exact R2|exact O1|exact O2|exact (totals_level _ _ _ _ A E Q1 Q2)| | |].
    + intros d. destruct (HL d) as [W1 W2]. specialize (OO d). unfold own in *. assert (HH : 0 <= base + additional0 <= base + additional) by lia.
      pose proof (locked_more _ _ _ _ _ _ _ _ _ _ NS HH C1 C2 Am' An' ltac:(lia) S1 S2 d). rewrite E1, E2. lia.
    + intros d Hd. destruct (HL d) as [W1 W2]. unfold all, own. rewrite T1, T2, E1, E2.
      rewrite (scheduled_exact _ _ _ _ _ d Av Av' Y1), (scheduled_exact _ _ _ _ _ d Aw Aw' Y2), (scheduled_exact _ _ _ _ _ d C1 Am' S1), (scheduled_exact _ _ _ _ _ d C2 An' S2), W1, W2.
      rewrite (lost_room 365 _ _ (wp_diffs v)), (lost_room 50 _ _ t2) by lia. rewrite (there b additional additional0 Hb).
      pose proof (lost_pos 50 (expiry new_period ts) _ t1 d (bonus_pos _ _ LI PI)). pose proof (lost_pos 365 (expiry new_period0 ts) _ (wp_diffs w) d (bonus_pos _ _ LK PJ)).
      lia.
    + unfold adds, opens. change (existsb (Nat.eqb 1) l) with (here 1 l). rewrite H1. lia.
  - (* ChangeDelegate *)
    destruct OM as (H1 & <-). apply here_in in H1. rewrite H1 in *. destruct G1 as [-> R1], G2 as [-> R2].
    destruct P1 as (Q1 & Y1 & T1), P2 as (Q2 & Y2 & T2). destruct (RK _ _ R1 R2) as (K1 & OO & B1 & B2).
    eapply (FIN m' n'); try assumption; try reflexivity; try lia.
    + exact (totals_level _ _ _ _ A E Q1 Q2).
    + intros d Hd. unfold all. rewrite T1, T2, Y1, Y2. lia.
    + pose proof (AD (ChangeDelegate staked_amount new_delegate)). lia.
  - (* Slash *)
    destruct OM as (<- & Hn & Hwt). destruct G1 as [-> (m1 & R1 & O1 & E1 & S1)], G2 as [-> (n1 & R2 & O2 & E2 & S2)].
    destruct P1 as (Q1 & T1 & Y1), P2 as (Q2 & T2 & Y2). destruct (RK _ _ R1 R2) as (K1 & OO & B1 & B2).
    match type of S1 with match ?d with _ => _ end => destruct d as [u|] end.
    + pose proof Y1 as (_ & _ & X1 & _). pose proof Y2 as (_ & _ & X2 & _). pose proof S1 as (_ & _ & X3 & _). pose proof S2 as (_ & _ & X4 & _).
      eapply STK; [exact R1|exact R2|exact O1|exact O2|exact (totals_level _ _ _ _ A E Q1 Q2)| | |].
      * intros d. specialize (OO d). unfold own in *. rewrite (lowered_less _ _ _ _ d B1 S1), (lowered_less _ _ _ _ d B2 S2), E1, E2. destruct (_ <=? d); lia.
      * intros d Hd. unfold all, own. rewrite (lowered_less _ _ _ _ d B1 S1), (lowered_less _ _ _ _ d B2 S2), E1, E2.
        rewrite (lowered_less _ _ _ _ d (ascending_after _ _ Av) Y1), (lowered_less _ _ _ _ d (ascending_after _ _ Aw) Y2), T1, T2, !due_late, Z.max_l by lia. lia.
      * apply keys_length in X3. rewrite X3. pose proof (AD (Slash mining_owner native weighted (Some u))). lia.
    + eapply STK; [exact R1|exact R2|exact O1|exact O2|exact (totals_level _ _ _ _ A E Q1 Q2)| | |].
      * intros d. specialize (OO d). unfold own in *. rewrite S1, S2, E1, E2. lia.
      * intros d Hd. unfold all, own. rewrite T1, T2, E1, E2, S1, S2, Y1, Y2, !due_late, Z.max_l by lia. lia.
      * rewrite S1. pose proof (AD (Slash mining_owner native weighted None)). lia.
Qed.

Lemma ahead_of_distribute ts b t v w m n z err v' w' s :
  ahead_of t v w m n z err -> t <= day_start ts -> hist_ok (wp_ci v) -> hist_ok (wp_ci w) ->
  (Z.of_nat (length (wp_ci v)) < 1095 -> p_index (wp v) = last_from 0 (wp_ci v)) ->
  (Z.of_nat (length (wp_ci w)) < 1095 -> p_index (wp w) = last_from 0 (wp_ci w)) ->
  can_distribute ts v -> can_distribute ts w -> 0 <= p_avail (wp v) ->
  0 <= eff m (day_start ts) <= s -> eff n (day_start ts) <= all w (day_start ts) ->
  pstep (ts, DistributeRewards, b) v v' -> pstep (ts, DistributeRewards, b) w w' -> ahead_of (day_start ts) v' w' m n z (err + s).
Proof.
  intros [O S R A E C I I' U] Ht Hv Hw Lv Lw Cv Cw Av Hs Hc P1 P2.
  assert (DY : map fst (wp_ci v') = map fst (wp_ci w')).
  { eapply (pstep_days ts DistributeRewards DistributeRewards b b); [split; reflexivity|exact C|exact P1|exact P2]. }
  cbn [pstep] in P1, P2.
  assert (RC : recorded ts v = recorded ts w).
  { unfold recorded. rewrite <- !existsb_map_fst, C. reflexivity. }
  assert (UF : unfilled v = unfilled w) by (unfold unfilled; rewrite (keys_length _ _ C); reflexivity).
  assert (PT : part ts v = part ts w) by (unfold part; rewrite A, E; reflexivity).
  assert (PP : 0 <= part ts w) by (rewrite <- PT; apply part_pos; exact Av).
  assert (RR : 0 <= rise ts v /\ 0 <= rise ts w /\ rise ts w * eff n (day_start ts) <= rise ts v * eff m (day_start ts) + s).
  { unfold rise. rewrite RC, UF, PT. pose proof (recorded_iff ts w) as HR. pose proof (recorded_iff ts v) as HV. rewrite RC in HV.
    destruct (recorded ts w); [lia|]. destruct (unfilled w); [|lia].
    destruct Cv as (_ & _ & [Cv|[Cv _]]); [apply HV in Cv; discriminate|]. destruct Cw as (_ & _ & [Cw|[Cw _]]); [apply HR in Cw; discriminate|].
    fold (net ts v) in Cv. fold (net ts w) in Cw.
    split; [apply Z.div_pos; lia|]. split; [apply Z.div_pos; lia|].
    assert (eff n (day_start ts) <= eff m (day_start ts)) by (rewrite !eff_own; specialize (O (day_start ts)); lia).
    specialize (R (day_start ts) Ht). unfold all in R, Hc. fold (net ts v) in R. fold (net ts w) in R, Hc.
    pose proof (share_more (eff m (day_start ts)) (eff n (day_start ts)) (net ts v) (net ts w) (P16 * part ts w)). lia. }
  destruct RR as (R1 & R2 & R3).
  destruct (book_distribution _ ts v v' m Hv P1 eq_refl Lv) as (q1 & B1 & W1). destruct (book_distribution _ ts w w' n Hw P2 eq_refl Lw) as (q2 & B2 & W2).
  rewrite (rise_eq ts v _ Hv R1 I) in W1. rewrite (rise_eq ts w _ Hw R2 I') in W2.
  pose proof (distributed_last ts v v' Lv R1 P1) as V1. pose proof (distributed_last ts w w' Lw R2 P2) as V2.
  destruct P1 as (X1 & T1 & S1 & Y1 & N1), P2 as (X2 & T2 & S2 & Y2 & N2).
  constructor; try assumption; try lia.
  - intros d Hd. specialize (R d ltac:(lia)). unfold all in *. rewrite T1, T2, S1, S2, !due_late, Z.max_l by lia. lia.
  - destruct (date_or_not (day_start ts) (wp_ci v)) as [HD|HD].
    + destruct (Y1 HD) as (_ & _ & ->). destruct (Y2 (proj1 (has_keys _ _ _ C) HD)) as (_ & _ & ->). exact A.
    + destruct (N1 HD) as (_ & -> & _). destruct (N2 (fun H => HD (proj2 (has_keys _ _ _ C) H))) as (_ & -> & _). rewrite A, E. reflexivity.
  - destruct X1 as (_ & _ & _ & _ & -> & _), X2 as (_ & _ & _ & _ & -> & _). exact E.
Qed.

Lemma gwalks_longer s now b1 v m x v' m' : gwalk (fun ts v m => 0 <= eff m (day_start ts) <= s) now b1 v m x v' m' -> 0 <= s ->
  forall b2, Forall2 staking_longer b1 b2 ->
  forall now2 w n y w' n' t z err, gwalk (fun ts w n => eff n (day_start ts) <= all w (day_start ts)) now2 b2 w n y w' n' ->
  Z.of_nat (length (wp_diffs v)) + how_many dates_pool b1 <= 365 -> Z.of_nat (length (wm_diffs n)) + how_many opens b2 <= 50 -> t <= day_start now ->
  ahead_of t v w m n z err -> exists g t', ahead_of t' v' w' m' n' (z + y - x) (err + (P16 - 1) * g + s * how_many distributes b1) /\
    g + Z.of_nat (length (wm_diffs m')) <= Z.of_nat (length (wm_diffs m)) + how_many works b1 + how_many opens b1.
Proof.
  induction 1 as [now v m G M|now ts i bs l b v m p v1 m1 x v' m' G M Hn Hts Lg LK PL HD P H IH]; intros Hs b2 B now2 w n y w' n' t z err W RM RN Ht A.
  - inversion B; subst. inversion W; subst. exists 0, t. replace (z + 0 - 0) with z by lia.
    change (how_many distributes []) with 0. change (how_many works []) with 0. change (how_many opens []) with 0.
    replace (err + (P16 - 1) * 0 + s * 0) with err by lia. split; [exact A|lia].
  - inversion B as [|? [[[ts2 j] cs] l2] ? c BT BF]; subst.
    inversion W as [|? ? ? ? ? ? ? ? q w1 n1 y1 ? ? G2 M2 Hn2 Hts2 Lg2 LK2 PL2 HD2 P2 W2]; subst.
    destruct BT as (<- & <- & <- & BT). destruct P as [P1 PM1], P2 as [P2 PM2].
    rewrite !how_many_cons, ?opens_adds in *. pose proof (how_many_pos dates_pool b). pose proof (how_many_pos opens c).
    destruct (gwalk_good _ _ _ _ _ _ _ _ H) as [GG1 MM1]. destruct (gwalk_good _ _ _ _ _ _ _ _ W2) as [GG2 MM2].
    pose proof (pstep_length ts i bs l v v1 (pw_diffs_asc _ _ G) (pw_diffs_asc _ _ GG1) P1) as PLN.
    assert (Hdm : day_start now <= day_start ts) by (rewrite <- !bod_day_start; apply bod_mono; exact Hn).
    assert (NL : Z.of_nat (length (wm_diffs n1)) <= Z.of_nat (length (wm_diffs n)) + adds j l).
    { destruct l as [|n0 l]; [destruct PM2 as [_ ->]; unfold adds; destruct (opens _); lia|]. exact (page_length _ _ _ _ _ _ _ (mw_asc _ M2) (mw_asc _ MM2) PM2). }
    assert (A1 : exists g, ahead_of (day_start ts) v1 w1 m1 n1 (z + q - p) (err + (P16 - 1) * g + s * (if distributes (ts, i, bs, l) then 1 else 0)) /\
      g + Z.of_nat (length (wm_diffs m1)) <= Z.of_nat (length (wm_diffs m)) + (if works (ts, i, bs, l) then 1 else 0) + adds i l).
    { assert (AD : 0 <= adds i l) by (unfold adds; destruct (opens _); lia).
      destruct l as [|n0 l].
      - subst j. destruct PM1 as [-> ->], PM2 as [-> ->]. replace (z + 0 - 0) with z by lia. exists 0. cbn [works snd]. split; [|lia].
        destruct (ix_is_distribute i) as [->|ND].
        + cbn [distributes]. replace (err + (P16 - 1) * 0 + s * 1) with (err + s) by lia.
          destruct (HD eq_refl) as [Cv Qv]. destruct (HD2 eq_refl) as [Cw Qw].
          eapply (ahead_of_distribute ts bs t v w); try eassumption; try lia.
          * eapply pool_wf_hist; exact G.
          * eapply pool_wf_hist; exact G2.
          * pose proof (pw_avail _ _ G) as Q. unfold is_u64 in Q. lia.
        + replace (distributes (ts, i, bs, [])) with false by (destruct i; try reflexivity; contradiction).
          replace (err + (P16 - 1) * 0 + s * 0) with err by lia.
          eapply (ahead_of_others ts i bs [] t v w); try eassumption; try lia;
            [exact (pw_diffs_asc _ _ G)|exact (pw_diffs_asc _ _ G2)|exact (pw_diffs_asc _ _ GG1)|exact (pw_diffs_asc _ _ GG2)].
      - destruct BT as [Hm OM].
        assert (DS : distributes (ts, i, bs, n0 :: l) = false) by (destruct i, j; cbn [own_longer own_more] in OM; try contradiction; reflexivity).
        rewrite DS. change (if works (ts, i, bs, n0 :: l) then 1 else 0) with 1.
        destruct (ahead_of_own ts i j bs (n0 :: l) t v w m n z err p q v1 w1 m1 n1) as (g & Ag & Hg); try assumption; try lia.
        + eapply pool_wf_hist; exact G.
        + eapply c_dates; [exact Hn|exact G].
        + eapply pool_wf_hist; exact G2.
        + eapply c_dates; [exact Hn2|exact G2].
        + exact (mw_asc _ MM1).
        + exact (mw_asc _ MM2).
        + exact (pw_diffs_asc _ _ G).
        + exact (pw_diffs_asc _ _ G2).
        + exact (pw_diffs_asc _ _ GG1).
        + exact (pw_diffs_asc _ _ GG2).
        + exists g. replace (err + (P16 - 1) * g + s * 0) with (err + (P16 - 1) * g) by lia. split; [exact Ag|exact Hg]. }
    destruct A1 as (g & A1 & Hg).
    destruct (IH Hs _ BF _ _ _ _ _ _ (day_start ts) _ _ W2 ltac:(lia) ltac:(lia) ltac:(lia) A1) as (g' & t' & A' & Hg').
    exists (g + g'), t'. split; [|lia].
    replace (z + (q + y1) - (p + x)) with ((z + q - p) + y1 - x) by lia.
    replace (err + (P16 - 1) * (g + g') + s * ((if distributes (ts, i, bs, l) then 1 else 0) + how_many distributes b))
      with (err + (P16 - 1) * g + s * (if distributes (ts, i, bs, l) then 1 else 0) + (P16 - 1) * g' + s * how_many distributes b) by lia.
    exact A'.
Qed.

Lemma own_longer_stake e1 e2 : env_ok e1 -> env_ok e2 -> forall P1 P2 k1 k2 now1 L1 now1' L1' now2 L2 now2' L2' b c x y v w v' w' m n m' n' s,
  reached e1 now1 L1 -> reached e2 now2 L2 ->
  full_log e1 P1 k1 now1 L1 now1' L1' b x -> full_log e2 P2 k2 now2 L2 now2' L2' c y -> Forall2 staking_longer b c ->
  0 <= s -> whenever e1 P1 k1 now1 L1 b (fun ts _ m => 0 <= eff m (day_start ts) <= s) ->
  whenever e2 P2 k2 now2 L2 c (fun ts w n => eff n (day_start ts) <= all w (day_start ts)) ->
  is_pool e1 L1 P1 v -> is_pool e2 L2 P2 w -> is_mining e1 L1 k1 m -> is_mining e2 L2 k2 n -> holds_more (day_start now1) v w m n ->
  Z.of_nat (length (wp_diffs v)) + how_many dates_pool b <= 365 -> Z.of_nat (length (wm_diffs n)) + how_many opens c <= 50 ->
  is_pool e1 L1' P1 v' -> is_pool e2 L2' P2 w' -> is_mining e1 L1' k1 m' -> is_mining e2 L2' k2 n' ->
  P16 * y + owed (wp_ci w') n' <= P16 * x + owed (wp_ci v') m' +
    (P16 - 1) * (how_many works b + how_many opens b + Z.of_nat (length (wm_diffs m))) + s * how_many distributes b /\
  forall d, eff n' d <= eff m' d.
Proof.
  intros H1 H2 P1 P2 k1 k2 now1 L1 now1' L1' now2 L2 now2' L2' b c x y v w v' w' m n m' n' s R1 R2 D1 D2 B Hs Q1 Q2 V W M N A RM RN V' W' M' N'.
  destruct (full_log_running _ _ _ _ _ _ _ _ _ D1) as [RU1 OP1]. destruct (full_log_running _ _ _ _ _ _ _ _ _ D2) as [RU2 OP2].
  destruct (full_log_gwalk e1 H1 _ _ _ now1 L1 b _ _ _ _ _ _ D1 R1 [] 0 (fl_nil _ _ _ _ _ RU1 OP1) eq_refl Q1 v m V M) as (v1 & m1 & X1 & Y1 & S1).
  rewrite (pool_fun e1 _ _ _ _ X1 V'), (mining_fun e1 _ _ _ _ Y1 M') in S1.
  destruct (full_log_gwalk e2 H2 _ _ _ now2 L2 c _ _ _ _ _ _ D2 R2 [] 0 (fl_nil _ _ _ _ _ RU2 OP2) eq_refl Q2 w n W N) as (w1 & n1 & X2 & Y2 & S2).
  rewrite (pool_fun e2 _ _ _ _ X2 W'), (mining_fun e2 _ _ _ _ Y2 N') in S2.
  destruct A as [E1 E2 E3 E4 E5 E6 E7 E8 E9].
  assert (A0 : ahead_of (day_start now1) v w m n 0 0) by (constructor; try assumption; lia).
  destruct (gwalks_longer s _ _ _ _ _ _ _ S1 Hs _ B _ _ _ _ _ _ _ _ _ S2 RM RN (Z.le_refl _) A0) as (g & t' & A' & Hg).
  destruct A' as [F1 F2 F3 F4 F5 F6 F7 F8 F9]. split; [lia|]. intros d. rewrite !eff_own. specialize (F1 d). lia.
Qed.
Lemma holds_same t w m : m_index (wm m) <= last_from 0 (wp_ci w) -> holds_more t w w m m.
Proof. intros H. constructor; try reflexivity; try (intros; lia); assumption. Qed.
