(** Calls taken back at once (claim C63). *)
From stdpp Require Import gmap.
From Verif Require Import Base OMap State Spec EffectSpec Ledger Program LedgerLemmas LedgerSpec CodecLemmas History HistoryLemmas HistoryThms
  SuccessSpec ResLemmas TreeLemmas EffectLemmas EffectMethods EffectThms EffectMore EffectCompare ReachThms Commute Worth BackSpec.

(** ** Schedules *)
Lemma scheduled_zero cap d t t' : scheduled cap d 0 t t' -> same_amounts t t'.
Proof.
  intros [A B] k.
  destruct (in_dec Z.eq_dec d (map fst t)) as [Hi|Hi].
  - destruct A as [A _]; [left; apply has_keys; assumption|]. rewrite A. destruct (_ =? _); lia.
  - destruct (Z_lt_ge_dec (Z.of_nat (length t)) cap).
    + destruct A as [A _]; [right; assumption|]. rewrite A. destruct (_ =? _); lia.
    + rewrite B; [reflexivity|rewrite has_keys; assumption|lia].
Qed.
Lemma scheduled_due cap d t t' b : ascending t -> ascending t' -> b < d -> scheduled cap d 0 t t' -> due b t' = due b t.
Proof.
  intros A A' Hb S. symmetry. pose proof (scheduled_zero _ _ _ _ S) as Z. apply due_same; [assumption..| |intros k _; symmetry; apply Z].
  intros k Hk. destruct S as [S1 S2].
  destruct (in_dec Z.eq_dec d (map fst t)) as [Hi|Hi].
  - destruct S1 as [_ S1]; [left; apply has_keys; assumption|]. rewrite S1. intuition lia.
  - destruct (Z_lt_ge_dec (Z.of_nat (length t)) cap).
    + destruct S1 as [_ S1]; [right; assumption|]. rewrite S1. intuition lia.
    + rewrite S2; [reflexivity|rewrite has_keys; assumption|lia].
Qed.
Lemma same_after b t t' : same_amounts t t' -> same_amounts (after b t) (after b t').
Proof. intros S d. rewrite !at_after, S. reflexivity. Qed.
Lemma same_trans a b c : same_amounts a b -> same_amounts b c -> same_amounts a c.
Proof. intros H1 H2 d. rewrite H2. apply H1. Qed.

(** ** Minings *)
(** a mining that has seen everything is refreshed to itself *)
Lemma again_same ts ci m m' : m_index (wm m) = visible ts ci -> dates (fun d => day_start ts < d) (wm_diffs m) ->
  refreshed ts ci m m' -> m' = m.
Proof.
  intros H1 H2 R. eapply refreshed_same; [exact H1| |exact R]. unfold after.
  clear -H2. induction (wm_diffs m) as [|[k v] r IH]; [reflexivity|]. cbn [filter fst].
  rewrite (proj2 (Z.ltb_lt _ _) (H2 k v (or_introl eq_refl))). f_equal. apply IH. intros d x Hin. apply (H2 d x). right; assumption.
Qed.
Lemma delegate_back ts ci a b x y z : a + b = 0 ->
  refreshed ts ci (with_delegated x (m_sfo (wm x) + a)) y ->
  refreshed ts ci (with_delegated y (m_sfo (wm y) + b)) z -> counted_with ts ci a x z.
Proof.
  intros E R S.
  assert (z = with_delegated y (m_sfo (wm y) + b)) as ->.
  { eapply again_same; [| |exact S]; cbn; [apply R|]. rewrite (rf_diffs _ _ _ _ R). apply dates_after. }
  destruct R as [R1 R2 R3 R4 R5 _ _ R6 _]. cbn in *. constructor; cbn; try assumption. rewrite R2. lia.
Qed.

Lemma upto_first b ts ci j m : day_start ts = b -> (forall d v, In (d, v) (wm_diffs m) -> d <= b -> j <= visible d ci) ->
  dates (fun d => j <= visible d ci /\ d <= ts) (upto b (wm_diffs m)).
Proof.
  intros E H d v Hin. apply filter_In in Hin as [Hin Hd]. cbn [fst] in Hd. apply Z.leb_le in Hd.
  split; [eapply H; eassumption|]. unfold day_start in E. pose proof (Z.mul_div_le ts 86400). lia.
Qed.
(** more delegated-in stake never means fewer tokens *)
Lemma tokens_le ts ci m x y z m' : growing 0 ci -> ascending (wm_diffs m) -> x <= y ->
  refreshed ts ci (with_delegated m z) m' ->
  tokens_at ts ci (with_delegated m x) <= tokens_at ts ci (with_delegated m y).
Proof.
  intros Hg Ha Hxy R. unfold tokens_at. cbn [with_delegated wm wm_diffs m_index m_sfo m_share m_unclaimed].
  apply Z.add_le_mono_l. apply earned_mono; try reflexivity; [assumption|apply ascending_upto; assumption|apply R| |intros; lia].
  apply upto_first; [reflexivity|]. exact (rf_first _ _ _ _ R).
Qed.
Lemma with_same m : with_delegated m (m_sfo (wm m)) = m.
Proof. destruct m as [[] ?]. reflexivity. Qed.

Section env.
Context (e : env) (Henv : env_ok e).

Lemma pool_asc now L P w : reached e now L -> is_pool e L P w -> ascending (wp_diffs w).
Proof.
  intros HL [Ho Hd]. destruct (reached_ok e Henv _ _ HL) as (O & _). apply (ok_pool e now L P w O Ho Hd).
Qed.
Lemma same_pool L P a b : is_pool e L P a -> is_pool e L P b -> a = b.
Proof. intros [_ H] [_ H']. congruence. Qed.
Lemma same_min L P a b : is_mining e L P a -> is_mining e L P b -> a = b.
Proof. intros [_ H] [_ H']. congruence. Qed.
Lemma same_place ms n a b : account_at ms n a -> account_at ms n b -> a = b.
Proof. unfold account_at. congruence. Qed.

(** depositing without a lock and withdrawing the same *)
Lemma deposit_withdraw now ts ms ms' a o d o' d' L L1 L2 r1 r2 P k D :
  reached e now L -> now <= ts -> is_u64 ts -> ix_in_range (DepositMining a LFlex o d) ->
  exec e ts ms (DepositMining a LFlex o d) L = Ok (L1, r1) ->
  exec e ts ms' (WithdrawMining a o' d') L1 = Ok (L2, r2) ->
  account_at ms 0 P -> account_at ms 1 k -> account_at ms 3 D ->
  account_at ms' 0 P -> account_at ms' 1 k -> account_at ms' 3 D ->
  exists w m w2 m2, is_pool e L P w /\ is_mining e L k m /\ is_pool e L2 P w2 /\ is_mining e L2 k m2 /\
    only_expired ts w w2 /\ only_updated ts (wp_ci w) m m2 /\
    delegate_effect e L L2 D k (fun x z => counted_with ts (wp_ci w) a x z /\ tokens_at ts (wp_ci w) x <= m_unclaimed (wm z)).
Proof.
  intros HL Ht H64 Hi X1 X2 AP Ak AD AP' Ak' AD'. pose proof (reached_exec e now ts ms _ L L1 r1 HL Ht H64 Hi X1) as HL1.
  assert (Ha : is_u64 a) by apply Hi.
  destruct (deposit_on_ledger e Henv _ _ _ _ _ _ _ _ _ _ HL Ht Ha X1)
    as (P0 & k0 & D0 & w & m & m1 & w1 & m1' & BP & Bk & BD & Pw & Mk & Pw1 & Mk1 & _ & R & OS & Sh & SM & OT & HT & SP & DE).
  rewrite (same_place _ _ _ _ BP AP), (same_place _ _ _ _ Bk Ak), (same_place _ _ _ _ BD AD) in *. clear BP Bk BD.
  destruct (withdraw_on_ledger e Henv _ _ _ _ _ _ _ _ _ HL1 (Z.le_refl _) Ha X2)
    as (P1 & k1 & D1 & w1b & m1b & m2a & w2 & m2 & BP & Bk & BD & Pw1b & Mk1b & Pw2 & Mk2 & R2 & OS2 & _ & Sh2 & Ds2 & OT2 & HT2 & SP2 & DE2 & _).
  rewrite (same_place _ _ _ _ BP AP'), (same_place _ _ _ _ Bk Ak'), (same_place _ _ _ _ BD AD') in *. clear BP Bk BD.
  rewrite (same_pool _ _ _ _ Pw1b Pw1), (same_min _ _ _ _ Mk1b Mk1) in *. clear Pw1b Mk1b.
  assert (Ec : wp_ci w1 = wp_ci w) by apply OT. rewrite Ec in *.
  change (weight_of LFlex) with 1 in *. rewrite Z.mul_0_r, Z.mul_1_r in *.
  pose proof (expiry_later LFlex ts ltac:(discriminate)) as Hex.
  exists w, m, w2, m2. do 4 (split; [assumption|]).
  assert (m2a = m1') as ->.
  { eapply again_same; [| |exact R2].
    - destruct OS as (_ & -> & _). apply R.
    - eapply scheduled_dates; [exact SM| |exact Hex]. rewrite (rf_diffs _ _ _ _ R). apply dates_after. }
  split; [|split].
  - split; [|split].
    + destruct OT as (? & ? & ? & ? & ? & ? & ? & ? & ? & ?), OT2 as (? & ? & ? & ? & ? & ? & ? & ? & ? & ?).
      repeat (split; [congruence|]). congruence.
    + rewrite HT2, HT. rewrite (scheduled_due _ _ _ _ _ (pool_asc _ _ _ _ HL Pw) (pool_asc _ _ _ _ HL1 Pw1) Hex SP).
      unfold if_other. destruct (_ =? _); lia.
    + rewrite SP2. apply same_after. eapply scheduled_zero. exact SP.
  - destruct R as [R1 R3 R4 R5 R6 _ _ R7 _], OS as ((S1 & S2 & S3 & S4 & S5) & S6 & S7 & S8),
      OS2 as ((T1 & T2 & T3 & T4 & T5) & T6 & T7 & T8), R1 as (Q1 & Q2 & Q3 & Q4 & Q5).
    constructor.
    + unfold same_mining. repeat (split; [congruence|]). congruence.
    + congruence.
    + rewrite Sh2, Sh, R5. unfold share_at. lia.
    + congruence.
    + unfold tokens_at. congruence.
    + rewrite Ds2. rewrite <- R4. eapply scheduled_zero. exact SM.
  - destruct DE as [DE|(DN & x & y & Mx & My & _ & Rx)]; [left; assumption|].
    destruct DE2 as [DE2|(_ & y' & z & My' & Mz & _ & Ry)]; [contradiction|].
    rewrite (same_min _ _ _ _ My' My) in *. right. split; [assumption|]. exists x, z. do 2 (split; [assumption|]).
    assert (C : counted_with ts (wp_ci w) a x z) by (eapply (delegate_back ts _ a (- a)); [lia|exact Rx|exact Ry]).
    split; [exact C|]. rewrite (cw_tokens _ _ _ _ _ C). rewrite <- (with_same x) at 1.
    eapply tokens_le; [exact (reached_hist e Henv _ _ _ _ HL Pw)|exact (reached_asc e Henv _ _ _ _ HL Mx)|unfold is_u64 in Ha; lia|exact Rx].
Qed.

(** withdrawing and depositing the same without a lock *)
Lemma withdraw_deposit now ts ms ms' a o d o' d' L L1 L2 r1 r2 P k D :
  reached e now L -> now <= ts -> is_u64 ts -> ix_in_range (WithdrawMining a o d) ->
  exec e ts ms (WithdrawMining a o d) L = Ok (L1, r1) ->
  exec e ts ms' (DepositMining a LFlex o' d') L1 = Ok (L2, r2) ->
  account_at ms 0 P -> account_at ms 1 k -> account_at ms 3 D ->
  account_at ms' 0 P -> account_at ms' 1 k -> account_at ms' 3 D ->
  exists w m w2 m2, is_pool e L P w /\ is_mining e L k m /\ is_pool e L2 P w2 /\ is_mining e L2 k m2 /\
    only_expired ts w w2 /\ only_updated ts (wp_ci w) m m2 /\
    delegate_effect e L L2 D k (fun x z => counted_with ts (wp_ci w) (- a) x z /\ m_unclaimed (wm z) <= tokens_at ts (wp_ci w) x).
Proof.
  intros HL Ht H64 Hi X1 X2 AP Ak AD AP' Ak' AD'. pose proof (reached_exec e now ts ms _ L L1 r1 HL Ht H64 Hi X1) as HL1.
  assert (Ha : is_u64 a) by apply Hi.
  destruct (withdraw_on_ledger e Henv _ _ _ _ _ _ _ _ _ HL Ht Ha X1)
    as (P0 & k0 & D0 & w & m & m1 & w1 & m1' & BP & Bk & BD & Pw & Mk & Pw1 & Mk1 & R & OS & _ & Sh & Ds & OT & HT & SP & DE & _).
  rewrite (same_place _ _ _ _ BP AP), (same_place _ _ _ _ Bk Ak), (same_place _ _ _ _ BD AD) in *. clear BP Bk BD.
  destruct (deposit_on_ledger e Henv _ _ _ _ _ _ _ _ _ _ HL1 (Z.le_refl _) Ha X2)
    as (P1 & k1 & D1 & w1b & m1b & m2a & w2 & m2 & BP & Bk & BD & Pw1b & Mk1b & Pw2 & Mk2 & _ & R2 & OS2 & Sh2 & SM & OT2 & HT2 & SP2 & DE2).
  rewrite (same_place _ _ _ _ BP AP'), (same_place _ _ _ _ Bk Ak'), (same_place _ _ _ _ BD AD') in *. clear BP Bk BD.
  rewrite (same_pool _ _ _ _ Pw1b Pw1), (same_min _ _ _ _ Mk1b Mk1) in *. clear Pw1b Mk1b.
  assert (Ec : wp_ci w1 = wp_ci w) by apply OT. rewrite Ec in *.
  change (weight_of LFlex) with 1 in *. rewrite Z.mul_0_r, Z.mul_1_r in *.
  exists w, m, w2, m2. do 4 (split; [assumption|]).
  assert (m2a = m1') as ->.
  { eapply again_same; [| |exact R2].
    - destruct OS as (_ & -> & _). apply R.
    - rewrite Ds, (rf_diffs _ _ _ _ R). apply dates_after. }
  split; [|split].
  - split; [|split].
    + destruct OT as (? & ? & ? & ? & ? & ? & ? & ? & ? & ?), OT2 as (? & ? & ? & ? & ? & ? & ? & ? & ? & ?).
      repeat (split; [congruence|]). congruence.
    + rewrite HT2, HT. unfold if_other. destruct (_ =? _); lia.
    + rewrite <- SP. eapply scheduled_zero. exact SP2.
  - destruct R as [R1 R3 R4 R5 R6 _ _ R7 _], OS as ((S1 & S2 & S3 & S4 & S5) & S6 & S7 & S8),
      OS2 as ((T1 & T2 & T3 & T4 & T5) & T6 & T7 & T8), R1 as (Q1 & Q2 & Q3 & Q4 & Q5).
    constructor.
    + unfold same_mining. repeat (split; [congruence|]). congruence.
    + congruence.
    + rewrite Sh2, Sh, R5. unfold share_at. lia.
    + congruence.
    + unfold tokens_at. congruence.
    + rewrite <- R4, <- Ds. eapply scheduled_zero. exact SM.
  - destruct DE as [DE|(DN & x & y & Mx & My & _ & Rx)]; [left; assumption|].
    destruct DE2 as [DE2|(_ & y' & z & My' & Mz & _ & Ry)]; [contradiction|].
    rewrite (same_min _ _ _ _ My' My) in *. right. split; [assumption|]. exists x, z. do 2 (split; [assumption|]).
    assert (C : counted_with ts (wp_ci w) (- a) x z) by (eapply (delegate_back ts _ (- a) a); [lia|exact Rx|exact Ry]).
    split; [exact C|]. rewrite (cw_tokens _ _ _ _ _ C). rewrite <- (with_same x) at 3.
    eapply tokens_le; [exact (reached_hist e Henv _ _ _ _ HL Pw)|exact (reached_asc e Henv _ _ _ _ HL Mx)|unfold is_u64 in Ha; lia|exact Rx].
Qed.

(** moving delegated stake and moving it back *)
Lemma change_back now ts ms ms' a n n' L L1 L2 r1 r2 P k O N :
  reached e now L -> now <= ts -> is_u64 ts -> ix_in_range (ChangeDelegate a n) ->
  exec e ts ms (ChangeDelegate a n) L = Ok (L1, r1) ->
  exec e ts ms' (ChangeDelegate a n') L1 = Ok (L2, r2) ->
  account_at ms 0 P -> account_at ms 1 k -> account_at ms 4 O -> account_at ms 5 N ->
  account_at ms' 0 P -> account_at ms' 1 k -> account_at ms' 4 N -> account_at ms' 5 O ->
  exists w m m2, is_pool e L P w /\ is_mining e L k m /\ is_pool e L2 P w /\ is_mining e L2 k m2 /\
    refreshed ts (wp_ci w) m m2 /\
    delegate_effect e L L2 O k (fun x z => counted_with ts (wp_ci w) (- a) x z /\ m_unclaimed (wm z) <= tokens_at ts (wp_ci w) x) /\
    delegate_effect e L L2 N k (fun x z => counted_with ts (wp_ci w) a x z /\ tokens_at ts (wp_ci w) x <= m_unclaimed (wm z)).
Proof.
  intros HL Ht H64 Hi X1 X2 AP Ak AO AN AP' Ak' AO' AN'. pose proof (reached_exec e now ts ms _ L L1 r1 HL Ht H64 Hi X1) as HL1.
  assert (Ha : is_u64 a) by apply Hi.
  destruct (change_on_ledger e Henv _ _ _ _ _ _ _ _ HL Ht Ha X1)
    as (P0 & k0 & O0 & N0 & w & m & w1 & m1 & BP & Bk & BO & BN & NE & Pw & Mk & Pw1 & Mk1 & R & OT & SP & HT & DO & DN).
  rewrite (same_place _ _ _ _ BP AP), (same_place _ _ _ _ Bk Ak), (same_place _ _ _ _ BO AO), (same_place _ _ _ _ BN AN) in *. clear BP Bk BO BN.
  destruct (change_on_ledger e Henv _ _ _ _ _ _ _ _ HL1 (Z.le_refl _) Ha X2)
    as (P1 & k1 & O1 & N1 & w1b & m1b & w2 & m2 & BP & Bk & BO & BN & _ & Pw1b & Mk1b & Pw2 & Mk2 & R2 & OT2 & SP2 & HT2 & DO2 & DN2).
  rewrite (same_place _ _ _ _ BP AP'), (same_place _ _ _ _ Bk Ak'), (same_place _ _ _ _ BO AO'), (same_place _ _ _ _ BN AN') in *. clear BP Bk BO BN.
  rewrite (same_pool _ _ _ _ Pw1b Pw1), (same_min _ _ _ _ Mk1b Mk1) in *. clear Pw1b Mk1b.
  assert (Ec : wp_ci w1 = wp_ci w) by apply OT. rewrite Ec in *.
  assert (m2 = m1) as ->.
  { eapply again_same; [| |exact R2]; [apply R|]. rewrite (rf_diffs _ _ _ _ R). apply dates_after. }
  assert (w2 = w) as ->.
  { destruct OT as (? & ? & ? & ? & ? & ? & ? & ? & ? & ?), OT2 as (? & ? & ? & ? & ? & ? & ? & ? & ? & ?).
    assert (p_total (wp w2) = p_total (wp w)) by lia.
    destruct w as [[] ? ?], w2 as [[] ? ?]. cbn in *. congruence. }
  exists w, m, m1. do 4 (split; [assumption|]). split; [assumption|]. split.
  - destruct DO as [DO|(DE & x & y & Mx & My & _ & Rx)]; [left; assumption|].
    destruct DN2 as [DN2|(_ & y' & z & My' & Mz & Ry)]; [contradiction|].
    rewrite (same_min _ _ _ _ My' My) in *. right. split; [assumption|]. exists x, z. do 2 (split; [assumption|]).
    assert (C : counted_with ts (wp_ci w) (- a) x z) by (eapply (delegate_back ts _ (- a) a); [lia|exact Rx|exact Ry]).
    split; [exact C|]. rewrite (cw_tokens _ _ _ _ _ C). rewrite <- (with_same x) at 3.
    eapply tokens_le; [exact (reached_hist e Henv _ _ _ _ HL Pw)|exact (reached_asc e Henv _ _ _ _ HL Mx)|unfold is_u64 in Ha; lia|exact Rx].
  - destruct DN as [DN|(DE & x & y & Mx & My & Rx)]; [left; assumption|].
    destruct DO2 as [DO2|(_ & y' & z & My' & Mz & _ & Ry)]; [contradiction|].
    rewrite (same_min _ _ _ _ My' My) in *. right. split; [assumption|]. exists x, z. do 2 (split; [assumption|]).
    assert (C : counted_with ts (wp_ci w) a x z) by (eapply (delegate_back ts _ a (- a)); [lia|exact Rx|exact Ry]).
    split; [exact C|]. rewrite (cw_tokens _ _ _ _ _ C). rewrite <- (with_same x) at 1.
    eapply tokens_le; [exact (reached_hist e Henv _ _ _ _ HL Pw)|exact (reached_asc e Henv _ _ _ _ HL Mx)|unfold is_u64 in Ha; lia|exact Rx].
Qed.
End env.

(** ** What the delegate gets or loses by it *)
Lemma gain_zero ts ci a m : m_index (wm m) = visible ts ci -> after (day_start ts) (wm_diffs m) = wm_diffs m -> flash_gain ts ci a m = 0.
Proof.
  intros Hi Hd. unfold flash_gain, tokens_at. cbn [with_delegated wm wm_diffs m_index m_sfo m_share m_unclaimed].
  assert (upto (day_start ts) (wm_diffs m) = []) as ->.
  { rewrite <- Hd. unfold upto, after. clear. induction (wm_diffs m) as [|[k v] r IH]; [reflexivity|]. cbn.
    destruct (Z.ltb_spec (day_start ts) k); [|assumption]. cbn. destruct (Z.leb_spec k (day_start ts)); [lia|assumption]. }
  cbn [earned]. rewrite Hi, Z.sub_diag, !Z.mul_0_l, Zdiv_0_l. lia.
Qed.
Lemma gain_bounds ts ci a m :
  - segments ts m <= flash_gain ts ci a m - a * (visible ts ci - m_index (wm m)) / PRECISION <= 1 + segments ts m.
Proof.
  unfold flash_gain, tokens_at, segments. cbn [with_delegated wm wm_diffs m_index m_sfo m_share m_unclaimed].
  pose proof (earned_more ci ts (m_share (wm m) + m_sfo (wm m)) a (m_index (wm m)) (upto (day_start ts) (wm_diffs m))) as H. cbv zeta in H.
  rewrite Z.add_assoc. set (g := earned _ (_ + _ + a) _ _ _) in *. set (h := earned _ _ _ _ _) in *. set (n := Z.of_nat _) in *.
  assert (0 < PRECISION) as HP by reflexivity.
  pose proof (Z.div_mod (a * (visible ts ci - m_index (wm m))) PRECISION ltac:(lia)) as E.
  pose proof (Z.mod_pos_bound (a * (visible ts ci - m_index (wm m))) PRECISION HP) as B.
  set (q := _ / PRECISION) in *. rewrite (Z.mul_comm (visible ts ci - _) a) in H.
  unfold PRECISION in *. lia.
Qed.
Lemma counted_same ts ci a x z : m_index (wm x) = visible ts ci -> after (day_start ts) (wm_diffs x) = wm_diffs x ->
  counted_with ts ci a x z -> z = x.
Proof.
  intros Hi Hd [(C1 & C2 & C3 & C4 & C5) C6 C7 C8 C9 C10].
  pose proof (gain_zero ts ci a x Hi Hd) as G. pose proof (gain_zero ts ci (- m_sfo (wm x) - m_share (wm x)) x Hi Hd) as G0.
  unfold flash_gain in G, G0.
  assert (T : tokens_at ts ci (with_delegated x (m_sfo (wm x) + (- m_sfo (wm x) - m_share (wm x)))) = m_unclaimed (wm x)).
  { unfold tokens_at. cbn [with_delegated wm wm_diffs m_index m_sfo m_share m_unclaimed].
    replace (m_share (wm x) + _) with 0 by lia.
    assert (upto (day_start ts) (wm_diffs x) = []) as ->.
    { rewrite <- Hd. unfold upto, after. clear. induction (wm_diffs x) as [|[k v] r IH]; [reflexivity|]. cbn.
      destruct (Z.ltb_spec (day_start ts) k); [|assumption]. cbn. destruct (Z.leb_spec k (day_start ts)); [lia|assumption]. }
    cbn [earned]. rewrite Z.mul_0_r, Zdiv_0_l. lia. }
  assert (S : share_at ts x = m_share (wm x)).
  { unfold share_at. rewrite due_nil_below; [lia|]. rewrite <- Hd. apply dates_after. }
  destruct x as [[x1 x2 x3 x4 x5 x6 x7 x8 x9] dx], z as [[z1 z2 z3 z4 z5 z6 z7 z8 z9] dz].
  cbn [wm wm_diffs m_index m_sfo m_share m_unclaimed m_pool m_owner m_mint m_bump m_type] in *.
  f_equal; [|congruence]. f_equal; try congruence; lia.
Qed.
(** nothing else changes *)
Lemma two_untouched e ts ms ms' i j L L1 L2 r1 r2 :
  exec e ts ms i L = Ok (L1, r1) -> exec e ts ms' j L1 = Ok (L2, r2) ->
  forall q, (forall n, In n (may_change i) -> ~ account_at ms n q) -> (forall n, In n (may_change j) -> ~ account_at ms' n q) ->
  acc L2 q = acc L q.
Proof.
  intros X1 X2 q N1 N2.
  destruct (decide (acc L2 q = acc L1 q)) as [->|N].
  - destruct (decide (acc L1 q = acc L q)) as [->|N]; [reflexivity|].
    destruct (AccessLemmas.changed_named _ _ _ _ _ _ _ _ X1 N) as [(n & Hn & A) _]. destruct (N1 n Hn A).
  - destruct (AccessLemmas.changed_named _ _ _ _ _ _ _ _ X2 N) as [(n & Hn & A) _]. destruct (N2 n Hn A).
Qed.
Lemma stake_untouched e ts ms ms' i j L L1 L2 r1 r2 P k D :
  may_change i = [0; 1; 3]%nat -> may_change j = [0; 1; 3]%nat ->
  exec e ts ms i L = Ok (L1, r1) -> exec e ts ms' j L1 = Ok (L2, r2) ->
  account_at ms 0 P -> account_at ms 1 k -> account_at ms 3 D ->
  account_at ms' 0 P -> account_at ms' 1 k -> account_at ms' 3 D ->
  forall q, ~ In q [P; k; D] -> acc L2 q = acc L q.
Proof.
  intros Ei Ej X1 X2 A1 A2 A3 B1 B2 B3 q Hq. unfold account_at in *. cbn [In] in Hq.
  eapply two_untouched; [exact X1|exact X2| |]; rewrite ?Ei, ?Ej; intros n Hn A; unfold account_at in A; apply Hq;
    destruct Hn as [<-|[<-|[<-|[]]]]; [left|right; left|right; right; left|left|right; left|right; right; left]; congruence.
Qed.
Lemma change_untouched e ts ms ms' a a' n n' L L1 L2 r1 r2 P k O N :
  exec e ts ms (ChangeDelegate a n) L = Ok (L1, r1) -> exec e ts ms' (ChangeDelegate a' n') L1 = Ok (L2, r2) ->
  account_at ms 0 P -> account_at ms 1 k -> account_at ms 4 O -> account_at ms 5 N ->
  account_at ms' 0 P -> account_at ms' 1 k -> account_at ms' 4 N -> account_at ms' 5 O ->
  forall q, ~ In q [P; k; O; N] -> acc L2 q = acc L q.
Proof.
  intros X1 X2 A1 A2 A3 A4 B1 B2 B3 B4 q Hq. unfold account_at in *. cbn [In] in Hq.
  eapply two_untouched; [exact X1|exact X2| |]; cbn [may_change]; intros x Hn A; unfold account_at in A; apply Hq;
    destruct Hn as [<-|[<-|[<-|[<-|[]]]]];
    [left|right; left|right; right; left|right; right; right; left|left|right; left|right; right; right; left|right; right; left]; congruence.
Qed.
