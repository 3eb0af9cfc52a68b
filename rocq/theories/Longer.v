(** Proofs of C87: longer lockups compared. *)
From stdpp Require Import gmap.
From Verif Require Import Base OMap State Spec EffectSpec Ledger Program ResLemmas TreeLemmas AccrualLemmas RefreshLemmas WfLemmas LedgerLemmas LedgerSpec
  CodecLemmas History HistoryLemmas Changes AccessLemmas HistoryThms ReachThms EffectLemmas EffectMethods EffectThms EffectMore
  SuccessSpec SuccessThms Determined Commute CompleteSpec Complete PowerSpec Powers FreezeSpec Choice GapSpec Gap CapSpec Cap
  IncomeSpec Income DiarySpec Diary LogSpec Log CompareSpec Compare LongerSpec.

Local Notation P16 := 10000000000000000.

(** the first mining is not behind by more than [r] roundings *)
Record close_to (m n : wmining) (z r : Z) : Prop := {
  ct_own : forall d, own n d <= own m d;
  ct_sfo : m_sfo (wm n) <= m_sfo (wm m);
  ct_index : m_index (wm m) = m_index (wm n);
  ct_gain : P16 * (m_unclaimed (wm n) + z) <= P16 * m_unclaimed (wm m) + (P16 - 1) * r }.

Lemma split_length b (t : sched) : Z.of_nat (length (upto b t)) + Z.of_nat (length (Spec.after b t)) = Z.of_nat (length t).
Proof.
  induction t as [|[k v] t IH]; [reflexivity|]. unfold upto, Spec.after in *. cbn [filter fst].
  destruct (Z.leb_spec k b), (Z.ltb_spec b k); try lia; cbn [length]; lia.
Qed.

Lemma growing_before ts : forall ci a, growing a ci -> growing a (before ts ci).
Proof.
  unfold before. induction ci as [|[k i] ci IH]; intros a G; [exact I|]. cbn in G. destruct G as [G1 G2]. cbn [filter fst].
  destruct (k <? ts); [cbn; auto|]. apply IH. clear -G1 G2. destruct ci as [|[k i'] ci]; [exact I|]. cbn in *. destruct G2. split; [lia|assumption].
Qed.

Lemma refresh_close ts ci m n z r m1 n1 : growing 0 ci -> close_to m n z r -> refreshed ts ci m m1 -> refreshed ts ci n n1 ->
  close_to m1 n1 z (r + segments ts m).
Proof.
  intros G [O S I U] R1 R2. constructor.
  - intros d. rewrite (own_refreshed _ _ _ _ d R1), (own_refreshed _ _ _ _ d R2). apply O.
  - rewrite (rf_sfo _ _ _ _ R1), (rf_sfo _ _ _ _ R2). exact S.
  - rewrite (rf_index _ _ _ _ R1), (rf_index _ _ _ _ R2). reflexivity.
  - pose proof (rf_credit _ _ _ _ R1) as C1. pose proof (rf_credit _ _ _ _ R2) as C2.
    assert (accrual (m_index (wm n)) (eff n) (before ts ci) <= accrual (m_index (wm m)) (eff m) (before ts ci)).
    { rewrite I. apply accrual_le; [apply growing_before; exact G|]. intros k i _ _. specialize (O k). unfold eff, own in *. lia. }
    lia.
Qed.
Lemma close_delegated m n z r x y : close_to m n z r -> y <= x -> close_to (with_delegated m x) (with_delegated n y) z r.
Proof. intros [O S I U] H. constructor; assumption. Qed.
Lemma close_stake m n z r m1 n1 : close_to m n z r -> only_stake m m1 -> only_stake n n1 -> (forall d, own n1 d <= own m1 d) -> close_to m1 n1 z r.
Proof.
  intros [O S I U] (_ & I1 & U1 & S1) (_ & I2 & U2 & S2) H. constructor; [exact H| | |]; rewrite ?I1, ?I2, ?U1, ?U2, ?S1, ?S2; assumption.
Qed.
Lemma close_more m n z r r' : close_to m n z r -> r <= r' -> close_to m n z r'.
Proof. intros [O S I U] H. constructor; try assumption. lia. Qed.
Lemma close_most m n z r : close_to m n z r -> most n <= most m.
Proof.
  intros A. destruct (early_date (map fst (wm_diffs m) ++ map fst (wm_diffs n))) as (d & H). pose proof (ct_own _ _ _ _ A d) as O. unfold own in O.
  rewrite !due_nil_below in O; [unfold most; lia| |]; intros k v Hin; apply H; apply in_or_app; [left|right]; apply (in_map fst) in Hin; exact Hin.
Qed.
Lemma close_least m n z r : close_to m n z r -> least n <= least m.
Proof.
  intros A. destruct (far_date (map fst (wm_diffs m) ++ map fst (wm_diffs n))) as (d & H). pose proof (ct_own _ _ _ _ A d) as O. unfold own in O.
  rewrite !due_all in O; [exact O| |]; intros k v Hin; apply H; apply in_or_app; [left|right]; apply (in_map fst) in Hin; exact Hin.
Qed.

(** length of a schedule in which a date is written *)
Lemma scheduled_length cap d x t t' : ascending t -> ascending t' -> scheduled cap d x t t' ->
  Z.of_nat (length t) <= Z.of_nat (length t') <= Z.of_nat (length t) + 1.
Proof.
  intros A A' S. rewrite (scheduled_is _ _ _ _ _ A A' S). unfold oinsert.
  assert (Q : forall v (t : sched), Z.of_nat (length t) <= Z.of_nat (length (oput d v t)) <= Z.of_nat (length t) + 1).
  { intros v. induction t0 as [|[k u] t0 IH]; cbn [oput]; [cbn; lia|]. destruct (d <? k); [cbn [length]; lia|]. destruct (k =? d); cbn [length]; lia. }
  destruct (ohas d t); [apply Q|]. destruct (_ <? _); [apply Q|lia].
Qed.
Lemma refreshed_length ts ci m m1 : refreshed ts ci m m1 -> Z.of_nat (length (wm_diffs m1)) + segments ts m = Z.of_nat (length (wm_diffs m)) + 1.
Proof. intros R. rewrite (rf_diffs _ _ _ _ R). unfold segments. pose proof (split_length (day_start ts) (wm_diffs m)). lia. Qed.

Lemma expiry_longer p q ts : days_of q <= days_of p -> expiry q ts <= expiry p ts.
Proof. unfold expiry. lia. Qed.

Definition adds (i : ix) (l : list nat) : Z := if opens (0, i, [], l) then 1 else 0.
(** amounts are not negative *)
Definition plus (i : ix) : Prop :=
  match i with DepositMining a _ _ _ => 0 <= a | ExtendStake _ _ _ b a _ _ => 0 <= b + a | _ => True end.

(** a lockup added to the stake *)
Lemma locked_more cap1 p q ts a b t u t' u' : no_shorter p q -> 0 <= b <= a -> ascending t -> ascending u -> ascending t' -> ascending u' ->
  Z.of_nat (length u) < 50 ->
  scheduled cap1 (expiry p ts) (a * (weight_of p - 1)) t t' -> scheduled 50 (expiry q ts) (b * (weight_of q - 1)) u u' ->
  forall d, b * weight_of q - (Spec.due d u' - Spec.due d u) <= a * weight_of p - (Spec.due d t' - Spec.due d t).
Proof.
  intros [Hw Hd] Hab At Au At' Au' Hu S1 S2 d. pose proof (expiry_longer p q ts Hd) as He.
  rewrite (scheduled_exact _ _ _ _ _ d At At' S1), (scheduled_exact _ _ _ _ _ d Au Au' S2).
  unfold GapSpec.lost. rewrite (proj2 (Z.ltb_lt (Z.of_nat (length u)) 50) Hu), orb_true_r.
  destruct (Z.leb_spec (expiry q ts) d), (Z.leb_spec (expiry p ts) d); try lia;
    destruct p, q; cbn [weight_of] in *; try lia; match goal with |- context [if ?c then _ else _] => destruct c end; lia.
Qed.

Lemma page_close ts i j l ci m n z r p1 p2 m' n' :
  growing 0 ci -> ascending (wm_diffs m) -> ascending (wm_diffs n) -> values is_u64 (wm_diffs m) -> values is_u64 (wm_diffs n) ->
  ascending (wm_diffs m') -> ascending (wm_diffs n') ->
  no_worse_locked l i j -> plus j -> Z.of_nat (length (wm_diffs n)) + adds j l <= 50 ->
  close_to m n z r -> page (ts, i, l, ci) m p1 m' -> page (ts, j, l, ci) n p2 n' ->
  (exists r', close_to m' n' (z + p2 - p1) r' /\ r' + Z.of_nat (length (wm_diffs m')) <= r + Z.of_nat (length (wm_diffs m)) + 1 + adds i l) /\
  Z.of_nat (length (wm_diffs n')) <= Z.of_nat (length (wm_diffs n)) + adds j l.
Proof.
  intros G A1 A2 V1 V2 A1' A2' NW PJ RM C P1 P2.
  assert (LE : forall x x1, refreshed ts ci x x1 -> Z.of_nat (length (wm_diffs x1)) <= Z.of_nat (length (wm_diffs x))).
  { intros x x1 R. rewrite (rf_diffs _ _ _ _ R). pose proof (length_after (day_start ts) (wm_diffs x)). lia. }
  (* calls that only refresh *)
  assert (RR : forall x y, refreshed ts ci x m' -> refreshed ts ci y n' -> close_to x y z r -> wm_diffs x = wm_diffs m -> wm_diffs y = wm_diffs n ->
    (exists r', close_to m' n' (z + 0 - 0) r' /\ r' + Z.of_nat (length (wm_diffs m')) <= r + Z.of_nat (length (wm_diffs m)) + 1) /\
    Z.of_nat (length (wm_diffs n')) <= Z.of_nat (length (wm_diffs n))).
  { intros x y R1 R2 B Ex Ey. replace (z + 0 - 0) with z by lia. split; [|rewrite <- Ey; exact (LE _ _ R2)].
    exists (r + segments ts x). split; [eapply refresh_close; eassumption|]. pose proof (refreshed_length _ _ _ _ R1). rewrite Ex in *. lia. }
  assert (AD : forall i, 0 <= adds i l) by (intros k; unfold adds; destruct (opens _); lia).
  (* calls that refresh and change the stake *)
  assert (RS : forall m1 n1, refreshed ts ci m m1 -> refreshed ts ci n n1 -> close_to m1 n1 z (r + segments ts m) /\
     r + segments ts m + Z.of_nat (length (wm_diffs m1)) = r + Z.of_nat (length (wm_diffs m)) + 1).
  { intros m1 n1 R1 R2. split; [eapply refresh_close; eassumption|]. pose proof (refreshed_length _ _ _ _ R1). lia. }
  destruct i, j; cbn [no_worse_locked no_worse] in NW; try contradiction; cbn [page] in P1, P2.
  - (* DepositMining *)
    destruct P1 as [-> P1], P2 as [-> P2]. destruct NW as [NS Ha]. cbn [plus] in PJ. unfold adds, opens in *. change (existsb (Nat.eqb 1) l) with (here 1 l) in *.
    destruct (here 1 l).
    + destruct P1 as (a1 & R1 & O1 & E1 & S1 & _), P2 as (a2 & R2 & O2 & E2 & S2 & _). destruct (RS _ _ R1 R2) as [B HB].
      pose proof (refreshed_asc _ _ _ _ A1 R1) as B1. pose proof (refreshed_asc _ _ _ _ A2 R2) as B2. pose proof (LE _ _ R2) as L2.
      pose proof (scheduled_length _ _ _ _ _ B1 A1' S1). pose proof (scheduled_length _ _ _ _ _ B2 A2' S2).
      split; [|lia]. exists (r + segments ts m). replace (z + 0 - 0) with z by lia. split; [|lia].
      eapply close_stake; [exact B|exact O1|exact O2|]. intros d. pose proof (ct_own _ _ _ _ B d) as Q. unfold own in *.
      pose proof (locked_more _ _ _ _ _ _ _ _ _ _ NS (conj PJ Ha) B1 B2 A1' A2' ltac:(lia) S1 S2 d). rewrite E1, E2. lia.
    + edestruct RR as [(r' & H1 & H2) H3]; [exact P1|exact P2| |reflexivity|reflexivity|]; [apply close_delegated; [exact C|pose proof (ct_sfo _ _ _ _ C); lia]|].
      split; [exists r'; split; [exact H1|lia]|lia].
  - (* WithdrawMining *)
    destruct P1 as [-> P1], P2 as [-> P2]. unfold adds, opens in *. cbn [opens] in *. destruct (here 1 l).
    + destruct P1 as (a1 & R1 & O1 & E1 & S1), P2 as (a2 & R2 & O2 & E2 & S2). destruct (RS _ _ R1 R2) as [B HB]. pose proof (LE _ _ R2) as L2.
      rewrite S1, S2. split; [|lia]. exists (r + segments ts m). replace (z + 0 - 0) with z by lia. split; [|lia].
      eapply close_stake; [exact B|exact O1|exact O2|]. intros d. pose proof (ct_own _ _ _ _ B d) as Q. unfold own in *. rewrite S1, S2, E1, E2. lia.
    + edestruct RR as [(r' & H1 & H2) H3]; [exact P1|exact P2| |reflexivity|reflexivity|]; [apply close_delegated; [exact C|pose proof (ct_sfo _ _ _ _ C); lia]|].
      split; [exists r'; split; [exact H1|lia]|lia].
  - (* Claim *)
    destruct P1 as (a1 & R1 & -> & ->), P2 as (a2 & R2 & -> & ->). destruct (RS _ _ R1 R2) as [B HB]. pose proof (LE _ _ R2) as L2.
    unfold adds, opens in *. cbn [emptied wm_diffs]. split; [|lia]. exists (r + segments ts m). split; [|lia].
    destruct B as [O S I U]. constructor; try assumption. cbn [emptied wm m_unclaimed]. lia.
  - (* ExtendStake *)
    destruct P1 as [-> P1], P2 as [-> P2]. destruct NW as (<- & <- & <- & NS & Ha). cbn [plus] in PJ. unfold adds, opens in *. change (existsb (Nat.eqb 1) l) with (here 1 l) in *.
    destruct (here 1 l) eqn:EH.
    + destruct P1 as (a1 & t1 & R1 & O1 & E1 & L1 & S1 & _), P2 as (a2 & t2 & R2 & O2 & E2 & L2 & S2 & _). destruct (RS _ _ R1 R2) as [B HB].
      pose proof (refreshed_asc _ _ _ _ A1 R1) as B1. pose proof (refreshed_asc _ _ _ _ A2 R2) as B2. pose proof (LE _ _ R2) as LL2.
      assert (LL : map fst t1 = map fst (wm_diffs a1) /\ map fst t2 = map fst (wm_diffs a2) /\ ascending t1 /\ ascending t2 /\
        exists h : Z -> Z, forall d, Spec.due d t1 = Spec.due d (wm_diffs a1) - h d /\ Spec.due d t2 = Spec.due d (wm_diffs a2) - h d).
      { destruct (unexpired _ _ ts).
        - pose proof L1 as (_ & _ & K1 & _). pose proof L2 as (_ & _ & K2 & _). split; [exact K1|]. split; [exact K2|].
          split; [eapply ascending_keys; [symmetry; exact K1|exact B1]|]. split; [eapply ascending_keys; [symmetry; exact K2|exact B2]|].
          eexists (fun d => if _ <=? d then _ else 0). intros d. split; [exact (lowered_less _ _ _ _ d B1 L1)|exact (lowered_less _ _ _ _ d B2 L2)].
        - subst. split; [reflexivity|]. split; [reflexivity|]. split; [exact B1|]. split; [exact B2|]. exists (fun _ => 0). intros d. lia. }
      destruct LL as (K1 & K2 & C1 & C2 & h & HL). apply keys_length in K1, K2.
      pose proof (scheduled_length _ _ _ _ _ C1 A1' S1). pose proof (scheduled_length _ _ _ _ _ C2 A2' S2).
      split; [|lia]. exists (r + segments ts m). replace (z + 0 - 0) with z by lia. split; [|lia].
      eapply close_stake; [exact B|exact O1|exact O2|]. intros d. pose proof (ct_own _ _ _ _ B d) as Q. unfold own in *. destruct (HL d) as [H3 H4].
      assert (HH : 0 <= base + additional0 <= base + additional) by lia.
      pose proof (locked_more _ _ _ _ _ _ _ _ _ _ NS HH C1 C2 A1' A2' ltac:(lia) S1 S2 d). rewrite E1, E2. lia.
    + destruct P1 as (b1 & R1 & ->), P2 as (b2 & R2 & ->). replace (z + 0 - 0) with z by lia. cbn [with_delegated wm_diffs].
      split; [|pose proof (LE _ _ R2) as Q; cbn [with_delegated wm_diffs] in Q; lia].
      exists (r + segments ts m). split; [|pose proof (refreshed_length _ _ _ _ R1) as Q; unfold segments in *; cbn [with_delegated wm_diffs] in Q; lia].
      apply close_delegated; [|pose proof (ct_sfo _ _ _ _ C); lia].
      pose proof (close_delegated _ _ _ _ (m_sfo (wm m) - base) (m_sfo (wm n) - base) C ltac:(pose proof (ct_sfo _ _ _ _ C); lia)) as C'.
      exact (refresh_close _ _ _ _ _ _ _ _ G C' R1 R2).
  - (* ChangeDelegate *)
    destruct P1 as [-> P1], P2 as [-> P2]. pose proof (AD (ChangeDelegate 0 0)) as _. unfold adds, opens in *.
    assert (exists x y, close_to x y z r /\ wm_diffs x = wm_diffs m /\ wm_diffs y = wm_diffs n /\ refreshed ts ci x m' /\ refreshed ts ci y n') as (x & y & B & Ex & Ey & R1 & R2).
    { destruct (here 1 l) eqn:EH; [exists m, n; auto|].
      assert (~ In 1%nat l) as N1 by (rewrite <- here_in, EH; discriminate). destruct (NW N1) as [Q1 Q2]. pose proof (ct_sfo _ _ _ _ C).
      destruct (here 4 l) eqn:E4.
      - apply here_in in E4. specialize (Q1 E4). do 2 eexists. split; [|split; [|split; [|split; [exact P1|exact P2]]]]; [|reflexivity|reflexivity].
        apply close_delegated; [exact C|lia].
      - assert (~ In 4%nat l) as N4 by (rewrite <- here_in, E4; discriminate). specialize (Q2 N4).
        do 2 eexists. split; [|split; [|split; [|split; [exact P1|exact P2]]]]; [|reflexivity|reflexivity]. apply close_delegated; [exact C|lia]. }
    destruct (RR _ _ R1 R2 B Ex Ey) as [(r' & H1 & H2) H3]. split; [exists r'; split; [exact H1|lia]|lia].
  - (* Slash *)
    destruct P1 as [-> P1], P2 as [-> P2]. destruct NW as (<- & Hn & Hw). unfold adds, opens in *.
    destruct P1 as (a1 & R1 & O1 & E1 & T1), P2 as (a2 & R2 & O2 & E2 & T2). destruct (RS _ _ R1 R2) as [B HB]. pose proof (LE _ _ R2) as L2.
    replace (z + 0 - 0) with z by lia.
    match type of T1 with match ?d with _ => _ end => destruct d as [u|] end.
    + pose proof T1 as (_ & _ & K1 & _). pose proof T2 as (_ & _ & K2 & _). apply keys_length in K1, K2. rewrite K1, K2.
      split; [|lia]. exists (r + segments ts m). split; [|lia].
      eapply close_stake; [exact B|exact O1|exact O2|]. intros d. pose proof (ct_own _ _ _ _ B d) as Q. unfold own in *.
      rewrite (lowered_less _ _ _ _ d (refreshed_asc _ _ _ _ A1 R1) T1), (lowered_less _ _ _ _ d (refreshed_asc _ _ _ _ A2 R2) T2), E1, E2.
      destruct (_ <=? d); lia.
    + rewrite T1, T2. split; [|lia]. exists (r + segments ts m). split; [|lia].
      eapply close_stake; [exact B|exact O1|exact O2|]. intros d. pose proof (ct_own _ _ _ _ B d) as Q. unfold own in *. rewrite T1, T2, E1, E2. lia.
  - (* DecreaseRewards *)
    destruct P1 as [-> P1], P2 as [-> P2]. replace (z + 0 - 0) with z by lia. unfold adds, opens in *.
    pose proof P1 as (O1 & E1 & K1 & _). pose proof P2 as (O2 & E2 & K2 & _). apply keys_length in K1, K2. rewrite K1, K2.
    split; [|lia]. exists r. split; [|lia].
    eapply close_stake; [exact C|exact O1|exact O2|].
    intros d. rewrite (own_decreased _ _ _ d V1 P1), (own_decreased _ _ _ d V2 P2).
    pose proof (ct_own _ _ _ _ C d). pose proof (close_most _ _ _ _ C). pose proof (close_least _ _ _ _ C). lia.
Qed.

Lemma opens_adds ts i bs l : (if opens (ts, i, bs, l) then 1 else 0) = adds i l.
Proof. reflexivity. Qed.
Lemma how_many_cons f x b : how_many f (x :: b) = (if f x then 1 else 0) + how_many f b.
Proof. unfold how_many. cbn [filter]. destruct (f x); cbn [length]; lia. Qed.
Lemma how_many_pos f b : 0 <= how_many f b.
Proof. unfold how_many. lia. Qed.
Definition amounts (x : full_entry) : Prop := let '(_, i, _, _) := x in plus i.

Lemma walks_close b1 v m x v' m' : walk b1 v m x v' m' -> forall b2, Forall2 longer b1 b2 -> Forall amounts b2 ->
  forall w n y w' n' z r, walk b2 w n y w' n' ->
  map fst (wp_ci v) = map fst (wp_ci w) -> wp_ci v' = wp_ci w' ->
  Z.of_nat (length (wm_diffs n)) + how_many opens b2 <= 50 ->
  close_to m n z r -> exists r', close_to m' n' (z + y - x) r' /\
    r' + Z.of_nat (length (wm_diffs m')) <= r + Z.of_nat (length (wm_diffs m)) + how_many works b1 + how_many opens b1.
Proof.
  induction 1 as [v m G M|[[[ts i] bs] l] b v m p v1 m1 x v' m' G M S P H IH]; intros b2 B AM w n y w' n' z r W K E RM A.
  - inversion B; subst. inversion W; subst. replace (z + 0 - 0) with z by lia. exists r. split; [exact A|]. change (how_many works []) with 0. change (how_many opens []) with 0. lia.
  - inversion B as [|? [[[ts2 j] cs] l2] ? c BT BF]; subst. inversion W as [|? ? ? ? q w1 n1 y1 ? ? G2 M2 S2 P2 W2]; subst.
    inversion AM as [|? ? AJ AM']; subst. cbn [amounts] in AJ.
    destruct BT as (<- & <- & Hd & Hn). destruct P as [P1 PM1], P2 as [P2 PM2].
    rewrite !how_many_cons, !opens_adds in *. pose proof (how_many_pos opens c).
    assert (Hdd : i = DistributeRewards <-> j = DistributeRewards).
    { destruct l as [|n0 l]; [apply Hd; reflexivity|]. specialize (Hn ltac:(discriminate)).
      destruct i, j; cbn [no_worse_locked no_worse] in Hn; try contradiction; split; discriminate. }
    assert (K1 : map fst (wp_ci v1) = map fst (wp_ci w1)) by (eapply pstep_days; eassumption).
    assert (A1 : (exists r', close_to m1 n1 (z + q - p) r' /\
       r' + Z.of_nat (length (wm_diffs m1)) <= r + Z.of_nat (length (wm_diffs m)) + (if works (ts, i, bs, l) then 1 else 0) + adds i l) /\
       Z.of_nat (length (wm_diffs n1)) <= Z.of_nat (length (wm_diffs n)) + adds j l).
    { assert (AD : forall i, 0 <= adds i l) by (intros k; unfold adds; destruct (opens _); lia).
      destruct l as [|n0 l].
      - destruct PM1 as [-> ->], PM2 as [-> ->]. replace (z + 0 - 0) with z by lia. pose proof (AD i). pose proof (AD j). cbn [works snd]. split; [exists r; split; [exact A|lia]|lia].
      - destruct (walk_good _ _ _ _ _ _ H) as [_ M1']. destruct (walk_good _ _ _ _ _ _ W2) as [_ M2'].
        destruct (pwalk_ci _ _ _ (walk_pwalk _ _ _ _ _ _ H)) as (r1 & E1). destruct (pwalk_ci _ _ _ (walk_pwalk _ _ _ _ _ _ W2)) as (r2 & E2).
        destruct (pstep_ci _ _ _ P1) as (s1 & F1). destruct (pstep_ci _ _ _ P2) as (s2 & F2).
        assert (C : wp_ci v = wp_ci w).
        { assert (C1 : firstn (length (wp_ci v)) (wp_ci v') = wp_ci v) by (rewrite E1, F1, <- app_assoc; apply take_app).
          assert (C2 : firstn (length (wp_ci v)) (wp_ci w') = wp_ci w) by (rewrite (keys_length _ _ K), E2, F2, <- app_assoc; apply take_app).
          rewrite <- C1, <- C2, E. reflexivity. }
        rewrite <- C in PM2. change (if works (ts, i, bs, n0 :: l) then 1 else 0) with 1.
        eapply (page_close ts i j (n0 :: l) (wp_ci v) m n z r p q).
        + destruct G as (nw & G). exact (pw_ci_grow _ _ G).
        + exact (mw_asc _ M).
        + exact (mw_asc _ M2).
        + exact (mw_vals _ M).
        + exact (mw_vals _ M2).
        + exact (mw_asc _ M1').
        + exact (mw_asc _ M2').
        + apply Hn. discriminate.
        + exact AJ.
        + lia.
        + exact A.
        + exact PM1.
        + exact PM2. }
    destruct A1 as [(r1 & A1 & Hr) Hl].
    replace (z + (q + y1) - (p + x)) with ((z + q - p) + y1 - x) by lia.
    destruct (IH _ BF AM' _ _ _ _ _ _ _ W2 K1 E ltac:(lia) A1) as (r' & A' & Hr'). exists r'. split; [exact A'|lia].
Qed.

Lemma gist_amounts i : ix_in_range i -> plus (gist i).
Proof. destruct i; cbn [gist plus ix_in_range]; auto; unfold is_u64; lia. Qed.
Lemma log_amounts e P k now L now' L' b x : full_log e P k now L now' L' b x -> Forall amounts b.
Proof.
  induction 1 as [now L O OM|now L ts ms i L1 r now' L' b x O OM Hts Hu Hi X HH HI IH|now L ts L1 now' L' b x O OM Hts Hu X HI IH]; [constructor| |exact IH].
  apply Forall_app. split; [|exact IH]. unfold logged_with. pose proof (gist_amounts _ Hi).
  destruct (names _ _ _); [|constructor]. destruct (writes_pool i), (places k ms i); repeat constructor; assumption.
Qed.

Lemma longer_lockup e1 e2 : env_ok e1 -> env_ok e2 -> forall P1 P2 k1 k2 now1 L1 now1' L1' now2 L2 now2' L2' b c x y v w v' w' m n m' n',
  reached e1 now1 L1 -> reached e2 now2 L2 ->
  full_log e1 P1 k1 now1 L1 now1' L1' b x -> full_log e2 P2 k2 now2 L2 now2' L2' c y -> Forall2 longer b c ->
  is_pool e1 L1 P1 v -> is_pool e2 L2 P2 w -> map fst (wp_ci v) = map fst (wp_ci w) ->
  is_mining e1 L1 k1 m -> is_mining e2 L2 k2 n -> no_less m n ->
  Z.of_nat (length (wm_diffs n)) + how_many opens c <= 50 ->
  is_pool e1 L1' P1 v' -> is_pool e2 L2' P2 w' -> wp_ci v' = wp_ci w' ->
  is_mining e1 L1' k1 m' -> is_mining e2 L2' k2 n' ->
  P16 * (y + m_unclaimed (wm n')) <= P16 * (x + m_unclaimed (wm m')) + (P16 - 1) * (how_many works b + how_many opens b + Z.of_nat (length (wm_diffs m))) /\
  forall d, eff n' d <= eff m' d.
Proof.
  intros H1 H2 P1 P2 k1 k2 now1 L1 now1' L1' now2 L2 now2' L2' b c x y v w v' w' m n m' n' R1 R2 D1 D2 B V W K M N A RM V' W' E M' N'.
  destruct (full_log_walk e1 H1 _ _ _ _ _ _ _ _ D1 R1 v m V M) as (v1 & m1 & X1 & Y1 & S1).
  rewrite (pool_fun e1 _ _ _ _ X1 V'), (mining_fun e1 _ _ _ _ Y1 M') in S1.
  destruct (full_log_walk e2 H2 _ _ _ _ _ _ _ _ D2 R2 w n W N) as (w1 & n1 & X2 & Y2 & S2).
  rewrite (pool_fun e2 _ _ _ _ X2 W'), (mining_fun e2 _ _ _ _ Y2 N') in S2.
  destruct A as [E1 E2 E3 E4].
  assert (A0 : close_to m n 0 0) by (constructor; [exact E1|exact E2|exact E3|lia]).
  destruct (walks_close _ _ _ _ _ _ S1 c B (log_amounts _ _ _ _ _ _ _ _ _ D2) _ _ _ _ _ 0 0 S2 K E RM A0) as (r' & [O Sf I U] & Hr). split; [|].
  - lia.
  - intros d. specialize (O d). unfold own, eff in *. lia.
Qed.
