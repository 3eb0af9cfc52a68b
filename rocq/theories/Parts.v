(** Proofs of C92: one staker, or two who share the same stake. *)
From stdpp Require Import gmap.
From Verif Require Import Base OMap State Spec EffectSpec Ledger Program ResLemmas TreeLemmas AccrualLemmas RefreshLemmas WfLemmas LedgerLemmas LedgerSpec
  CodecLemmas History HistoryLemmas Changes AccessLemmas HistoryThms ReachThms EffectLemmas EffectMethods EffectThms EffectMore EffectCompare
  SuccessSpec SuccessThms LedgerCore Determined Commute CompleteSpec Complete PowerSpec Powers FreezeSpec Choice GapSpec Gap CapSpec Cap
  CoreInv Split DustSpec DebtSpec Debt IncomeSpec Income DiarySpec Diary LogSpec Log CompareSpec Compare LongerSpec Longer OwnSpec Own PartsSpec.

Local Notation P16 := 10000000000000000.

(** ** Schedules *)
Definition adds (t u v : sched) : Prop :=
  map fst t = map fst u /\ map fst t = map fst v /\ forall k, at_date k t = at_date k u + at_date k v.
Lemma at_none k (t : sched) : ~ In k (map fst t) -> at_date k t = 0.
Proof.
  induction t as [|[d x] t IH]; intros H; [reflexivity|]. cbn [at_date map fst In] in *. destruct (Z.eqb_spec d k); [tauto|]. apply IH. tauto.
Qed.
Lemma asc_head k x (t : sched) : ascending ((k, x) :: t) -> ~ In k (map fst t).
Proof. intros [H _] I. apply in_map_iff in I as ([d y] & E & I). cbn in E. subst. specialize (H k y I). cbv beta in H. lia. Qed.
Lemma adds_tail k x y z t u v : ascending ((k, x) :: t) -> adds ((k, x) :: t) ((k, y) :: u) ((k, z) :: v) -> x = y + z /\ adds t u v.
Proof.
  intros A (E1 & E2 & H). cbn in E1, E2. injection E1 as E1. injection E2 as E2. pose proof (asc_head _ _ _ A) as N.
  split; [specialize (H k); cbn [at_date] in H; rewrite Z.eqb_refl in H; exact H|]. split; [exact E1|]. split; [exact E2|]. intros d. specialize (H d). cbn [at_date] in H.
  destruct (Z.eqb_spec k d) as [E|]; [rewrite <- E|exact H]. rewrite !at_none; [reflexivity|rewrite <- E2; exact N|rewrite <- E1; exact N|exact N].
Qed.
Lemma adds_cases t u v : adds t u v -> (t = [] /\ u = [] /\ v = []) \/
  exists k x y z t1 u1 v1, t = (k, x) :: t1 /\ u = (k, y) :: u1 /\ v = (k, z) :: v1.
Proof.
  intros (E1 & E2 & _). destruct t as [|[k x] t], u as [|[k1 y] u], v as [|[k2 z] v]; try discriminate; [auto|]. cbn in *. injection E1 as <- E1. injection E2 as <- E2.
  right. repeat eexists.
Qed.
Lemma adds_due d : forall t u v, ascending t -> adds t u v -> due d t = due d u + due d v.
Proof.
  induction t as [|[k x] t IH]; intros u v A H; destruct (adds_cases _ _ _ H) as [(E & -> & ->)|(k' & x' & y & z & t' & u' & v' & E & -> & ->)]; try discriminate; [reflexivity|].
  injection E as <- <- <-. destruct (adds_tail _ _ _ _ _ _ _ A H) as [-> H']. cbn [due]. rewrite (IH _ _ (proj2 A) H'). destruct (k <=? d); lia.
Qed.
Lemma adds_after b t u v : adds t u v -> adds (Spec.after b t) (Spec.after b u) (Spec.after b v).
Proof.
  intros (E1 & E2 & H). split; [apply keys_after; exact E1|]. split; [apply keys_after; exact E2|]. intros k. rewrite !at_after, H. destruct (k <=? b); lia.
Qed.
Lemma adds_upto b t u v : adds t u v -> adds (upto b t) (upto b u) (upto b v).
Proof.
  intros (E1 & E2 & H). split; [apply keys_upto; exact E1|]. split; [apply keys_upto; exact E2|]. intros k. rewrite !at_upto, H. destruct (k <=? b); lia.
Qed.
Lemma asc_upto b t : ascending t -> ascending (upto b t).
Proof.
  induction t as [|[k x] t IH]; [auto|]. intros [H1 H2]. unfold upto in *. cbn [filter fst]. destruct (k <=? b); [|auto].
  split; [|auto]. intros d y I. apply filter_In in I. exact (H1 d y (proj1 I)).
Qed.
Lemma adds_lowered d x y z t u v t' u' v' : adds t u v -> x = y + z -> lowered d x t t' -> lowered d y u u' -> lowered d z v v' -> adds t' u' v'.
Proof.
  intros (E1 & E2 & H) -> (_ & _ & K1 & V1) (_ & _ & K2 & V2) (_ & _ & K3 & V3). split; [congruence|]. split; [congruence|].
  intros k. rewrite V1, V2, V3, H. destruct (k =? d); lia.
Qed.
Lemma adds_scheduled cap d x y z t u v t' u' v' : adds t u v -> x = y + z ->
  ascending t -> ascending u -> ascending v -> ascending t' -> ascending u' -> ascending v' ->
  scheduled cap d x t t' -> scheduled cap d y u u' -> scheduled cap d z v v' -> adds t' u' v'.
Proof.
  intros (E1 & E2 & H) -> A1 A2 A3 B1 B2 B3 S1 S2 S3.
  split; [exact (proj1 (scheduled_both _ _ _ _ _ _ _ _ E1 A1 A2 B1 B2 S1 S2))|].
  split; [exact (proj1 (scheduled_both _ _ _ _ _ _ _ _ E2 A1 A3 B1 B3 S1 S3))|].
  pose proof (keys_length _ _ E1) as L1. pose proof (keys_length _ _ E2) as L2.
  destruct S1 as [P1 Q1], S2 as [P2 Q2], S3 as [P3 Q3]. rewrite <- L1 in *. rewrite <- L2 in *. intros k.
  destruct (has_date_dec d t) as [D|D].
  - pose proof (keys_in t u d E1 D) as D2. pose proof (keys_in t v d E2 D) as D3.
    rewrite (proj1 (P1 (or_introl D)) k), (proj1 (P2 (or_introl D2)) k), (proj1 (P3 (or_introl D3)) k), H. destruct (k =? d); lia.
  - destruct (Z.lt_ge_cases (Z.of_nat (length t)) cap) as [C|C].
    + rewrite (proj1 (P1 (or_intror C)) k), (proj1 (P2 (or_intror C)) k), (proj1 (P3 (or_intror C)) k), H. destruct (k =? d); lia.
    + assert (D2 : ~ has_date d u) by (intros I; apply D; exact (keys_in u t d (eq_sym E1) I)).
      assert (D3 : ~ has_date d v) by (intros I; apply D; exact (keys_in v t d (eq_sym E2) I)).
      rewrite (Q1 D C), (Q2 D2 C), (Q3 D3 C). apply H.
Qed.

(** ** What is credited *)
Lemma floor_adds a b : 0 <= (a + b) / P16 - a / P16 - b / P16 <= 1.
Proof.
  pose proof (Z.div_mod a P16 ltac:(lia)). pose proof (Z.div_mod b P16 ltac:(lia)). pose proof (Z.div_mod (a + b) P16 ltac:(lia)).
  pose proof (Z.mod_pos_bound a P16 ltac:(lia)). pose proof (Z.mod_pos_bound b P16 ltac:(lia)). pose proof (Z.mod_pos_bound (a + b) P16 ltac:(lia)). lia.
Qed.
Lemma earned_adds ci ts : forall t u v s s1 s2 j, ascending t -> adds t u v -> s = s1 + s2 ->
  0 <= earned ci s j t ts - earned ci s1 j u ts - earned ci s2 j v ts <= 1 + Z.of_nat (length t).
Proof.
  induction t as [|[k x] t IH]; intros u v s s1 s2 j A H ->; destruct (adds_cases _ _ _ H) as [(E & -> & ->)|(k' & x' & y & z & t' & u' & v' & E & -> & ->)]; try discriminate.
  - cbn [earned length]. pose proof (floor_adds ((visible ts ci - j) * s1) ((visible ts ci - j) * s2)) as F. rewrite <- Z.mul_add_distr_l in F. lia.
  - injection E as <- <- <-. destruct (adds_tail _ _ _ _ _ _ _ A H) as [-> H']. cbn [earned length].
    specialize (IH u' v' (s1 + s2 - (y + z)) (s1 - y) (s2 - z) (visible k ci) (proj2 A) H' ltac:(lia)).
    pose proof (floor_adds ((visible k ci - j) * s1) ((visible k ci - j) * s2)) as F. rewrite <- Z.mul_add_distr_l in F. lia.
Qed.
Lemma length_split b (t : sched) : Z.of_nat (length (upto b t)) = Z.of_nat (length t) - Z.of_nat (length (Spec.after b t)).
Proof.
  induction t as [|[k x] t IH]; [reflexivity|]. unfold upto, Spec.after in *. cbn [filter fst length].
  destruct (Z.leb_spec k b), (Z.ltb_spec b k); cbn [length]; lia.
Qed.
Definition len (m : wmining) : Z := Z.of_nat (length (wm_diffs m)).
Definition gap (m n o : wmining) : Z := m_unclaimed (wm m) - m_unclaimed (wm n) - m_unclaimed (wm o).
Definition adds_of m n o (H : parted m n o) : adds (wm_diffs m) (wm_diffs n) (wm_diffs o) :=
  conj (pd_dates1 _ _ _ H) (conj (pd_dates2 _ _ _ H) (pd_amounts _ _ _ H)).

Lemma parted_refreshed ts ci m n o m' n' o' : parted m n o -> ascending (wm_diffs m) ->
  refreshed ts ci m m' -> refreshed ts ci n n' -> refreshed ts ci o o' ->
  parted m' n' o' /\ 0 <= gap m' n' o' - gap m n o <= 1 + len m - len m'.
Proof.
  intros H A R1 R2 R3. pose proof (adds_of _ _ _ H) as HA. split.
  - destruct (adds_after (day_start ts) _ _ _ HA) as (K1 & K2 & K3). constructor.
    + rewrite (rf_diffs _ _ _ _ R1), (rf_diffs _ _ _ _ R2). exact K1.
    + rewrite (rf_diffs _ _ _ _ R1), (rf_diffs _ _ _ _ R3). exact K2.
    + intros d. rewrite (rf_diffs _ _ _ _ R1), (rf_diffs _ _ _ _ R2), (rf_diffs _ _ _ _ R3). apply K3.
    + rewrite (rf_share _ _ _ _ R1), (rf_share _ _ _ _ R2), (rf_share _ _ _ _ R3), (adds_due _ _ _ _ A HA), (pd_share _ _ _ H). lia.
    + rewrite (rf_sfo _ _ _ _ R1), (rf_sfo _ _ _ _ R2), (rf_sfo _ _ _ _ R3). apply H.
    + rewrite (rf_index _ _ _ _ R1), (rf_index _ _ _ _ R2). reflexivity.
    + rewrite (rf_index _ _ _ _ R1), (rf_index _ _ _ _ R3). reflexivity.
  - unfold gap, len. rewrite (rf_unclaimed _ _ _ _ R1), (rf_unclaimed _ _ _ _ R2), (rf_unclaimed _ _ _ _ R3), (rf_diffs _ _ _ _ R1).
    pose proof (earned_adds ci ts _ _ _ (m_share (wm m) + m_sfo (wm m)) (m_share (wm n) + m_sfo (wm n)) (m_share (wm o) + m_sfo (wm o)) (m_index (wm m))
      (asc_upto _ _ A) (adds_upto (day_start ts) _ _ _ HA)) as F. rewrite (length_split (day_start ts)) in F.
    rewrite <- (pd_index1 _ _ _ H), <- (pd_index2 _ _ _ H).
    specialize (F ltac:(rewrite (pd_share _ _ _ H), (pd_sfo _ _ _ H); lia)). lia.
Qed.
Lemma parted_delegated m n o a b c : parted m n o -> a = b + c -> parted (with_delegated m a) (with_delegated n b) (with_delegated o c).
Proof. intros [] ->. constructor; cbn; auto. Qed.
Lemma parted_lent ts ci m n o a b c m' n' o' : parted m n o -> ascending (wm_diffs m) ->
  refreshed ts ci (with_delegated m a) m' -> refreshed ts ci (with_delegated n b) n' -> refreshed ts ci (with_delegated o c) o' -> a = b + c ->
  parted m' n' o' /\ 0 <= gap m' n' o' - gap m n o <= 1 + len m - len m'.
Proof. intros H A R1 R2 R3 E. exact (parted_refreshed ts ci _ _ _ _ _ _ (parted_delegated m n o a b c H E) A R1 R2 R3). Qed.
Lemma parted_stake m n o m' n' o' : parted m n o -> only_stake m m' -> only_stake n n' -> only_stake o o' ->
  m_share (wm m') = m_share (wm n') + m_share (wm o') -> adds (wm_diffs m') (wm_diffs n') (wm_diffs o') ->
  parted m' n' o' /\ gap m' n' o' = gap m n o.
Proof.
  intros H (_ & I1 & U1 & F1) (_ & I2 & U2 & F2) (_ & I3 & U3 & F3) S (K1 & K2 & K3). split.
  - constructor; try assumption; rewrite ?I1, ?I2, ?I3, ?F1, ?F2, ?F3; apply H.
  - unfold gap. congruence.
Qed.

(** ** One entry of each mining *)
Definition one (b : bool) : Z := if b then 1 else 0.
Definition puts (i : ix) : bool := match i with DepositMining _ _ _ _ | ExtendStake _ _ _ _ _ _ _ => true | _ => false end.
Lemma lowered_len d x (t t' : sched) : lowered d x t t' -> length t' = length t.
Proof. intros (_ & _ & K & _). exact (keys_length _ _ K). Qed.

Lemma parted_page ts i j h l ci m n o p q r m' n' o' : parted m n o ->
  ascending (wm_diffs m) -> ascending (wm_diffs n) -> ascending (wm_diffs o) ->
  ascending (wm_diffs m') -> ascending (wm_diffs n') -> ascending (wm_diffs o') ->
  sums i j h -> page (ts, i, l, ci) m p m' -> page (ts, j, l, ci) n q n' -> page (ts, h, l, ci) o r o' ->
  parted m' n' o' /\ 0 <= (p + gap m' n' o' - q - r) - gap m n o <= 1 + len m - len m' + one (puts i).
Proof.
  intros H A1 A2 A3 B1 B2 B3 S. destruct i, j, h; cbn [sums] in S; try contradiction; cbn [page puts one].
  - destruct S as (<- & <- & S). intros [-> X1] [-> X2] [-> X3]. destruct (here 1 l).
    + destruct X1 as (m1 & R1 & O1 & S1 & D1 & _), X2 as (n1 & R2 & O2 & S2 & D2 & _), X3 as (o1 & R3 & O3 & S3 & D3 & _).
      destruct (parted_refreshed _ _ _ _ _ _ _ _ H A1 R1 R2 R3) as [H1 G1].
      pose proof (refreshed_asc _ _ _ _ A1 R1) as C1. pose proof (refreshed_asc _ _ _ _ A2 R2) as C2. pose proof (refreshed_asc _ _ _ _ A3 R3) as C3.
      destruct (parted_stake _ _ _ m' n' o' H1 O1 O2 O3) as [H2 G2].
      { rewrite S1, S2, S3, (pd_share _ _ _ H1), S. lia. }
      { eapply adds_scheduled; [exact (adds_of _ _ _ H1)| |eassumption..]. rewrite S. lia. }
      split; [exact H2|]. pose proof (scheduled_length _ _ _ _ _ C1 B1 D1). unfold len in *. lia.
    + destruct (parted_lent ts ci _ _ _ _ _ _ _ _ _ H A1 X1 X2 X3 ltac:(rewrite (pd_sfo _ _ _ H), S; lia)) as [H1 G1].
      split; [exact H1|].  unfold gap, len in *. cbn [with_delegated wm m_unclaimed wm_diffs] in *. lia.
  - intros [-> X1] [-> X2] [-> X3]. destruct (here 1 l).
    + destruct X1 as (m1 & R1 & O1 & S1 & D1), X2 as (n1 & R2 & O2 & S2 & D2), X3 as (o1 & R3 & O3 & S3 & D3).
      destruct (parted_refreshed _ _ _ _ _ _ _ _ H A1 R1 R2 R3) as [H1 G1].
      destruct (parted_stake _ _ _ m' n' o' H1 O1 O2 O3) as [H2 G2].
      { rewrite S1, S2, S3, (pd_share _ _ _ H1), S. lia. }
      { rewrite D1, D2, D3. exact (adds_of _ _ _ H1). }
      split; [exact H2|]. unfold len in *. rewrite D1. lia.
    + destruct (parted_lent ts ci _ _ _ _ _ _ _ _ _ H A1 X1 X2 X3 ltac:(rewrite (pd_sfo _ _ _ H), S; lia)) as [H1 G1].
      split; [exact H1|]. unfold gap, len in *. cbn [with_delegated wm m_unclaimed wm_diffs] in *. lia.
  - destruct S as (<- & <- & <- & <- & <- & <- & Sb & Sa). intros [-> X1] [-> X2] [-> X3]. destruct (here 1 l).
    + destruct X1 as (m1 & t1 & R1 & O1 & S1 & L1 & D1 & _), X2 as (n1 & t2 & R2 & O2 & S2 & L2 & D2 & _), X3 as (o1 & t3 & R3 & O3 & S3 & L3 & D3 & _).
      destruct (parted_refreshed _ _ _ _ _ _ _ _ H A1 R1 R2 R3) as [H1 G1].
      pose proof (refreshed_asc _ _ _ _ A1 R1) as C1. pose proof (refreshed_asc _ _ _ _ A2 R2) as C2. pose proof (refreshed_asc _ _ _ _ A3 R3) as C3.
      assert (Ts : adds t1 t2 t3 /\ ascending t1 /\ ascending t2 /\ ascending t3 /\ length t1 = length (wm_diffs m1)).
      { match type of L1 with if ?c then _ else _ => destruct c end.
        - split; [eapply adds_lowered; [exact (adds_of _ _ _ H1)| |eassumption..]; rewrite Sb; lia|].
          split; [eapply ascending_keys; [symmetry; apply L1|exact C1]|]. split; [eapply ascending_keys; [symmetry; apply L2|exact C2]|].
          split; [eapply ascending_keys; [symmetry; apply L3|exact C3]|]. exact (lowered_len _ _ _ _ L1).
        - subst. split; [exact (adds_of _ _ _ H1)|]. auto. }
      destruct Ts as (T0 & T1 & T2 & T3 & TL).
      destruct (parted_stake _ _ _ m' n' o' H1 O1 O2 O3) as [H2 G2].
      { rewrite S1, S2, S3, (pd_share _ _ _ H1), Sa, Sb. unfold counted. destruct (unexpired _ _ ts); lia. }
      { eapply adds_scheduled; [exact T0| |eassumption..]. rewrite Sa, Sb. lia. }
      split; [exact H2|]. pose proof (scheduled_length _ _ _ _ _ T1 B1 D1). unfold len in *. lia.
    + destruct X1 as (z1 & X1 & ->), X2 as (z2 & X2 & ->), X3 as (z3 & X3 & ->).
      destruct (parted_lent ts ci _ _ _ _ _ _ _ _ _ H A1 X1 X2 X3 ltac:(rewrite (pd_sfo _ _ _ H), Sb; lia)) as [H1 G1].
      split; [apply parted_delegated; [exact H1|]; rewrite (pd_sfo _ _ _ H), Sa; lia|]. unfold gap, len in *. cbn [with_delegated wm m_unclaimed wm_diffs] in *. lia.
  - intros [-> X1] [-> X2] [-> X3]. destruct (here 1 l); [|destruct (here 4 l)].
    + destruct (parted_refreshed _ _ _ _ _ _ _ _ H A1 X1 X2 X3) as [H1 G1]. split; [exact H1|lia].
    + destruct (parted_lent ts ci _ _ _ _ _ _ _ _ _ H A1 X1 X2 X3 ltac:(rewrite (pd_sfo _ _ _ H), S; lia)) as [H1 G1].
      split; [exact H1|]. unfold gap, len in *. cbn [with_delegated wm m_unclaimed wm_diffs] in *. lia.
    + destruct (parted_lent ts ci _ _ _ _ _ _ _ _ _ H A1 X1 X2 X3 ltac:(rewrite (pd_sfo _ _ _ H), S; lia)) as [H1 G1].
      split; [exact H1|]. unfold gap, len in *. cbn [with_delegated wm m_unclaimed wm_diffs] in *. lia.
  - destruct S as (<- & <- & Sn & Sw). intros [-> X1] [-> X2] [-> X3].
    destruct X1 as (m1 & R1 & O1 & S1 & D1), X2 as (n1 & R2 & O2 & S2 & D2), X3 as (o1 & R3 & O3 & S3 & D3).
    destruct (parted_refreshed _ _ _ _ _ _ _ _ H A1 R1 R2 R3) as [H1 G1].
    destruct (parted_stake _ _ _ m' n' o' H1 O1 O2 O3) as [H2 G2].
    { rewrite S1, S2, S3, (pd_share _ _ _ H1), Sw. lia. }
    { match type of D1 with match ?d with _ => _ end => destruct d end.
      - eapply adds_lowered; [exact (adds_of _ _ _ H1)| |eassumption..]. lia.
      - rewrite D1, D2, D3. exact (adds_of _ _ _ H1). }
    split; [exact H2|]. unfold len in *. 
    match type of D1 with match ?d with _ => _ end => destruct d end; [rewrite (lowered_len _ _ _ _ D1)|rewrite D1]; lia.
Qed.
Lemma parted_claim ts l ci m n o p q r m' n' o' : parted m n o -> ascending (wm_diffs m) ->
  page (ts, Claim, l, ci) m p m' -> page (ts, Claim, l, ci) n q n' -> page (ts, Claim, l, ci) o r o' ->
  parted m' n' o' /\ 0 <= (p + gap m' n' o' - q - r) - gap m n o <= 1 + len m - len m'.
Proof.
  intros H A (m1 & R1 & -> & ->) (n1 & R2 & -> & ->) (o1 & R3 & -> & ->).
  destruct (parted_refreshed _ _ _ _ _ _ _ _ H A R1 R2 R3) as [[] G1].
  split; [constructor; assumption|]. unfold gap, len in *. cbn [emptied wm m_unclaimed wm_diffs]. lia.
Qed.

(** ** The pool *)
Lemma scheduled_twice cap d y z t u v : ascending t -> ascending u -> ascending v -> scheduled cap d y t u -> scheduled cap d z u v ->
  v = oinsert cap d (at_date d t + (y + z)) t.
Proof.
  intros A B C S1 S2. rewrite (scheduled_is _ _ _ _ _ B C S2). pose proof (scheduled_is _ _ _ _ _ A B S1) as E.
  rewrite E at 2. rewrite oinsert_twice. unfold oinsert. 
  assert (D : ohas d t = true \/ Z.of_nat (length t) < cap -> at_date d u = at_date d t + y).
  { intros D. rewrite E, at_date_oget. unfold oinsert. destruct (ohas d t) eqn:O; [rewrite oget_oput, Z.eqb_refl; reflexivity|].
    destruct D as [D|D]; [discriminate|]. rewrite (proj2 (Z.ltb_lt _ _) D), oget_oput, Z.eqb_refl. reflexivity. }
  destruct (ohas d t); [rewrite (D (or_introl eq_refl)); f_equal; lia|]. destruct (Z.ltb_spec (Z.of_nat (length t)) cap); [|reflexivity].
  rewrite (D (or_intror H)). f_equal. lia.
Qed.
Lemma lowered_twice d y z t u v : lowered d y t u -> lowered d z u v -> lowered d (y + z) t v.
Proof.
  intros (D1 & N1 & K1 & V1) (_ & N2 & K2 & V2). split; [exact D1|]. rewrite V1, Z.eqb_refl in N2. split; [lia|]. split; [congruence|].
  intros k. rewrite V2, V1. destruct (k =? d); lia.
Qed.
Lemma after_keys b (t u : sched) : map fst u = map fst (Spec.after b t) -> Spec.after b u = u /\ due b u = 0.
Proof.
  intros K. assert (D : dates (fun k => b < k) u).
  { intros k x I. apply (in_map fst) in I. rewrite K in I. apply in_map_iff in I as ([k' y] & E & I). cbn in E. subst. apply in_after in I. lia. }
  split; [|apply due_nil_below; exact D]. clear K. induction u as [|[k x] u IH]; [reflexivity|]. unfold Spec.after in *. cbn [filter fst].
  pose proof (D k x (or_introl eq_refl)) as Dk. cbv beta in Dk. rewrite (proj2 (Z.ltb_lt _ _) Dk), IH; [reflexivity|]. intros k' y I. apply (D k' y). right. exact I.
Qed.
Lemma there_adds b n x y : if_there b n (x + y) = if_there b n x + if_there b n y.
Proof. unfold if_there. destruct (nth n b false); lia. Qed.
Lemma alike_total v w v' w1 w2 : pools_alike v w -> only_total v v' -> only_total w w1 -> only_total w1 w2 ->
  p_total (wp v') = p_total (wp w2) -> wp_diffs v' = wp_diffs w2 -> pools_alike v' w2 /\ wp_ci w1 = wp_ci w.
Proof. unfold pools_alike, only_total. intuition congruence. Qed.

Lemma pool_split ts i j h bs v w v' w1 w2 : pools_alike v w -> sums i j h ->
  ascending (wp_diffs v) -> ascending (wp_diffs w) -> ascending (wp_diffs w1) -> ascending (wp_diffs w2) ->
  pstep (ts, i, bs) v v' -> pstep (ts, j, bs) w w1 -> pstep (ts, h, bs) w1 w2 -> pools_alike v' w2 /\ wp_ci w1 = wp_ci w.
Proof.
  intros PA S A1 A2 B1 B2. pose proof PA as (_ & ET & _ & _ & ED & _).
  destruct i, j, h; cbn [sums] in S; try contradiction; cbn [pstep].
  - destruct S as (<- & <- & ->). intros (O & T & D & AD) (O1 & T1 & D1 & _) (O2 & T2 & D2 & _).
    eapply alike_total; try eassumption.
    + rewrite T, T2, T1, there_adds, ET. lia.
    + rewrite (scheduled_twice _ _ _ _ _ _ _ A2 B1 B2 D1 D2), (scheduled_is _ _ _ _ _ A1 AD D), ED. f_equal. lia.
  - subst. intros (O & T & D) (O1 & T1 & D1) (O2 & T2 & D2). eapply alike_total; try eassumption.
    + rewrite T, T2, T1, D1, there_adds, ET, ED, due_after by lia. lia.
    + rewrite D, D2, D1, ED, after_after by lia. reflexivity.
  - destruct S as (<- & <- & <- & <- & <- & <- & -> & ->). intros (O & T & D & AD) (O1 & T1 & D1 & _) (O2 & T2 & D2 & _).
    eapply alike_total; try eassumption.
    + rewrite T, T2, T1, there_adds, ET. unfold counted. destruct (unexpired _ _ ts); lia.
    + rewrite (scheduled_twice _ _ _ _ _ _ _ A2 B1 B2 D1 D2), (scheduled_is _ _ _ _ _ A1 AD D), ED. f_equal. lia.
  - subst. intros (O & D & T) (O1 & D1 & T1) (O2 & D2 & T2). eapply alike_total; try eassumption.
    + rewrite T, T2, T1, !there_adds, ET. lia.
    + congruence.
  - destruct S as (<- & <- & -> & ->). intros (O & T & D) (O1 & T1 & D1) (O2 & T2 & D2).
    assert (K : Spec.after (day_start ts) (wp_diffs w1) = wp_diffs w1 /\ due (day_start ts) (wp_diffs w1) = 0).
    { apply (after_keys (day_start ts) (wp_diffs w)). match type of D1 with match ?d with _ => _ end => destruct d end; [apply D1|rewrite D1; reflexivity]. }
    destruct K as [K1 K2]. rewrite K1 in D2. rewrite K2 in T2. eapply alike_total; try eassumption.
    + rewrite T, T2, T1, ET, ED. lia.
    + match type of D1 with match ?d with _ => _ end => destruct d end; [|congruence].
      rewrite ED in D. eapply lowered_fun; [apply ascending_after; exact A2|exact D|].
      pose proof (lowered_twice _ _ _ _ _ _ D1 D2) as X. match goal with |- lowered _ ?a _ _ => match type of X with lowered _ ?b _ _ => replace a with b by lia end end. exact X.
Qed.
Lemma alike_step x v w v' w' : pools_alike v w -> ascending (wp_diffs v) -> pstep x v v' -> pstep x w w' -> pools_alike v' w'.
Proof.
  intros PA A S1 S2. apply plain_alike. apply plain_alike in PA. apply plain_step in S1, S2. rewrite PA in S1.
  eapply pstep_fun; [|exact S1|exact S2]. rewrite <- PA. exact A.
Qed.
Lemma works_cons ts i bs n l b : how_many works ((ts, i, bs, n :: l) :: b) = 1 + how_many works b /\
  how_many plans ((ts, i, bs, n :: l) :: b) = one (puts i) + how_many plans b.
Proof. rewrite !how_many_cons. split; [reflexivity|]. destruct i; reflexivity. Qed.

Lemma shared_walk b c d : shared b c d -> forall v m x v' m', steps b v m x v' m' ->
  forall w n y w' n', steps c w n y w' n' -> forall o z w2 o', steps d w o z w2 o' ->
  pools_alike v w -> ascending (wp_diffs v) -> ascending (wp_diffs w) ->
  ascending (wm_diffs m) -> ascending (wm_diffs n) -> ascending (wm_diffs o) -> parted m n o ->
  pools_alike v' w' /\ parted m' n' o' /\ ascending (wm_diffs m') /\
  0 <= (x + gap m' n' o' - y - z) - gap m n o <= how_many works b + how_many plans b + len m - len m'.
Proof.
  induction 1 as [|ts i bs b c d H IH|ts i j h bs l b c d Hl S H IH|ts bs l b c d Hl H IH];
    intros v m x v' m' S1 w n y w' n' S2 o z w2 o' S3 PA Av Aw Am An Ao PT.
  - inversion S1; inversion S2; inversion S3; subst. split; [assumption|]. split; [assumption|]. split; [assumption|]. unfold how_many. cbn. lia.
  - inversion S1 as [|? ? ? ? p1 v1 m1 x1 ? ? XP1 B1 C1 T1]; subst. destruct XP1 as [P1 M1]. inversion S2 as [|? ? ? ? p2 w1 n1 y1 ? ? XP2 B2 C2 T2]; subst. destruct XP2 as [P2 M2].
    inversion S3 as [|? ? ? ? p3 u1 o1 z1 ? ? XP3 B3 C3 T3]; subst. destruct XP3 as [P3 M3]. destruct M1 as [-> ->], M2 as [-> ->], M3 as [-> ->].
    rewrite (pstep_fun _ _ _ _ Aw P3 P2) in T3.
    destruct (IH _ _ _ _ _ T1 _ _ _ _ _ T2 _ _ _ _ T3 (alike_step _ _ _ _ _ PA Av P1 P2) B1 B2 Am An Ao PT) as (Q1 & Q2 & Q3 & Q4).
    split; [exact Q1|]. split; [exact Q2|]. split; [exact Q3|]. rewrite !how_many_cons. cbn [works plans]. lia.
  - destruct l as [|l0 l]; [congruence|].
    inversion S1 as [|? ? ? ? p1 v1 m1 x1 ? ? XP1 B1 C1 T1]; subst. destruct XP1 as [P1 M1]. inversion S2 as [|? ? ? ? p2 w1 n1 y1 ? ? XP2 B2 C2 T2]; subst. destruct XP2 as [P2 M2].
    inversion T2 as [|? ? ? ? p4 w3 n3 y3 ? ? XP4 B4 C4 T4]; subst. destruct XP4 as [P4 M4].
    inversion S3 as [|? ? ? ? p3 u1 o1 z1 ? ? XP3 B3 C3 T3]; subst. destruct XP3 as [P3 M3]. destruct M3 as [-> ->]. destruct M4 as [-> ->].
    rewrite (pstep_fun _ _ _ _ Aw P3 P2) in T3. inversion T3 as [|? ? ? ? p5 u3 o3 z3 ? ? XP5 B5 C5 T5]; subst. destruct XP5 as [P5 M5].
    rewrite (pstep_fun _ _ _ _ B2 P5 P4) in T5.
    destruct (pool_split _ _ _ _ _ _ _ _ _ _ PA S Av Aw B2 B4 P1 P2 P4) as [PA' EC].
    assert (E0 : wp_ci v = wp_ci w) by apply PA. rewrite E0 in M1. rewrite EC in M5.
    destruct (parted_page _ _ _ _ _ _ _ _ _ _ _ _ _ _ _ PT Am An Ao C1 C2 C5 S M1 M2 M5) as [PT' G].
    destruct (IH _ _ _ _ _ T1 _ _ _ _ _ T4 _ _ _ _ T5 PA' B1 B4 C1 C2 C5 PT') as (Q1 & Q2 & Q3 & Q4).
    split; [exact Q1|]. split; [exact Q2|]. split; [exact Q3|]. destruct (works_cons ts i bs l0 l b) as [-> ->]. lia.
  - destruct l as [|l0 l]; [congruence|].
    inversion S1 as [|? ? ? ? p1 v1 m1 x1 ? ? XP1 B1 C1 T1]; subst. destruct XP1 as [P1 M1]. inversion S2 as [|? ? ? ? p2 w1 n1 y1 ? ? XP2 B2 C2 T2]; subst. destruct XP2 as [P2 M2].
    inversion S3 as [|? ? ? ? p3 u1 o1 z1 ? ? XP3 B3 C3 T3]; subst. destruct XP3 as [P3 M3]. cbn [pstep] in P1, P2, P3. subst v1 w1 u1.
    assert (E0 : wp_ci v = wp_ci w) by apply PA. rewrite E0 in M1.
    destruct (parted_claim _ _ _ _ _ _ _ _ _ _ _ _ PT Am M1 M2 M3) as [PT' G].
    destruct (IH _ _ _ _ _ T1 _ _ _ _ _ T2 _ _ _ _ T3 PA Av Aw C1 C2 C3 PT') as (Q1 & Q2 & Q3 & Q4).
    split; [exact Q1|]. split; [exact Q2|]. split; [exact Q3|]. destruct (works_cons ts Claim bs l0 l b) as [-> ->]. cbn [puts one]. lia.
Qed.

Lemma in_two_parts e1 e2 : env_ok e1 -> env_ok e2 -> forall P1 P2 k k1 k2 now1 L1 now1' L1' now2 L2 now2' L2' b c d x y z v w v' w' m n o m' n' o' ts,
  reached e1 now1 L1 -> reached e2 now2 L2 ->
  full_log e1 P1 k now1 L1 now1' L1' b x -> full_log e2 P2 k1 now2 L2 now2' L2' c y -> full_log e2 P2 k2 now2 L2 now2' L2' d z -> shared b c d ->
  is_pool e1 L1 P1 v -> is_pool e2 L2 P2 w -> pools_alike v w ->
  is_mining e1 L1 k m -> is_mining e2 L2 k1 n -> is_mining e2 L2 k2 o -> parted m n o -> m_unclaimed (wm m) = m_unclaimed (wm n) + m_unclaimed (wm o) ->
  is_pool e1 L1' P1 v' -> is_pool e2 L2' P2 w' -> is_mining e1 L1' k m' -> is_mining e2 L2' k1 n' -> is_mining e2 L2' k2 o' ->
  pools_alike v' w' /\ parted m' n' o' /\
  let alone := x + tokens_at ts (wp_ci v') m' in
  let together := (y + tokens_at ts (wp_ci w') n') + (z + tokens_at ts (wp_ci w') o') in
  together <= alone <= together + how_many works b + how_many plans b + Z.of_nat (length (wm_diffs m)) + 1.
Proof.
  intros H1 H2 P1 P2 k k1 k2 now1 L1 now1' L1' now2 L2 now2' L2' b c d x y z v w v' w' m n o m' n' o' ts R1 R2 D1 D2 D3 SH V W PA M N O PT U V' W' M' N' O'.
  destruct (full_log_steps e1 H1 _ _ _ _ _ _ _ _ D1 R1 v m V M) as (v1 & m1 & V1 & M1 & S1).
  destruct (full_log_steps e2 H2 _ _ _ _ _ _ _ _ D2 R2 w n W N) as (w1 & n1 & W1 & N1 & S2).
  destruct (full_log_steps e2 H2 _ _ _ _ _ _ _ _ D3 R2 w o W O) as (w2 & o1 & W2 & O1 & S3).
  rewrite (pool_fun e1 _ _ _ _ V1 V'), (mining_fun e1 _ _ _ _ M1 M') in S1. rewrite (pool_fun e2 _ _ _ _ W1 W'), (mining_fun e2 _ _ _ _ N1 N') in S2.
  rewrite (mining_fun e2 _ _ _ _ O1 O') in S3.
  destruct (shared_walk _ _ _ SH _ _ _ _ _ S1 _ _ _ _ _ S2 _ _ _ _ S3 PA (pool_asc e1 H1 _ _ _ _ R1 V) (pool_asc e2 H2 _ _ _ _ R2 W)
    (mining_asc e1 H1 _ _ _ _ R1 M) (mining_asc e2 H2 _ _ _ _ R2 N) (mining_asc e2 H2 _ _ _ _ R2 O) PT) as (PA' & PT' & A' & G).
  split; [exact PA'|]. split; [exact PT'|]. cbv zeta.
  assert (EC : wp_ci v' = wp_ci w') by apply PA'. rewrite EC. pose proof (adds_of _ _ _ PT') as HA.
  pose proof (earned_adds (wp_ci w') ts _ _ _ (m_share (wm m') + m_sfo (wm m')) (m_share (wm n') + m_sfo (wm n')) (m_share (wm o') + m_sfo (wm o')) (m_index (wm m'))
    (asc_upto _ _ A') (adds_upto (day_start ts) _ _ _ HA) ltac:(rewrite (pd_share _ _ _ PT'), (pd_sfo _ _ _ PT'); lia)) as F.
  rewrite (length_split (day_start ts)) in F. unfold tokens_at. rewrite <- (pd_index1 _ _ _ PT'), <- (pd_index2 _ _ _ PT').
  unfold gap, len in G. lia.
Qed.
