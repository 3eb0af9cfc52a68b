(** Proofs of C91: the same budget handed out on other days. *)
From stdpp Require Import gmap.
From Verif Require Import Base OMap State Spec EffectSpec Ledger Program ResLemmas TreeLemmas AccrualLemmas RefreshLemmas WfLemmas LedgerLemmas LedgerSpec
  CodecLemmas History HistoryLemmas Changes AccessLemmas HistoryThms ReachThms EffectLemmas EffectMethods EffectThms EffectMore EffectCompare
  SuccessSpec SuccessThms LedgerCore Determined Commute CompleteSpec Complete PowerSpec Powers FreezeSpec Choice GapSpec Gap CapSpec Cap
  CoreInv DustSpec DebtSpec Debt IncomeSpec Income DiarySpec Diary LogSpec Log CompareSpec Compare LongerSpec Longer OwnSpec Own OftenSpec Often DaysSpec.

Local Notation P16 := 10000000000000000.

Lemma lasting_due t b (l : sched) : lasting t l -> b <= day_start t -> due b l = 0.
Proof.
  intros H Hb. induction l as [|[d x] r IH]; [reflexivity|]. cbn [due]. pose proof (H d x (or_introl eq_refl)) as Hd. cbv beta in Hd.
  destruct (Z.leb_spec d b); [lia|]. rewrite IH; [reflexivity|]. intros d' x' I. apply (H d' x'). right. exact I.
Qed.
Lemma lasting_after t b (l : sched) : lasting t l -> b <= day_start t -> Spec.after b l = l.
Proof.
  intros H Hb. unfold Spec.after. induction l as [|[d x] r IH]; [reflexivity|]. cbn [filter fst]. pose proof (H d x (or_introl eq_refl)) as Hd. cbv beta in Hd.
  destruct (Z.ltb_spec b d); [|lia]. rewrite IH; [reflexivity|]. intros d' x' I. apply (H d' x'). right. exact I.
Qed.
Lemma lasting_count t b (l : sched) : lasting t l -> b <= day_start t -> count_due b l = 0.
Proof.
  intros H Hb. unfold count_due. induction l as [|[d x] r IH]; [reflexivity|]. cbn [filter fst]. pose proof (H d x (or_introl eq_refl)) as Hd. cbv beta in Hd.
  destruct (Z.leb_spec d b); [lia|]. apply IH. intros d' x' I. apply (H d' x'). right. exact I.
Qed.
Lemma visible_upto d t : forall a, growing a t -> visible_from a d t <= last_from a t.
Proof.
  induction t as [|[k i] r IH]; intros a G; cbn [visible_from last_from]; [lia|]. destruct G as [G1 G2].
  destruct (k <? d); [exact (IH _ G2)|]. pose proof (growing_last _ _ G2). lia.
Qed.

(** the state while nobody's stake changes, until the time [t] *)
Record rests (t T s : Z) (w : wpool) (m : wmining) : Prop := {
  re_total : p_total (wp w) = T;
  re_pool : lasting t (wp_diffs w);
  re_stake : m_share (wm m) + m_sfo (wm m) = s;
  re_mining : lasting t (wm_diffs m);
  re_index : m_index (wm m) <= last_from 0 (wp_ci w) }.
Lemma rests_eff t T s w m b : rests t T s w m -> b <= day_start t -> eff m b = s.
Proof. intros [_ _ H D _] Hb. unfold eff. rewrite (lasting_due _ _ _ D Hb). lia. Qed.

Definition one (b : bool) : Z := if b then 1 else 0.
Definition fill_of (i : ix) : Z := match i with FillVault x _ => x | _ => 0 end.

Lemma rests_step now t T s ts i bs l w m p w1 m1 : rests t T s w m -> 0 < T -> pool_wf now w -> mining_wf m -> now <= ts ->
  day_start ts <= day_start t -> (Z.of_nat (length (wp_ci w)) < 1095 -> p_index (wp w) = last_from 0 (wp_ci w)) ->
  Z.of_nat (length (wp_ci w)) + one (distributes (ts, i, bs, l)) <= 1095 ->
  still (ts, i, bs, l) -> step (ts, i, bs, l) w m p w1 m1 ->
  rests t T s w1 m1 /\ Z.of_nat (length (wp_ci w1)) <= Z.of_nat (length (wp_ci w)) + one (distributes (ts, i, bs, l)) /\
  exists g r q, p_avail (wp w1) = p_avail (wp w) + fill_of i - g /\
    0 <= P16 * g - T * r <= T * one (distributes (ts, i, bs, l)) /\
    0 <= q <= (P16 - 1) * one (claims (ts, i, bs, l)) /\
    P16 * p + owed (wp_ci w1) m1 = owed (wp_ci w) m + s * r - q.
Proof.
  intros RS HT G M Hn Hd Lg Len ST [S1 S2].
  pose proof (pool_wf_hist _ _ G) as Hh. pose proof (pw_avail _ _ G) as Hav. unfold is_u64 in Hav.
  destruct i; cbn [still pstep distributes claims fill_of one] in *; try contradiction.
  - (* FillVault *)
    subst w1. destruct l as [|? ?]; [|contradiction]. destruct S2 as [-> ->]. destruct RS as [R1 R2 R3 R4 R5].
    split; [constructor; assumption|]. cbn [filled wp_ci wp p_avail]. split; [lia|]. exists 0, 0, 0. lia.
  - (* Claim *)
    subst w1. destruct l as [|n0 l].
    + destruct S2 as [-> ->]. split; [assumption|]. split; [lia|]. exists 0, 0, 0. lia.
    + destruct S2 as (r & R & -> & ->).
      pose proof (rf_diffs _ _ _ _ R) as E1. pose proof (rf_share _ _ _ _ R) as E2. pose proof (rf_sfo _ _ _ _ R) as E3. pose proof (rf_index _ _ _ _ R) as E4.
      pose proof RS as [R1 R2 R3 R4 R5]. rewrite (lasting_after _ _ _ R4 Hd) in E1. rewrite (lasting_due _ _ _ R4 Hd) in E2.
      split. { constructor; cbn [emptied wm wm_diffs m_share m_sfo m_index]; try assumption; [lia|rewrite E1; assumption|].
               rewrite E4. apply visible_upto. exact (pw_ci_grow _ _ G). }
      split; [lia|].
      destruct (book_claim (wp_ci w) ts Hh (c_dates _ _ _ Hn G) m r ltac:(pose proof (mw_index _ M) as Q; unfold is_u128 in Q; lia) R) as (q & Hq & Eq).
      unfold Income.most in Hq. rewrite (lasting_count _ _ _ R4 Hd) in Hq. exists 0, 0, q. lia.
  - (* DistributeRewards *)
    destruct l as [|? ?]; [|contradiction]. destruct S2 as [-> ->]. pose proof RS as [R1 R2 R3 R4 R5].
    pose proof (recorded_iff ts w) as HR.
    assert (EN : net ts w = T) by (unfold net; rewrite (lasting_due _ _ _ R2 Hd); lia).
    assert (PP : 0 <= part ts w) by (apply part_pos; lia).
    assert (RR : 0 <= rise ts w) by (unfold rise; destruct (recorded ts w); [lia|]; destruct (unfilled w); [|lia]; rewrite EN; apply Z.div_pos; lia).
    destruct (book_distribution _ ts w w1 m Hh S1 eq_refl Lg) as (q & Hq & Eq).
    rewrite (rise_eq ts w _ Hh RR R5), (rests_eff _ _ _ _ _ _ RS Hd) in Eq.
    pose proof (distributed_last ts w w1 Lg RR S1) as EL.
    pose proof S1 as (_ & T1 & D1 & Y1 & N1). rewrite (lasting_due _ _ _ R2 Hd) in T1. rewrite (lasting_after _ _ _ R2 Hd) in D1.
    split. { constructor; try assumption; [lia|rewrite D1; assumption|lia]. }
    destruct (recorded ts w) eqn:Er.
    + destruct Y1 as (Ec & _ & Ea); [apply HR; reflexivity|]. split; [rewrite Ec; lia|].
      assert (E0 : rise ts w = 0) by (unfold rise; rewrite Er; reflexivity). rewrite E0 in *.
      exists 0, 0, 0. lia.
    + destruct N1 as (_ & Ea & Ec); [intros H; apply HR in H; discriminate|].
      assert (UF : unfilled w = true) by (unfold unfilled; apply Z.ltb_lt; lia).
      split. { rewrite Ec. destruct (_ <? _); [rewrite app_length; cbn [length]|]; lia. }
      assert (E0 : rise ts w = P16 * part ts w / T) by (unfold rise; rewrite Er, UF, EN; reflexivity).
      exists (part ts w), (rise ts w), 0. rewrite E0 in *.
      pose proof (Z.mul_div_le (P16 * part ts w) T HT). pose proof (Z.mul_succ_div_gt (P16 * part ts w) T HT).
      split; [unfold part in *; lia|]. split; [lia|]. split; lia.
Qed.

Lemma filled_in_cons ts i bs l b : filled_in ((ts, i, bs, l) :: b) = fill_of i + filled_in b.
Proof. destruct i; reflexivity. Qed.
Lemma rests_walk now b w m x w' m' : gwalk anything now b w m x w' m' -> forall t T s, rests t T s w m -> 0 < T ->
  Forall still b -> Forall (fun z => stamp z <= t) b -> Z.of_nat (length (wp_ci w)) + how_many distributes b <= 1095 ->
  rests t T s w' m' /\ exists r q, 0 <= P16 * handed_out w b w' - T * r <= T * how_many distributes b /\ 0 <= q <= (P16 - 1) * how_many claims b /\
    P16 * x + owed (wp_ci w') m' = owed (wp_ci w) m + s * r - q.
Proof.
  induction 1 as [now w m G M|now ts i bs l b w m p w1 m1 x w' m' G M Hn Hts Lg LK PL HD P H IH]; intros t T s RS HT ST F Len.
  - split; [exact RS|]. exists 0, 0. unfold handed_out. cbn [filled_in]. change (how_many distributes []) with 0. change (how_many claims []) with 0. lia.
  - inversion ST as [|? ? S0 SS]; subst. inversion F as [|? ? F0 FF]; subst. cbn [stamp] in F0. rewrite !how_many_cons in *.
    pose proof (how_many_pos distributes b).
    assert (Hd : day_start ts <= day_start t) by (rewrite <- !bod_day_start; apply bod_mono; exact F0).
    destruct (rests_step now t T s ts i bs l w m p w1 m1 RS HT G M Hn Hd Lg ltac:(unfold one; lia) S0 P) as (RS1 & Len1 & g & r & q & Ea & Hr & Hq & Eo).
    destruct (IH t T s RS1 HT SS FF ltac:(unfold one in *; lia)) as (RE & r' & q' & Hr' & Hq' & Eo').
    split; [exact RE|].
    exists (r + r'), (q + q'). unfold handed_out in *. rewrite filled_in_cons. unfold one in *. lia.
Qed.

(** what can be claimed at a time that is not exactly midnight *)
Lemma rests_tokens t T s w m ts : rests t T s w m -> pool_wf ts w -> mining_wf m -> day_start ts <= day_start t -> day_start ts < ts ->
  0 <= owed (wp_ci w) m - P16 * tokens_at ts (wp_ci w) m <= P16 - 1.
Proof.
  intros RS G M Hd Ht. pose proof RS as [R1 R2 R3 R4 R5].
  pose proof (pool_wf_hist _ _ G) as Hh. pose proof (pw_ci_dates _ _ G) as D.
  assert (V : visible ts (wp_ci w) = last_from 0 (wp_ci w)).
  { apply visible_all. intros k i I. specialize (D k i I). cbv beta in *. lia. }
  assert (U : upto (day_start ts) (wm_diffs m) = []).
  { unfold upto. clear -R4 Hd. induction (wm_diffs m) as [|[d x] r IH]; [reflexivity|]. cbn [filter fst]. pose proof (R4 d x (or_introl eq_refl)) as H. cbv beta in H.
    destruct (Z.leb_spec d (day_start ts)); [lia|]. apply IH. intros d' x' I. apply (R4 d' x'). right. exact I. }
  assert (D' : dates (fun k => k <= day_start ts) (wp_ci w)) by (apply (c_dates ts ts w); [lia|exact G]).
  assert (A : accrual (m_index (wm m)) (eff m) (wp_ci w) = (last_from 0 (wp_ci w) - m_index (wm m)) * s).
  { transitivity (accrual (m_index (wm m)) (fun _ => s) (wp_ci w)).
    - apply accrual_ext; [apply Hh|]. intros k i I _. apply (rests_eff _ _ _ _ _ _ RS). specialize (D' k i I). cbv beta in D'. lia.
    - rewrite (accrual_const (wp_ci w) ts Hh D'); rewrite (seen_last _ _ D'); [reflexivity|].
      pose proof (mw_index _ M) as Q. unfold is_u128 in Q. lia. }
  unfold owed, tokens_at, PRECISION. rewrite A, U. cbn [earned]. rewrite V, R3.
  pose proof (Z.div_mod ((last_from 0 (wp_ci w) - m_index (wm m)) * s) P16 ltac:(lia)).
  pose proof (Z.mod_pos_bound ((last_from 0 (wp_ci w) - m_index (wm m)) * s) P16 ltac:(lia)). lia.
Qed.

Section env.
Context (e : env) (Henv : env_ok e).
Lemma pro_rata P k now L now' L' b x v m v' m' ts :
  reached e now L -> full_log e P k now L now' L' b x -> Forall still b ->
  is_pool e L P v -> is_mining e L k m -> is_pool e L' P v' -> is_mining e L' k m' ->
  now' <= ts -> day_start ts < ts -> lasting ts (wp_diffs v) -> lasting ts (wm_diffs m) ->
  0 < p_total (wp v) -> m_index (wm m) <= last_from 0 (wp_ci v) ->
  Z.of_nat (length (wp_ci v)) + how_many distributes b <= 1095 ->
  let s := m_share (wm m) + m_sfo (wm m) in
  let T := p_total (wp v) in
  let fair := T * owed (wp_ci v) m + P16 * (s * handed_out v b v') in
  let got := T * (P16 * (x + tokens_at ts (wp_ci v') m')) in
  fair - T * (s * how_many distributes b + (P16 - 1) * (how_many claims b + 1)) <= got <= fair.
Proof.
  intros R D ST V M V' M' T1 Ht LV LM HT HI Len s T fair got.
  destruct (full_log_running _ _ _ _ _ _ _ _ _ D) as [RU OP].
  assert (Q : forall P k now L b, whenever e P k now L b anything) by (intros ? ? ? ? ? ? ? ? ? ? ? ? ? ? ?; intros; exact I).
  destruct (full_log_gwalk e Henv _ _ _ now L b _ _ _ _ _ _ D R [] 0 (fl_nil _ _ _ _ _ RU OP) eq_refl (Q _ _ _ _ _) v m V M) as (v1 & m1 & X1 & Y1 & S1).
  rewrite (pool_fun e _ _ _ _ X1 V'), (mining_fun e _ _ _ _ Y1 M') in S1.
  destruct (log_stamps e _ _ _ _ _ _ _ _ D) as [U F].
  pose proof (log_reached e _ _ _ _ _ _ _ _ D R) as R'. destruct (reached_ok e Henv _ _ R') as (HL & _).
  pose proof (ok_pool e _ _ _ _ HL (proj1 V') (proj2 V')) as Wp. pose proof (ok_mining e _ _ _ _ HL (proj1 M') (proj2 M')) as Wm.
  assert (RS : rests ts T s v m) by (constructor; try assumption; reflexivity).
  destruct (rests_walk _ _ _ _ _ _ _ S1 ts T s RS HT ST ltac:(eapply List.Forall_impl; [|exact F]; cbn; intros; lia) Len) as (RE & r & q & Hr & Hq & Eo).
  pose proof (rests_tokens _ _ _ _ _ ts RE ltac:(eapply pool_wf_mono; eassumption) Wm ltac:(lia) Ht) as TK.
  assert (Hs : 0 <= s).
  { pose proof (ok_mining e _ _ _ _ (proj1 (reached_ok e Henv _ _ R)) (proj1 M) (proj2 M)) as W. pose proof (mw_share _ W) as A1. pose proof (mw_sfo _ W) as A2. unfold is_u64 in *. unfold s. lia. }
  unfold fair, got. nia.
Qed.
End env.

Lemma other_days e1 e2 : env_ok e1 -> env_ok e2 -> forall P1 P2 k1 k2 now1 L1 now1' L1' now2 L2 now2' L2' b c x y v w v' w' m n m' n' ts,
  reached e1 now1 L1 -> reached e2 now2 L2 ->
  full_log e1 P1 k1 now1 L1 now1' L1' b x -> full_log e2 P2 k2 now2 L2 now2' L2' c y -> Forall still b -> Forall still c ->
  is_pool e1 L1 P1 v -> is_pool e2 L2 P2 w -> pools_alike v w -> is_mining e1 L1 k1 m -> is_mining e2 L2 k2 n -> alike m n ->
  is_pool e1 L1' P1 v' -> is_pool e2 L2' P2 w' -> is_mining e1 L1' k1 m' -> is_mining e2 L2' k2 n' ->
  handed_out v b v' = handed_out w c w' ->
  now1' <= ts -> now2' <= ts -> day_start ts < ts -> lasting ts (wp_diffs v) -> lasting ts (wm_diffs m) ->
  0 < p_total (wp v) -> m_index (wm m) <= last_from 0 (wp_ci v) ->
  Z.of_nat (length (wp_ci v)) + how_many distributes b <= 1095 -> Z.of_nat (length (wp_ci v)) + how_many distributes c <= 1095 ->
  y + tokens_at ts (wp_ci w') n' <=
    x + tokens_at ts (wp_ci v') m' + how_many claims b + 1 + (m_share (wm m) + m_sfo (wm m)) * how_many distributes b / P16.
Proof.
  intros H1 H2 P1 P2 k1 k2 now1 L1 now1' L1' now2 L2 now2' L2' b c x y v w v' w' m n m' n' ts R1 R2 D1 D2 S1 S2 V W (A1 & A2 & A3 & A4 & A5 & A6)
    M N (B1 & B2 & B3 & B4 & B5) V' W' M' N' HO T1 T2 Ht LV LM HT HI N1 N2.
  pose proof (pro_rata e1 H1 P1 k1 now1 L1 now1' L1' b x v m v' m' ts R1 D1 S1 V M V' M' T1 Ht LV LM HT HI N1) as [X _].
  pose proof (pro_rata e2 H2 P2 k2 now2 L2 now2' L2' c y w n w' n' ts R2 D2 S2 W N W' N' T2 Ht
    ltac:(rewrite <- A5; exact LV) ltac:(rewrite <- B5; exact LM) ltac:(lia) ltac:(rewrite <- B1, <- A6; exact HI) ltac:(rewrite <- A6; exact N2)) as [_ Y].
  assert (EO : owed (wp_ci w) n = owed (wp_ci v) m).
  { unfold owed, accrual. rewrite <- A6, <- B1, <- B3. f_equal. apply accrual_ext; [exact (h_grow _ (pool_wf_hist _ _ (ok_pool e1 _ _ _ _ (proj1 (reached_ok e1 H1 _ _ R1)) (proj1 V) (proj2 V))))|].
    intros. unfold eff. rewrite B2, B4, B5. reflexivity. }
  rewrite EO, <- HO, <- A2, <- B2, <- B4 in Y. cbv zeta in *.
  set (s := m_share (wm m) + m_sfo (wm m)) in *. set (T := p_total (wp v)) in *. set (g := x + tokens_at ts (wp_ci v') m') in *. set (h := y + tokens_at ts (wp_ci w') n') in *.
  set (o := owed (wp_ci v) m) in *. set (G := handed_out v b v') in *. pose proof (how_many_pos claims b). set (C := how_many claims b) in *. set (D := how_many distributes b) in *.
  assert (E : P16 * h <= P16 * g + (s * D + (P16 - 1) * (C + 1))) by nia.
  pose proof (Z.div_mod (s * D) P16 ltac:(lia)). pose proof (Z.mod_pos_bound (s * D) P16 ltac:(lia)). lia.
Qed.
