(** Proofs of C90: claiming at other times. *)
From stdpp Require Import gmap.
From Verif Require Import Base OMap State Spec EffectSpec Ledger Program ResLemmas TreeLemmas AccrualLemmas RefreshLemmas WfLemmas LedgerLemmas LedgerSpec
  CodecLemmas History HistoryLemmas Changes AccessLemmas HistoryThms ReachThms EffectLemmas EffectMethods EffectThms EffectMore EffectCompare
  SuccessSpec SuccessThms LedgerCore Determined Commute CompleteSpec Complete PowerSpec Powers FreezeSpec Choice GapSpec Gap CapSpec Cap
  CoreInv DustSpec DebtSpec Debt IncomeSpec Income DiarySpec Diary LogSpec Log CompareSpec Compare LongerSpec Longer OwnSpec Own OftenSpec.

(** ** What a refresh makes of the stake, and what it brings *)
Record hold : Type := Hold { h_index : Z; h_share : Z; h_sfo : Z; h_diffs : sched }.
Definition held (m : wmining) : hold := Hold (m_index (wm m)) (m_share (wm m)) (m_sfo (wm m)) (wm_diffs m).
Definition bring (ts : Z) (ci : sched) (s : hold) : hold :=
  Hold (visible ts ci) (h_share s - Spec.due (day_start ts) (h_diffs s)) (h_sfo s) (Spec.after (day_start ts) (h_diffs s)).
Definition gain (ts : Z) (ci : sched) (s : hold) : Z :=
  earned ci (h_share s + h_sfo s) (h_index s) (upto (day_start ts) (h_diffs s)) ts.

Lemma refreshed_held ts ci m m' : refreshed ts ci m m' ->
  held m' = bring ts ci (held m) /\ m_unclaimed (wm m') = m_unclaimed (wm m) + gain ts ci (held m).
Proof.
  intros [A1 A2 A3 A4 A5 _ _ A6 _]. split; [|exact A6]. unfold held, bring. cbn [h_index h_share h_sfo h_diffs]. rewrite A2, A3, A4, A5. reflexivity.
Qed.

Lemma bring_path t1 t2 ci1 more s : t1 <= t2 -> dates (fun k => day_start t1 <= k) more -> ascending (h_diffs s) ->
  bring t2 (ci1 ++ more) (bring t1 ci1 s) = bring t2 (ci1 ++ more) s /\
  0 <= gain t2 (ci1 ++ more) s - (gain t1 ci1 s + gain t2 (ci1 ++ more) (bring t1 ci1 s)) <= 1.
Proof.
  intros Ht Hm Ha. destruct s as [j sh sf t]. unfold bring, gain. cbn [h_index h_share h_sfo h_diffs] in *.
  assert (Hb : day_start t1 <= day_start t2) by (rewrite <- !bod_day_start; apply bod_mono; assumption).
  split. { f_equal; [rewrite due_after by assumption; lia|apply after_after; assumption]. }
  pose proof (earned_path ci1 (ci1 ++ more) t1 t2 (upto (day_start t2) (Spec.after (day_start t1) t)) (upto (day_start t1) t) (sh + sf) j) as H.
  assert (E : upto (day_start t2) t = upto (day_start t1) t ++ upto (day_start t2) (Spec.after (day_start t1) t)).
  { rewrite (upto_after_split (day_start t1) t Ha) at 1. rewrite upto_app. f_equal.
    apply upto_all. intros k v Hin. apply in_upto in Hin. lia. }
  rewrite <- E, total_upto in H.
  replace (sh - due (day_start t1) t + sf) with (sh + sf - due (day_start t1) t) by lia.
  apply H. intros d v Hin. apply in_upto in Hin as [_ Hin]. unfold visible. symmetry. apply visible_app_later.
  intros k i Hk. apply Hm in Hk. lia.
Qed.

(** ** One staker against one who never claims: [s] is held and [g] was gained since the beginning by
    the latter; [y] is what the former was paid and holds unclaimed, after [n] claims *)
Inductive lags (now : Z) (ci : sched) (s : hold) (g : Z) (h : hold) (y n : Z) : Prop :=
| lg_same : h = s -> 0 <= n -> g - n <= y <= g -> lags now ci s g h y n
| lg_since t ci1 more : ci = ci1 ++ more -> t <= now -> dates (fun k => day_start t <= k) more -> h = bring t ci1 s -> 1 <= n ->
    g + gain t ci1 s - (n - 1) <= y <= g + gain t ci1 s -> lags now ci s g h y n.

Lemma lags_bring now ci s g h y n ts : lags now ci s g h y n -> now <= ts -> ascending (h_diffs s) ->
  bring ts ci h = bring ts ci s /\ g + gain ts ci s - n <= y + gain ts ci h <= g + gain ts ci s.
Proof.
  intros [-> Hn Hy|t ci1 more -> Ht Hd -> Hn Hy] Hts A; [split; [reflexivity|lia]|].
  destruct (bring_path t ts ci1 more s ltac:(lia) Hd A) as [E H]. split; [exact E|lia].
Qed.
Lemma lags_claim now ci s g h y n ts : lags now ci s g h y n -> now <= ts -> ascending (h_diffs s) ->
  lags ts ci s g (bring ts ci h) (y + gain ts ci h) (n + 1).
Proof.
  intros H Hts A. assert (0 <= n) by (destruct H; lia). destruct (lags_bring _ _ _ _ _ _ _ ts H Hts A) as [E B].
  apply (lg_since _ _ _ _ _ _ _ ts ci []); [symmetry; apply app_nil_r|lia|intros k v []|exact E|lia|lia].
Qed.
Lemma lags_later now ci s g h y n ts more : lags now ci s g h y n -> now <= ts -> dates (fun k => day_start ts <= k) more ->
  lags ts (ci ++ more) s g h y n.
Proof.
  intros [E Hn Hy|t ci1 m1 -> Ht Hd E Hn Hy] Hts D; [apply lg_same; assumption|].
  apply (lg_since _ _ _ _ _ _ _ t ci1 (m1 ++ more)); [rewrite app_assoc; reflexivity|lia| |exact E|exact Hn|exact Hy].
  intros k v I. apply in_app_or in I as [I|I]; [exact (Hd _ _ I)|]. apply D in I.
  assert (day_start t <= day_start ts) by (rewrite <- !bod_day_start; apply bod_mono; lia). lia.
Qed.

(** ** The staker's own calls *)
Definition mended (ts : Z) (i : ix) (r m' : wmining) : Prop :=
  match i with
  | DepositMining a pd _ _ => only_stake r m' /\ m_share (wm m') = m_share (wm r) + a * weight_of pd /\
      scheduled 50 (expiry pd ts) (a * (weight_of pd - 1)) (wm_diffs r) (wm_diffs m') /\ ascending (wm_diffs m')
  | WithdrawMining a _ _ => only_stake r m' /\ m_share (wm m') = m_share (wm r) - a /\ wm_diffs m' = wm_diffs r
  | ExtendStake op np start base extra _ _ => exists t, only_stake r m' /\
      m_share (wm m') = m_share (wm r) - counted op start ts base + (base + extra) * weight_of np /\
      (if unexpired op start ts then lowered (expiry op start) (base * (weight_of op - 1)) (wm_diffs r) t else t = wm_diffs r) /\
      scheduled 50 (expiry np ts) ((base + extra) * (weight_of np - 1)) t (wm_diffs m') /\ ascending (wm_diffs m')
  | ChangeDelegate a _ => m' = r
  | Slash _ native weighted date => only_stake r m' /\ m_share (wm m') = m_share (wm r) - weighted /\
      match date with
      | None => wm_diffs m' = wm_diffs r
      | Some x => lowered (day_start x) (weighted - native) (wm_diffs r) (wm_diffs m')
      end
  | _ => False
  end.
Lemma in_here n l : In n l -> here n l = true.
Proof. intros H. apply existsb_exists. exists n. split; [exact H|apply Nat.eqb_refl]. Qed.
Lemma own_page ts i bs n0 l ci m p m' : own_or_none (ts, i, bs, n0 :: l) -> i <> Claim -> page (ts, i, n0 :: l, ci) m p m' ->
  p = 0 /\ exists r, refreshed ts ci m r /\ mended ts i r m'.
Proof.
  intros O NC. destruct i; cbn [page mended own_or_none] in *; try (intros []; fail); try contradiction;
    try (rewrite (in_here _ _ O)); try congruence.
  - intros [-> (r & t & R & H)]. split; [reflexivity|]. exists r. split; [exact R|]. exists t. exact H.
  - intros [-> R]. split; [reflexivity|]. exists m'. split; [assumption|reflexivity].
Qed.
Lemma stake_held r m' : only_stake r m' -> m_index (wm m') = m_index (wm r) /\ m_sfo (wm m') = m_sfo (wm r) /\ m_unclaimed (wm m') = m_unclaimed (wm r).
Proof. intros (_ & A & B & C). auto. Qed.
Lemma mended_held ts i r m' q n' : mended ts i r m' -> mended ts i q n' -> held r = held q -> ascending (wm_diffs r) ->
  held m' = held n' /\ m_unclaimed (wm m') = m_unclaimed (wm r) /\ m_unclaimed (wm n') = m_unclaimed (wm q).
Proof.
  intros H1 H2 E A. injection E as E1 E2 E3 E4.
  assert (K : only_stake r m' -> only_stake q n' -> m_share (wm m') = m_share (wm n') -> wm_diffs m' = wm_diffs n' ->
    held m' = held n' /\ m_unclaimed (wm m') = m_unclaimed (wm r) /\ m_unclaimed (wm n') = m_unclaimed (wm q)).
  { intros O1 O2 S D. destruct (stake_held _ _ O1) as (I1 & F1 & U1). destruct (stake_held _ _ O2) as (I2 & F2 & U2).
    split; [|auto]. unfold held. congruence. }
  destruct i; cbn [mended] in *; try contradiction.
  - destruct H1 as (O1 & S1 & D1 & A1), H2 as (O2 & S2 & D2 & A2). apply K; [exact O1|exact O2|congruence|].
    rewrite <- E4 in D2. eapply scheduled_fun; eassumption.
  - destruct H1 as (O1 & S1 & D1), H2 as (O2 & S2 & D2). apply K; [exact O1|exact O2|congruence|congruence].
  - destruct H1 as (t & O1 & S1 & L1 & D1 & A1), H2 as (u & O2 & S2 & L2 & D2 & A2). apply K; [exact O1|exact O2|congruence|].
    assert (t = u) as <-. { rewrite <- E4 in L2. destruct (unexpired _ _ ts); [|congruence]. eapply lowered_fun; [|exact L1|exact L2]. exact A. }
    eapply scheduled_fun; eassumption.
  - subst m' n'. split; [unfold held; congruence|auto].
  - destruct H1 as (O1 & S1 & D1), H2 as (O2 & S2 & D2). apply K; [exact O1|exact O2|congruence|].
    match type of D1 with match ?d with _ => _ end => destruct d as [z|] end; [|congruence].
    rewrite <- E4 in D2. eapply lowered_fun; eassumption.
Qed.

(** ** Logs that differ in claims *)
Inductive apart : list full_entry -> list full_entry -> Prop :=
| ap_nil : apart [] []
| ap_both x b c : claims x = false -> apart b c -> apart (x :: b) (x :: c)
| ap_left x b c : claims x = true -> apart b c -> apart (x :: b) c
| ap_right x b c : claims x = true -> apart b c -> apart b (x :: c).
Lemma apart_right c : but_claims c = [] -> apart [] c.
Proof. induction c as [|y c IH]; [constructor|]. unfold but_claims in *. cbn [filter]. destruct (claims y) eqn:E; cbn [negb]; [|discriminate]. intros H. apply ap_right; auto. Qed.
Lemma but_claims_apart b : forall c, but_claims b = but_claims c -> apart b c.
Proof.
  induction b as [|x b IH]; intros c H; [apply apart_right; symmetry; exact H|].
  unfold but_claims in H. cbn [filter] in H. destruct (claims x) eqn:E; cbn [negb] in H; [apply ap_left; [exact E|apply IH; exact H]|].
  induction c as [|y c IHc]; [discriminate|]. cbn [filter] in H. destruct (claims y) eqn:F; cbn [negb] in H.
  - apply ap_right; [exact F|]. apply IHc. exact H.
  - injection H as <- H. apply ap_both; [exact E|]. apply IH. exact H.
Qed.

Lemma pstep_ci_day ts i bs w w' : pstep (ts, i, bs) w w' -> exists more, wp_ci w' = wp_ci w ++ more /\ dates (fun k => day_start ts <= k) more.
Proof.
  assert (T : only_total w w' -> exists more, wp_ci w' = wp_ci w ++ more /\ dates (fun k => day_start ts <= k) more).
  { intros O. exists []. split; [rewrite app_nil_r|intros k v []]. unfold only_total in O. tauto. }
  assert (S : wp_ci w' = wp_ci w -> exists more, wp_ci w' = wp_ci w ++ more /\ dates (fun k => day_start ts <= k) more).
  { intros E. exists []. split; [rewrite app_nil_r; exact E|intros k v []]. }
  destruct i; cbn [pstep]; try (intros ->; apply S; reflexivity); try (intros [O _]; exact (T O)).
  intros (_ & _ & _ & Y & N). destruct (date_or_not (day_start ts) (wp_ci w)) as [Hd|Hd].
  - apply S, Y, Hd.
  - destruct (N Hd) as (_ & _ & E). destruct (_ <? _); [|apply S, E]. exists [(day_start ts, p_index (wp w'))]. split; [exact E|].
    intros k v [I|[]]. injection I as <- _. lia.
Qed.

Record pair (now1 now2 : Z) (v w : wpool) (m n : wmining) (s : hold) (g x y a c : Z) : Prop := {
  pa_pools : pools_alike v w;
  pa_asc : ascending (h_diffs s);
  pa_one : lags now1 (wp_ci v) s g (held m) (x + m_unclaimed (wm m)) a;
  pa_two : lags now2 (wp_ci w) s g (held n) (y + m_unclaimed (wm n)) c }.

Lemma lags_wait now ci s g h y n ts : lags now ci s g h y n -> now <= ts -> lags ts ci s g h y n.
Proof.
  intros H Hts. rewrite <- (app_nil_r ci). eapply lags_later; [exact H|exact Hts|intros k v []].
Qed.
Definition stamp (x : full_entry) : Z := let '(ts, _, _, _) := x in ts.
Definition anything (_ : Z) (_ : wpool) (_ : wmining) : Prop := True.

Lemma lags_more now ci s g h y n n' : lags now ci s g h y n -> n <= n' -> lags now ci s g h y n'.
Proof.
  intros [E Hn Hy|t ci1 m1 E1 Ht Hd E Hn Hy] H; [apply lg_same; [exact E|lia..]|]. eapply lg_since; try eassumption; lia.
Qed.
Lemma pair_claim now1 now2 v w m n s g x y a c ts bs l p v1 m1 : pair now1 now2 v w m n s g x y a c -> now1 <= ts ->
  step (ts, Claim, bs, l) v m p v1 m1 -> pair ts now2 v1 w m1 n s g (x + p) y (a + 1) c.
Proof.
  intros [PA AS P1 P2] Hts [S1 S2]. cbn [pstep] in S1. subst v1. destruct l as [|n0 l].
  { destruct S2 as [-> ->]. rewrite Z.add_0_r. constructor; [exact PA|exact AS| |exact P2]. eapply lags_more; [eapply lags_wait; eassumption|lia]. }
  destruct S2 as (r & R & -> & ->). destruct (refreshed_held _ _ _ _ R) as [E U].
  constructor; [exact PA|exact AS| |exact P2].
  change (held (emptied r)) with (held r). change (m_unclaimed (wm (emptied r))) with 0. rewrite E, U.
  replace (x + (m_unclaimed (wm m) + gain ts (wp_ci v) (held m)) + 0) with (x + m_unclaimed (wm m) + gain ts (wp_ci v) (held m)) by lia.
  eapply lags_claim; eassumption.
Qed.
Lemma pair_flip now1 now2 v w m n s g x y a c : pair now1 now2 v w m n s g x y a c -> pair now2 now1 w v n m s g y x c a.
Proof. intros [PA AS P1 P2]. constructor; try assumption. unfold pools_alike in *. intuition congruence. Qed.

Lemma pair_both now1 now2 v w m n s g x y a c ts i bs l p q v1 m1 w1 n1 : pair now1 now2 v w m n s g x y a c ->
  ascending (wp_diffs v) -> ascending (wm_diffs m) -> ascending (wm_diffs m1) -> now1 <= ts -> now2 <= ts -> own_or_none (ts, i, bs, l) -> i <> Claim ->
  step (ts, i, bs, l) v m p v1 m1 -> step (ts, i, bs, l) w n q w1 n1 ->
  exists s' g', pair ts ts v1 w1 m1 n1 s' g' (x + p) (y + q) a c.
Proof.
  intros [PA AS P1 P2] Av Am Am1 H1 H2 O NC [S1 M1] [S2 M2].
  assert (PA1 : pools_alike v1 w1).
  { apply plain_alike in PA. apply plain_step in S1, S2. rewrite <- PA in S2. apply plain_alike. eapply pstep_fun; [|exact S1|exact S2]. exact Av. }
  assert (EC : wp_ci w = wp_ci v) by (unfold pools_alike in PA; intuition congruence).
  assert (EC1 : wp_ci w1 = wp_ci v1) by (unfold pools_alike in PA1; intuition congruence).
  destruct (pstep_ci_day _ _ _ _ _ S1) as (more & E & D).
  destruct l as [|n0 l].
  - destruct M1 as [-> ->], M2 as [-> ->]. rewrite !Z.add_0_r. exists s, g. constructor; [exact PA1|exact AS| |].
    + rewrite E. eapply lags_later; eassumption.
    + rewrite EC1, E, <- EC. eapply lags_later; eassumption.
  - destruct (own_page _ _ _ _ _ _ _ _ _ O NC M1) as [-> (r1 & R1 & D1)]. destruct (own_page _ _ _ _ _ _ _ _ _ O NC M2) as [-> (r2 & R2 & D2)].
    destruct (refreshed_held _ _ _ _ R1) as [E1 U1]. destruct (refreshed_held _ _ _ _ R2) as [E2 U2].
    destruct (lags_bring _ _ _ _ _ _ _ ts P1 H1 AS) as [B1 G1]. destruct (lags_bring _ _ _ _ _ _ _ ts P2 H2 AS) as [B2 G2].
    rewrite EC in E2, U2, B2, G2.
    assert (Er : held r1 = held r2) by congruence.
    destruct (mended_held _ _ _ _ _ _ D1 D2 Er (refreshed_asc _ _ _ _ Am R1)) as (Em & V1 & V2).
    assert (0 <= a) by (destruct P1; lia). assert (0 <= c) by (destruct P2; lia).
    exists (held m1), (g + gain ts (wp_ci v) s). constructor; [exact PA1|exact Am1| |]; (apply lg_same; [congruence|assumption|lia]).
Qed.

Lemma claim_entry x : claims x = true -> exists ts bs l, x = (ts, Claim, bs, l).
Proof. destruct x as [[[ts i] bs] l]. destruct i; cbn; try discriminate. eauto. Qed.

Lemma walks_often b c : apart b c -> Forall own_or_none b -> forall now1 v m x v' m', gwalk anything now1 b v m x v' m' ->
  forall now2 w n y w' n' s g x0 y0 a0 c0 T, gwalk anything now2 c w n y w' n' -> pair now1 now2 v w m n s g x0 y0 a0 c0 ->
  now1 <= T -> now2 <= T -> Forall (fun z => stamp z <= T) b -> Forall (fun z => stamp z <= T) c ->
  exists s' g', pair T T v' w' m' n' s' g' (x0 + x) (y0 + y) (a0 + how_many claims b) (c0 + how_many claims c).
Proof.
  induction 1 as [|z b c Z AP IH|z b c Z AP IH|z b c Z AP IH]; intros O now1 v m x v' m' W1 now2 w n y w' n' s g x0 y0 a0 c0 T W2 PR T1 T2 F1 F2.
  - inversion W1; subst. inversion W2; subst. exists s, g. change (how_many claims []) with 0. rewrite !Z.add_0_r.
    destruct PR as [PA AS P1 P2]. constructor; [exact PA|exact AS|eapply lags_wait; eassumption|eapply lags_wait; eassumption].
  - inversion W1 as [|? ts i bs l ? ? ? p v1 m1 x1 ? ? G M Hn Hts Lg LK PL HD P W1']; subst.
    inversion W2 as [|? ? ? ? ? ? ? ? q w1 n1 y1 ? ? G2 M2 Hn2 Hts2 Lg2 LK2 PL2 HD2 P2 W2']; subst.
    inversion O; subst. inversion F1; subst. inversion F2; subst.
    destruct (gwalk_good _ _ _ _ _ _ _ _ W1') as [GG1 MM1].
    destruct (pair_both _ _ _ _ _ _ _ _ _ _ _ _ _ _ _ _ _ _ _ _ _ _ PR (pw_diffs_asc _ _ G) (mw_asc _ M) (mw_asc _ MM1) Hn Hn2 ltac:(eassumption)
      ltac:(intros ->; discriminate Z) P P2) as (s1 & g1 & PR1).
    rewrite !how_many_cons, Z. cbn [stamp] in *. rewrite !Z.add_0_l, !Z.add_assoc. eapply IH; eassumption.
  - destruct (claim_entry _ Z) as (ts & bs & l & ->).
    inversion W1 as [|? ? ? ? ? ? ? ? p v1 m1 x1 ? ? G M Hn Hts Lg LK PL HD P W1']; subst. inversion O; subst. inversion F1; subst.
    rewrite how_many_cons. cbn [claims stamp] in *. rewrite !Z.add_assoc.
    eapply IH; try eassumption. eapply pair_claim; try eassumption.
  - destruct (claim_entry _ Z) as (ts & bs & l & ->).
    inversion W2 as [|? ? ? ? ? ? ? ? p w1 n1 y1 ? ? G M Hn Hts Lg LK PL HD P W2']; subst. inversion F2; subst.
    rewrite (how_many_cons claims _ c). cbn [claims stamp] in *. rewrite !Z.add_assoc.
    eapply IH; try eassumption. apply pair_flip. eapply pair_claim; [apply pair_flip; eassumption|assumption|eassumption].
Qed.

Section env.
Context (e : env) (Henv : env_ok e).
Lemma log_stamps P k now L now' L' b x : full_log e P k now L now' L' b x -> now <= now' /\ Forall (fun z => stamp z <= now') b.
Proof.
  induction 1 as [now L O OM|now L ts ms i L1 r now' L' b x O OM Hts Hu Hi X HH HI [IH1 IH2]|now L ts L1 now' L' b x O OM Hts Hu X HI [IH1 IH2]].
  - split; [lia|constructor].
  - split; [lia|]. apply Forall_app. split; [|exact IH2]. unfold logged_with. destruct (names _ _ _); [|constructor].
    destruct (writes_pool i), (places k ms i); repeat constructor; cbn [stamp]; lia.
  - split; [lia|exact IH2].
Qed.
Lemma log_reached P k now L now' L' b x : full_log e P k now L now' L' b x -> reached e now L -> reached e now' L'.
Proof.
  induction 1 as [now L O OM|now L ts ms i L1 r now' L' b x O OM Hts Hu Hi X HH HI IH|now L ts L1 now' L' b x O OM Hts Hu X HI IH]; intros HR.
  - exact HR.
  - apply IH. exact (reached_exec e now ts ms i L L1 r HR Hts Hu Hi X).
  - apply IH. eapply ext_reached; eassumption.
Qed.
End env.

Lemma often e1 e2 : env_ok e1 -> env_ok e2 -> forall P1 P2 k1 k2 now1 L1 now1' L1' now2 L2 now2' L2' b c x y v w v' w' m n m' n' ts,
  reached e1 now1 L1 -> reached e2 now2 L2 ->
  full_log e1 P1 k1 now1 L1 now1' L1' b x -> full_log e2 P2 k2 now2 L2 now2' L2' c y ->
  but_claims b = but_claims c -> Forall own_or_none b ->
  is_pool e1 L1 P1 v -> is_pool e2 L2 P2 w -> pools_alike v w -> is_mining e1 L1 k1 m -> is_mining e2 L2 k2 n -> alike m n ->
  is_pool e1 L1' P1 v' -> is_pool e2 L2' P2 w' -> is_mining e1 L1' k1 m' -> is_mining e2 L2' k2 n' ->
  now1' <= ts -> now2' <= ts ->
  x + tokens_at ts (wp_ci v') m' <= y + tokens_at ts (wp_ci w') n' + how_many claims c /\
  y + tokens_at ts (wp_ci w') n' <= x + tokens_at ts (wp_ci v') m' + how_many claims b.
Proof.
  intros H1 H2 P1 P2 k1 k2 now1 L1 now1' L1' now2 L2 now2' L2' b c x y v w v' w' m n m' n' ts R1 R2 D1 D2 BC O V W PA M N A V' W' M' N' T1 T2.
  destruct (full_log_running _ _ _ _ _ _ _ _ _ D1) as [RU1 OP1]. destruct (full_log_running _ _ _ _ _ _ _ _ _ D2) as [RU2 OP2].
  assert (Q : forall e P k now L b, whenever e P k now L b anything) by (intros ? ? ? ? ? ? ? ? ? ? ? ? ? ? ? ?; intros; exact I).
  destruct (full_log_gwalk e1 H1 _ _ _ now1 L1 b _ _ _ _ _ _ D1 R1 [] 0 (fl_nil _ _ _ _ _ RU1 OP1) eq_refl (Q _ _ _ _ _ _) v m V M) as (v1 & m1 & X1 & Y1 & S1).
  rewrite (pool_fun e1 _ _ _ _ X1 V'), (mining_fun e1 _ _ _ _ Y1 M') in S1.
  destruct (full_log_gwalk e2 H2 _ _ _ now2 L2 c _ _ _ _ _ _ D2 R2 [] 0 (fl_nil _ _ _ _ _ RU2 OP2) eq_refl (Q _ _ _ _ _ _) w n W N) as (w1 & n1 & X2 & Y2 & S2).
  rewrite (pool_fun e2 _ _ _ _ X2 W'), (mining_fun e2 _ _ _ _ Y2 N') in S2.
  destruct (log_stamps e1 _ _ _ _ _ _ _ _ D1) as [U1 F1]. destruct (log_stamps e2 _ _ _ _ _ _ _ _ D2) as [U2 F2].
  assert (A0 : pair now1 now2 v w m n (held m) (m_unclaimed (wm m)) 0 0 0 0).
  { destruct A as (A1 & A2 & A3 & A4 & A5). constructor; [exact PA|exact (mining_asc e1 H1 _ _ _ _ R1 M)| |]; apply lg_same; try lia; [reflexivity|].
    unfold held. congruence. }
  destruct (walks_often _ _ (but_claims_apart _ _ BC) O _ _ _ _ _ _ S1 _ _ _ _ _ _ _ _ _ _ _ _ ts S2 A0 ltac:(lia) ltac:(lia)) as (s & g & PR).
  { eapply List.Forall_impl; [|exact F1]. cbn. intros; lia. }
  { eapply List.Forall_impl; [|exact F2]. cbn. intros; lia. }
  destruct PR as [PA' AS' Q1 Q2]. destruct (lags_bring _ _ _ _ _ _ _ ts Q1 ltac:(lia) AS') as [_ G1]. destruct (lags_bring _ _ _ _ _ _ _ ts Q2 ltac:(lia) AS') as [_ G2].
  assert (EC : wp_ci w' = wp_ci v') by (unfold pools_alike in PA'; intuition congruence). rewrite EC in G2. rewrite EC.
  unfold tokens_at. change (earned (wp_ci v') (m_share (wm m') + m_sfo (wm m')) (m_index (wm m')) (upto (day_start ts) (wm_diffs m')) ts) with (gain ts (wp_ci v') (held m')).
  change (earned (wp_ci v') (m_share (wm n') + m_sfo (wm n')) (m_index (wm n')) (upto (day_start ts) (wm_diffs n')) ts) with (gain ts (wp_ci v') (held n')). lia.
Qed.

(** the last claims in both, at the same time, settle everything *)
Lemma claim_takes e : env_ok e -> forall P k now L ts ms L' a w m, reached e now L -> now <= ts -> exec e ts ms Claim L = Ok (L', Some a) ->
  account_at ms 0 P -> account_at ms 3 k -> is_pool e L P w -> is_mining e L k m -> a = tokens_at ts (wp_ci w) m.
Proof.
  intros He P k now L ts ms L' a w m HR Hts X AP AK HP HM.
  pose proof (exec_effect e He now ts ms Claim L L' (Some a) HR Hts I X) as F. cbn [effect] in F.
  destruct F as (p & mi & v & q & ow & au & de & u & x & x1 & [rs Hms] & Hu & Hx & R & Er & _).
  assert (p = P) as -> by (unfold account_at in AP; rewrite Hms in AP; cbn in AP; congruence).
  assert (q = k) as -> by (unfold account_at in AK; rewrite Hms in AK; cbn in AK; congruence).
  rewrite (pool_fun e _ _ _ _ Hu HP), (mining_fun e _ _ _ _ Hx HM) in R. injection Er as ->. unfold tokens_at. apply R.
Qed.
Lemma often_settled e1 e2 : env_ok e1 -> env_ok e2 -> forall P1 P2 k1 k2 now1 L1 now1' L1' now2 L2 now2' L2' b c x y v w m n ts ms1 M1 a1 ms2 M2 a2,
  reached e1 now1 L1 -> reached e2 now2 L2 ->
  full_log e1 P1 k1 now1 L1 now1' L1' b x -> full_log e2 P2 k2 now2 L2 now2' L2' c y ->
  but_claims b = but_claims c -> Forall own_or_none b ->
  is_pool e1 L1 P1 v -> is_pool e2 L2 P2 w -> pools_alike v w -> is_mining e1 L1 k1 m -> is_mining e2 L2 k2 n -> alike m n ->
  now1' <= ts -> now2' <= ts ->
  exec e1 ts ms1 Claim L1' = Ok (M1, Some a1) -> account_at ms1 0 P1 -> account_at ms1 3 k1 ->
  exec e2 ts ms2 Claim L2' = Ok (M2, Some a2) -> account_at ms2 0 P2 -> account_at ms2 3 k2 ->
  x + a1 <= y + a2 + how_many claims c /\ y + a2 <= x + a1 + how_many claims b.
Proof.
  intros H1 H2 P1 P2 k1 k2 now1 L1 now1' L1' now2 L2 now2' L2' b c x y v w m n ts ms1 M1 a1 ms2 M2 a2
    R1 R2 D1 D2 BC O V W PA M N A T1 T2 X1 AP1 AK1 X2 AP2 AK2.
  destruct (full_log_steps e1 H1 _ _ _ _ _ _ _ _ D1 R1 v m V M) as (v' & m' & V' & M' & _).
  destruct (full_log_steps e2 H2 _ _ _ _ _ _ _ _ D2 R2 w n W N) as (w' & n' & W' & N' & _).
  rewrite (claim_takes e1 H1 _ _ _ _ _ _ _ _ _ _ (log_reached e1 _ _ _ _ _ _ _ _ D1 R1) T1 X1 AP1 AK1 V' M').
  rewrite (claim_takes e2 H2 _ _ _ _ _ _ _ _ _ _ (log_reached e2 _ _ _ _ _ _ _ _ D2 R2) T2 X2 AP2 AK2 W' N').
  eapply (often e1 e2 H1 H2); eassumption.
Qed.
