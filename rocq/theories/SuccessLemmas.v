(** When the methods of State.v succeed, in terms of SuccessSpec.v. *)
From stdpp Require Import gmap.
From Verif Require Import Base OMap State Spec EffectSpec Ledger Program LedgerLemmas LedgerSpec HistoryThms SuccessSpec
  ResLemmas TreeLemmas AccrualLemmas RefreshLemmas FrameLemmas WfLemmas CoreSteps CoreLive EffectLemmas EffectMethods.

Notation succeeds r := (exists x, r = Ok x).

Lemma bind_ex {A B} (r : res A) (f : A -> res B) :
  succeeds (rbind r f) <-> exists a, r = Ok a /\ succeeds (f a).
Proof.
  split.
  - intros (x & H). apply rbind_ok in H as (a & Ha & Hx). eauto.
  - intros (a & -> & x & H). exists x. exact H.
Qed.
Lemma bind_assoc {A B C} (r : res A) (f : A -> res B) (g : B -> res C) :
  rbind (rbind r f) g = rbind r (fun a => rbind (f a) g).
Proof. destruct r; reflexivity. Qed.
Lemma bind_known {A B} (r : res A) a (f : A -> res B) : r = Ok a -> succeeds (rbind r f) <-> succeeds (f a).
Proof. intros ->. reflexivity. Qed.
Lemma bind_if {A B} (r : res A) a (f : A -> res B) (P Q : Prop) :
  (succeeds r <-> P) -> (P -> r = Ok a) -> (P -> succeeds (f a) <-> Q) -> succeeds (rbind r f) <-> P /\ Q.
Proof.
  intros H1 H2 H3. rewrite bind_ex. split.
  - intros (b & E & X). assert (p : P) by (apply H1; eauto). split; [exact p|].
    rewrite (H2 p) in E. injection E as <-. apply (H3 p). exact X.
  - intros [p q]. exists a. split; [apply H2; exact p|]. apply (H3 p). exact q.
Qed.
Lemma ok_ex {A} (a : A) : succeeds (Ok a) <-> True.
Proof. split; [auto|eauto]. Qed.

Lemma sub_bind {B} a b (f : Z -> res B) (Q : Prop) :
  (b <= a -> succeeds (f (a - b)) <-> Q) -> succeeds (rbind (safe_sub a b) f) <-> b <= a /\ Q.
Proof.
  intros H. apply (bind_if _ (a - b)); [| |exact H].
  - split; [intros (x & E); apply safe_sub_ok in E; tauto|intros E; exists (a - b); apply safe_sub_ok; auto].
  - intros E. apply safe_sub_ok. auto.
Qed.
Lemma add_bind {B} a b (f : Z -> res B) (Q : Prop) :
  (fits (a + b) -> succeeds (f (a + b)) <-> Q) -> succeeds (rbind (safe_add64 a b) f) <-> fits (a + b) /\ Q.
Proof.
  intros H. apply (bind_if _ (a + b)); [| |exact H].
  - split; [intros (x & E); apply safe_add64_ok in E; apply E|intros E; exists (a + b); apply safe_add64_ok; auto].
  - intros E. apply safe_add64_ok. auto.
Qed.
Lemma mul_bind {B} a b (f : Z -> res B) (Q : Prop) :
  (fits (a * b) -> succeeds (f (a * b)) <-> Q) -> succeeds (rbind (safe_mul64 a b) f) <-> fits (a * b) /\ Q.
Proof.
  intros H. apply (bind_if _ (a * b)); [| |exact H].
  - split; [intros (x & E); apply safe_mul64_ok in E; apply E|intros E; exists (a * b); apply safe_mul64_ok; auto].
  - intros E. apply safe_mul64_ok. auto.
Qed.
Lemma ensure_bind {B} b er (f : unit -> res B) (Q : Prop) :
  (b = true -> succeeds (f tt) <-> Q) -> succeeds (rbind (ensure b er) f) <-> b = true /\ Q.
Proof.
  intros H. apply (bind_if _ tt); [| |exact H]; destruct b; cbn; try (split; eauto; fail); try congruence.
  split; [intros (x & E)|]; discriminate.
Qed.

(** ** Refresh *)
Lemma update_index_64 ci d s u j u' j' :
  ascending ci -> 0 <= s -> is_u64 u -> mining_update_index ci d s u j = Ok (u', j') -> is_u64 u'.
Proof.
  intros Ha Hs Hu H. eapply update_index_u64; [eassumption| |exact H].
  apply update_index_ok in H as (-> & Hj & _); [|assumption..]. rewrite (find_lt_visible d ci 0 Ha).
  change (visible_from 0 d ci) with (visible d ci). nia.
Qed.
Lemma update_index_iff ci d s u j :
  ascending ci -> 0 <= s -> is_u64 u ->
  succeeds (mining_update_index ci d s u j) <->
  j <= visible d ci /\ fits (u + (visible d ci - j) * s / PRECISION).
Proof.
  intros Ha Hs Hu. split.
  - intros ([u' j'] & H). pose proof (update_index_64 ci d s u j u' j' Ha Hs Hu H) as Hu'.
    apply update_index_ok in H as (-> & Hj & ->); [|assumption|assumption]. split; [assumption|apply Hu'].
  - intros [Hj Hf]. unfold mining_update_index. rewrite (find_lt_visible d ci 0 Ha).
    change (visible_from 0 d ci) with (visible d ci).
    set (q := (visible d ci - j) * s / PRECISION) in *.
    assert (0 <= (visible d ci - j) * s) by nia.
    assert (0 <= q) by (apply Z.div_pos; [assumption|reflexivity]).
    assert ((visible d ci - j) * s < PRECISION * (q + 1)).
    { pose proof (floor_bounds ((visible d ci - j) * s)). fold q in H1. unfold PRECISION in *. lia. }
    unfold is_u64, U64 in *. unfold PRECISION in *.
    rewrite (proj2 (safe_sub_ok (visible d ci) j (visible d ci - j))) by lia. cbn [rbind].
    rewrite (proj2 (safe_mul128_ok _ _ ((visible d ci - j) * s))) by (unfold U128; split; [lia|reflexivity]). cbn [rbind].
    rewrite (proj2 (safe_div_ok _ _ q)) by (split; [discriminate|reflexivity]). cbn [rbind].
    rewrite (proj2 (try_u64_ok q q)) by (unfold U64; lia). cbn [rbind].
    destruct (Z.ltb_spec 0 q); [|cbn [rbind]; eauto].
    rewrite (proj2 (safe_add64_ok u q (u + q))) by (unfold U64; lia). cbn [rbind]. eauto.
Qed.

Lemma settle_iff ci b ts : b <= ts -> hist_ok ci -> forall l s u j,
  ascending l -> values (fun v => 0 <= v) l -> 0 <= s -> is_u64 u ->
  succeeds (let? (t, u1, i, ds) := mining_consume_loop ci b l s u j in
            let? (u2, i2) := mining_update_index ci ts t u1 i in Ok (t, u2, i2, ds)) <->
  due b l <= s /\ j <= visible ts ci /\ (forall d v, In (d, v) l -> d <= b -> j <= visible d ci) /\
  fits (u + earned ci s j (upto b l) ts).
Proof.
  intros Hb [Hc Hg _]. induction l as [|[d v] r IH]; intros s u j Ha Hv Hs Hu; cbn [mining_consume_loop].
  - rewrite (bind_known _ _ _ eq_refl). cbn [due upto filter earned].
    change 10000000000000000 with PRECISION. rewrite bind_ex. split.
    + intros ([u2 i2] & E & _). assert (X : succeeds (mining_update_index ci ts s u j)) by eauto.
      apply update_index_iff in X as [X1 X2]; [|assumption..]. repeat split; try assumption; try lia. intros ? ? [].
    + intros (_ & X1 & _ & X2). destruct (proj2 (update_index_iff ci ts s u j Hc Hs Hu) (conj X1 X2)) as ([u2 i2] & E).
      exists (u2, i2). split; [exact E|]. eauto.
  - destruct (Z.ltb_spec b d) as [Hd|Hd].
    + rewrite (bind_known _ _ _ eq_refl).
      assert (Hlate : dates (fun k => b < k) ((d, v) :: r)).
      { intros k' v' [E|E]; [injection E as <- <-; lia|apply Ha in E; lia]. }
      rewrite (upto_none b _ Hlate), (due_nil_below b _ Hlate). cbn [earned].
      change 10000000000000000 with PRECISION. rewrite bind_ex. split.
      * intros ([u2 i2] & E & _). assert (X : succeeds (mining_update_index ci ts s u j)) by eauto.
        apply update_index_iff in X as [X1 X2]; [|assumption..]. repeat split; try assumption; try lia.
        intros d' v' Hin Hd'. apply Hlate in Hin. lia.
      * intros (_ & X1 & _ & X2). destruct (proj2 (update_index_iff ci ts s u j Hc Hs Hu) (conj X1 X2)) as ([u2 i2] & E).
        exists (u2, i2). split; [exact E|]. eauto.
    + rewrite upto_cons by assumption. cbn [due earned]. rewrite (proj2 (Z.leb_le d b)) by assumption.
      pose proof (Hv d v (or_introl eq_refl)) as Hv0. cbv beta in Hv0.
      assert (Hvr : values (fun v => 0 <= v) r) by (intros ? ? ?; eapply Hv; right; eauto).
      assert (Har : ascending r) by apply Ha.
      assert (Hmon : visible d ci <= visible ts ci) by (apply visible_mono; [assumption|lia]).
      change 10000000000000000 with PRECISION. set (q := (visible d ci - j) * s / PRECISION).
      pose proof (due_bounds b r Hvr) as Hdb.
      split.
      * intros (x & H). inv.
        match goal with H : mining_update_index ci d _ _ _ = Ok _ |- _ => rename H into Eup end.
        pose proof (update_index_64 _ _ _ _ _ _ _ Hc Hs Hu Eup) as Hu'.
        apply update_index_ok in Eup as (-> & Hjv & ->); [|assumption|assumption].
        assert (X : succeeds (let? (t, u1, i, ds) := mining_consume_loop ci b r (s - v) (u + (visible d ci - j) * s / PRECISION) (visible d ci) in
            let? (u2, i2) := mining_update_index ci ts t u1 i in Ok (t, u2, i2, ds))).
        { match goal with H : mining_consume_loop _ _ _ _ _ _ = Ok _ |- _ => rewrite H; cbn [rbind] end.
          match goal with H : mining_update_index ci ts _ _ _ = Ok _ |- _ => rewrite H; cbn [rbind] end. eauto. }
        apply IH in X as (X1 & X2 & X3 & X4); [|assumption|assumption|lia|assumption].
        split; [lia|]. split; [lia|]. split; [|fold q in X4; lia].
        intros d' v' [Hin|Hin] Hd'; [injection Hin as <- <-; assumption|].
        specialize (X3 _ _ Hin Hd'). lia.
      * intros (X1 & X2 & X3 & X4). pose proof (X3 d v (or_introl eq_refl) Hd) as Hjv.
        assert (0 <= q) by (unfold q; apply Z.div_pos; [nia|reflexivity]).
        assert (He : 0 <= earned ci (s - v) (visible d ci) (upto b r) ts).
        { apply earned_nonneg; [assumption|apply ascending_upto; assumption|assumption| | |].
          - intros k x Hin. apply in_upto in Hin as [Hin Hk]. split; [|lia].
            apply visible_mono; [assumption|]. apply Ha in Hin. lia.
          - intros k x Hin. apply in_upto in Hin as [Hin _]. eapply Hvr. eassumption.
          - rewrite total_upto. lia. }
        destruct (proj2 (update_index_iff ci d s u j Hc Hs Hu)) as ([u' j'] & E); [fold q; split; lia|].
        rewrite E. cbn [rbind].
        pose proof (update_index_64 _ _ _ _ _ _ _ Hc Hs Hu E) as Hu'.
        apply update_index_ok in E as (-> & _ & ->); [|assumption|assumption]. fold q in Hu' |- *.
        rewrite (proj2 (safe_sub_ok s v (s - v))) by lia. cbn [rbind].
        destruct (proj2 (IH (s - v) (u + q) (visible d ci) Har Hvr ltac:(lia) Hu')) as ([[[t u2] i2] ds] & Y).
        { split; [lia|]. split; [assumption|]. split; [|fold q in X4; lia].
          intros d' v' Hin _. apply visible_mono; [assumption|]. apply Ha in Hin. lia. }
        apply rbind_ok in Y as ([[[t1 u1] i1] ds1] & Y1 & Y2). rewrite Y1. cbn [rbind].
        apply rbind_ok in Y2 as ([u3 i3] & Y2 & Y3). rewrite Y2. cbn [rbind]. eauto.
Qed.

Lemma refresh_iff ts ci m : hist_ok ci -> mining_wf m -> succeeds (refresh ts ci m) <-> can_refresh ts ci m.
Proof.
  intros Hh Hw. pose proof (mining_wf_min _ Hw) as Hm. pose proof (mo_share _ Hm). pose proof (mo_sfo _ Hm).
  pose proof (mw_unclaimed _ Hw) as Hu.
  pose proof (bod_bounds ts) as Hb.
  pose proof (settle_iff ci (bod ts) ts ltac:(lia) Hh (wm_diffs m) (m_share (wm m) + m_sfo (wm m)) (m_unclaimed (wm m))
    (m_index (wm m)) (mw_asc _ Hw) (mo_vals _ Hm) ltac:(lia) Hu) as S.
  split.
  - intros (m' & Hr). pose proof (refresh_refreshed _ _ _ _ Hh Hm Hr) as R.
    pose proof (refresh_ok _ _ _ _ Hh Hm Hr) as (_ & Q1 & _ & _ & _ & _ & _ & _ & _ & _ & _ & Q2 & Q3 & _).
    rewrite bod_day_start in *.
    unfold refresh in Hr. cbv zeta in Hr. unfold mining_consume in Hr. inv.
    assert (X : succeeds (let? (t, u1, i, ds) := mining_consume_loop ci (bod ts) (wm_diffs m) (m_share (wm m) + m_sfo (wm m)) (m_unclaimed (wm m)) (m_index (wm m)) in
            let? (u2, i2) := mining_update_index ci ts t u1 i in Ok (t, u2, i2, ds))).
    { match goal with H : mining_consume_loop _ _ _ _ _ _ = Ok _ |- _ => rewrite H; cbn [rbind] end.
      match goal with H : mining_update_index ci ts _ _ _ = Ok _ |- _ => rewrite H; cbn [rbind] end. eauto. }
    rewrite bod_day_start in *. apply S in X as (X1 & X2 & X3 & X4).
    constructor; [exact Q3|lia|assumption|assumption|exact X4].
  - intros [C1 C2 C3 C4 C5]. rewrite bod_day_start in *.
    destruct (proj2 S) as ([[[t u2] i2] ds] & Y); [repeat split; [lia|assumption|assumption|exact C5]|].
    apply rbind_ok in Y as ([[[t1 u1] i1] ds1] & Y1 & Y2).
    apply rbind_ok in Y2 as ([u3 i3] & Y2 & Y3). injection Y3 as <- <- <- <-.
    unfold refresh. cbv zeta. rewrite (proj2 (safe_add64_ok _ _ (m_share (wm m) + m_sfo (wm m)))) by (split; [exact C1|reflexivity]).
    cbn [rbind]. unfold mining_consume. rewrite bod_day_start, Y1. cbn [rbind]. rewrite Y2. cbn [rbind].
    apply consume_loop_ok in Y1 as (-> & _); [|assumption|apply Hm|apply Hm|apply Hm|lia].
    rewrite (proj2 (safe_sub_ok _ _ (m_share (wm m) - due (day_start ts) (wm_diffs m)))) by lia. cbn [rbind]. eauto.
Qed.

Lemma refresh_bind {B} ts ci m (f : wmining -> res B) (Q : Prop) :
  hist_ok ci -> mining_wf m ->
  (forall m1, can_refresh ts ci m -> refresh ts ci m = Ok m1 -> refreshed ts ci m m1 -> succeeds (f m1) <-> Q) ->
  succeeds (rbind (refresh ts ci m) f) <-> can_refresh ts ci m /\ Q.
Proof.
  intros Hh Hm H. rewrite bind_ex. split.
  - intros (m1 & E & X). assert (C : can_refresh ts ci m) by (apply refresh_iff; eauto). split; [assumption|].
    apply (H m1 C E); [|assumption]. apply refresh_refreshed; auto using mining_wf_min.
  - intros [C q]. destruct (proj2 (refresh_iff ts ci m Hh Hm) C) as (m1 & E). exists m1. split; [assumption|].
    apply (H m1 C E); [|assumption]. apply refresh_refreshed; auto using mining_wf_min.
Qed.

(** ** Delegates *)
Definition some_dlg (d : option wmining) : dlg := match d with None => None | Some x => Some (Ok x) end.

Lemma sfo_wf x s : mining_wf x -> is_u64 s -> mining_wf (WMining (set_sfo (wm x) s) (wm_diffs x)).
Proof. intros [] Hs. constructor; auto. Qed.

Lemma join_bind {B} ts a ci t d (f : Z * option wmining -> res B) (Q : Prop) :
  hist_ok ci -> odlg_wf d -> 0 <= a ->
  (forall d1, can_join ts ci a t d -> delegate_add ts a ci t (some_dlg d) = Ok (t + for_delegate d a, d1) ->
     succeeds (f (t + for_delegate d a, d1)) <-> Q) ->
  succeeds (rbind (delegate_add ts a ci t (some_dlg d)) f) <-> can_join ts ci a t d /\ Q.
Proof.
  intros Hh Hd Ha H. destruct d as [x|]; cbn [some_dlg can_join for_delegate] in *.
  - cbn [delegate_add rbind] in *.
    assert (Hw : fits (m_sfo (wm x) + a) -> mining_wf (with_delegated x (m_sfo (wm x) + a))).
    { intros Hf. apply sfo_wf; [exact Hd|]. pose proof (mw_sfo _ Hd). unfold is_u64 in *. split; [lia|exact Hf]. }
    rewrite bind_ex. split.
    + intros ([t1 d1] & E & X). apply rbind_ok in E as (s1 & E1 & E). apply safe_add64_ok in E1 as [E1 ->].
      apply rbind_ok in E as (t2 & E2 & E). apply safe_add64_ok in E2 as [E2 ->].
      apply rbind_ok in E as (x1 & E3 & E). injection E as <- <-.
      assert (C : fits (m_sfo (wm x) + a) /\ fits (t + a) /\ can_refresh ts ci (with_delegated x (m_sfo (wm x) + a))).
      { split; [exact E1|]. split; [exact E2|]. apply refresh_iff; [assumption|apply Hw; exact E1|]. eauto. }
      split; [exact C|]. apply (H (Some x1) C); [|exact X].
      rewrite (proj2 (safe_add64_ok _ _ (m_sfo (wm x) + a))) by auto. cbn [rbind].
      rewrite (proj2 (safe_add64_ok _ _ (t + a))) by auto. cbn [rbind]. rewrite E3. reflexivity.
    + intros [C q]. pose proof C as (C1 & C2 & C3).
      apply refresh_iff in C3 as (x1 & E3); [|assumption|apply Hw; exact C1].
      assert (E : delegate_add ts a ci t (Some (Ok x)) = Ok (t + a, Some x1)).
      { cbn [delegate_add rbind]. rewrite (proj2 (safe_add64_ok _ _ (m_sfo (wm x) + a))) by auto. cbn [rbind].
        rewrite (proj2 (safe_add64_ok _ _ (t + a))) by auto. cbn [rbind].
        change (WMining (set_sfo (wm x) (m_sfo (wm x) + a)) (wm_diffs x)) with (with_delegated x (m_sfo (wm x) + a)).
        rewrite E3. reflexivity. }
      exists (t + a, Some x1). cbn [delegate_add rbind] in E. split; [exact E|]. apply (H (Some x1) C E). exact q.
  - specialize (H None I). cbn [delegate_add] in *. rewrite Z.add_0_r in H. cbn [rbind].
    rewrite (H eq_refl). tauto.
Qed.

Lemma leave_bind {B} ts a ci t d (f : Z * option wmining -> res B) (Q : Prop) :
  hist_ok ci -> odlg_wf d -> 0 <= a ->
  (forall d1, can_leave ts ci a t d -> delegate_sub ts a ci t (some_dlg d) = Ok (t - for_delegate d a, d1) ->
     succeeds (f (t - for_delegate d a, d1)) <-> Q) ->
  succeeds (rbind (delegate_sub ts a ci t (some_dlg d)) f) <-> can_leave ts ci a t d /\ Q.
Proof.
  intros Hh Hd Ha H. destruct d as [x|]; cbn [some_dlg can_leave for_delegate] in *.
  - cbn [delegate_sub rbind] in *.
    assert (Hw : a <= m_sfo (wm x) -> mining_wf (with_delegated x (m_sfo (wm x) - a))).
    { intros Hf. apply sfo_wf; [exact Hd|]. pose proof (mw_sfo _ Hd). unfold is_u64 in *. lia. }
    rewrite bind_ex. split.
    + intros ([t1 d1] & E & X). apply rbind_ok in E as (s1 & E1 & E). apply safe_sub_ok in E1 as [E1 ->].
      apply rbind_ok in E as (t2 & E2 & E). apply safe_sub_ok in E2 as [E2 ->].
      apply rbind_ok in E as (x1 & E3 & E). injection E as <- <-.
      assert (C : a <= m_sfo (wm x) /\ a <= t /\ can_refresh ts ci (with_delegated x (m_sfo (wm x) - a))).
      { split; [exact E1|]. split; [exact E2|]. apply refresh_iff; [assumption|apply Hw; exact E1|]. eauto. }
      split; [exact C|]. apply (H (Some x1) C); [|exact X].
      rewrite (proj2 (safe_sub_ok _ _ (m_sfo (wm x) - a))) by auto. cbn [rbind].
      rewrite (proj2 (safe_sub_ok _ _ (t - a))) by auto. cbn [rbind]. rewrite E3. reflexivity.
    + intros [C q]. pose proof C as (C1 & C2 & C3).
      apply refresh_iff in C3 as (x1 & E3); [|assumption|apply Hw; exact C1].
      assert (E : delegate_sub ts a ci t (Some (Ok x)) = Ok (t - a, Some x1)).
      { cbn [delegate_sub rbind]. rewrite (proj2 (safe_sub_ok _ _ (m_sfo (wm x) - a))) by auto. cbn [rbind].
        rewrite (proj2 (safe_sub_ok _ _ (t - a))) by auto. cbn [rbind].
        change (WMining (set_sfo (wm x) (m_sfo (wm x) - a)) (wm_diffs x)) with (with_delegated x (m_sfo (wm x) - a)).
        rewrite E3. reflexivity. }
      exists (t - a, Some x1). cbn [delegate_sub rbind] in E. split; [exact E|]. apply (H (Some x1) C E). exact q.
  - specialize (H None I). cbn [delegate_sub] in *. rewrite Z.sub_0_r in H. cbn [rbind].
    rewrite (H eq_refl). tauto.
Qed.

(** ** Schedules *)
Lemma expiry_bind {B} p ts (f : Z -> res B) (Q : Prop) :
  (p <> LNone -> fits (expiry p ts) -> succeeds (f (expiry p ts)) <-> Q) ->
  succeeds (rbind (end_timestamp p ts) f) <-> (p <> LNone /\ fits (expiry p ts)) /\ Q.
Proof.
  intros H. apply (bind_if _ (expiry p ts)).
  - split.
    + intros (x & E). pose proof E as E'. apply end_timestamp_ok in E' as (-> & Hp & _). split; [assumption|].
      unfold expiry in *. rewrite <- bod_day_start in *.
      destruct p; cbn [end_timestamp] in E; try discriminate; apply plain_add64_ok in E; cbn [days_of]; unfold DAY, U64 in *; lia.
    + intros [Hp Hf]. exists (expiry p ts). unfold expiry in *. rewrite <- bod_day_start in *.
      destruct p; [congruence| | | |]; cbn [end_timestamp days_of] in *; apply plain_add64_ok; unfold DAY, U64; lia.
  - intros [Hp Hf]. unfold expiry in *. rewrite <- bod_day_start in *.
    destruct p; [congruence| | | |]; cbn [end_timestamp days_of] in *; apply plain_add64_ok; unfold DAY, U64; lia.
  - intros [Hp Hf]. auto.
Qed.

Lemma add_pool_bind {B} t k x (f : tmap -> res B) (Q : Prop) :
  (forall t', add_pool_diff t k x = Ok t' -> succeeds (f t') <-> Q) ->
  succeeds (rbind (add_pool_diff t k x) f) <-> fits (at_date k t + x) /\ Q.
Proof.
  intros H. unfold add_pool_diff in *. cbv zeta in *. rewrite <- at_date_oget in *.
  apply (bind_if _ (oinsert POOL_CAP k (at_date k t + x) t)).
  - rewrite (add_bind _ _ _ True); [tauto|]. intros _. apply ok_ex.
  - intros Hf. rewrite (proj2 (safe_add64_ok _ _ (at_date k t + x))) by auto. reflexivity.
  - intros Hf. apply H. rewrite (proj2 (safe_add64_ok _ _ (at_date k t + x))) by auto. reflexivity.
Qed.

Lemma add_mining_bind {B} t k x (f : tmap -> res B) (Q : Prop) :
  fits x -> (forall t', add_mining_diff t k x = Ok t' -> succeeds (f t') <-> Q) ->
  succeeds (rbind (add_mining_diff t k x) f) <-> fits (at_date k t + x) /\ Q.
Proof.
  intros Hx H. rewrite at_date_oget. unfold add_mining_diff in *. destruct (oget k t) as [v|].
  - apply (bind_if _ (oput k (v + x) t)).
    + rewrite (add_bind _ _ _ True); [tauto|]. intros _. apply ok_ex.
    + intros Hf. rewrite (proj2 (safe_add64_ok _ _ (v + x))) by auto. reflexivity.
    + intros Hf. apply H. rewrite (proj2 (safe_add64_ok _ _ (v + x))) by auto. reflexivity.
  - cbn [rbind]. rewrite (H _ eq_refl). rewrite Z.add_0_l. tauto.
Qed.

Lemma modify_bind {B} t k x (f : tmap -> res B) (Q : Prop) :
  ascending t -> (forall t', modify_diffs t k x = Ok t' -> succeeds (f t') <-> Q) ->
  succeeds (rbind (modify_diffs t k x) f) <-> holds_at k x t /\ Q.
Proof.
  intros Ha H. unfold holds_at. rewrite has_date_oget by assumption. rewrite at_date_oget.
  unfold modify_diffs in *. destruct (oget k t) as [v|].
  - apply (bind_if _ (oput k (v - x) t)).
    + rewrite (sub_bind _ _ _ True); [|intros _; apply ok_ex]. split; [intros [? _]; split; [discriminate|assumption]|tauto].
    + intros [_ Hf]. rewrite (proj2 (safe_sub_ok _ _ (v - x))) by auto. reflexivity.
    + intros [_ Hf]. apply H. rewrite (proj2 (safe_sub_ok _ _ (v - x))) by auto. reflexivity.
  - cbn [rbind]. split; [intros (y & E); discriminate|intros [[E _] _]; congruence].
Qed.

Lemma consume_bind {B} b s t (f : Z * tmap -> res B) (Q : Prop) :
  ascending t -> values (fun v => 0 <= v) t -> 0 <= s ->
  (due b t <= s -> succeeds (f (s - due b t, after b t)) <-> Q) ->
  succeeds (rbind (pool_consume b s t) f) <-> due b t <= s /\ Q.
Proof.
  intros Ha Hv Hs H. apply (bind_if _ (s - due b t, after b t)); [| |exact H].
  - split; [|intros X; exists (s - due b t, after b t); apply pool_consume_succeeds; assumption].
    intros ([s' t'] & E). pose proof E as E'. apply pool_consume_ok in E' as [-> ->]; [|assumption].
    unfold pool_consume in E. inv. apply pool_consume_loop_nonneg in E0; [|assumption]. lia.
  - intros X. apply pool_consume_succeeds; assumption.
Qed.
