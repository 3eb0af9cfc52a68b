(** Calls made in two parts (claim C61). *)
From stdpp Require Import gmap.
From Verif Require Worth.
From Verif Require Import Base OMap State Spec EffectSpec Ledger Program LedgerLemmas LedgerSpec CodecLemmas History HistoryLemmas HistoryThms
  SuccessSpec ResLemmas TreeLemmas AccrualLemmas RefreshLemmas FrameLemmas WfLemmas CoreSteps CoreLive EffectLemmas EffectMethods
  SuccessLemmas SuccessMethods SuccessThms ReachThms Clients ClientSpec ClientLemmas LedgerCoreThms AccessLemmas Determined SplitSpec.

(** ** Schedules *)
Lemma oput_oput k v v' t : oput k v' (oput k v t) = oput k v' t.
Proof.
  induction t as [|[a b] r IH]; cbn [oput].
  - rewrite Z.ltb_irrefl, Z.eqb_refl. reflexivity.
  - destruct (Z.ltb_spec k a); cbn [oput].
    + rewrite Z.ltb_irrefl, Z.eqb_refl. reflexivity.
    + destruct (Z.eqb_spec a k); cbn [oput].
      * subst. rewrite Z.ltb_irrefl, Z.eqb_refl. reflexivity.
      * rewrite (proj2 (Z.ltb_ge k a)) by lia. rewrite (proj2 (Z.eqb_neq a k)) by assumption. rewrite IH. reflexivity.
Qed.
Lemma ohas_oput k v t : ohas k (oput k v t) = true.
Proof. unfold ohas. rewrite oget_oput, Z.eqb_refl. reflexivity. Qed.
Lemma oinsert_twice cap k v v' t :
  oinsert cap k v' (oinsert cap k v t) = oinsert cap k v' t.
Proof.
  unfold oinsert. destruct (ohas k t) eqn:E.
  - rewrite ohas_oput, oput_oput. reflexivity.
  - destruct (Z.of_nat (length t) <? cap) eqn:El.
    + rewrite ohas_oput, oput_oput. reflexivity.
    + rewrite E, El. reflexivity.
Qed.
Lemma oget_oinsert cap k v t :
  oget k (oinsert cap k v t) = if ohas k t || (Z.of_nat (length t) <? cap) then Some v else None.
Proof.
  unfold oinsert. destruct (ohas k t) eqn:E; cbn [orb].
  - rewrite oget_oput, Z.eqb_refl. reflexivity.
  - destruct (_ <? cap); [rewrite oget_oput, Z.eqb_refl; reflexivity|]. apply ohas_false. assumption.
Qed.

Lemma add_pool_twice t k x y t1 t2 :
  0 <= x -> 0 <= y -> x + y < U64 ->
  add_pool_diff t k x = Ok t1 -> add_pool_diff t1 k y = Ok t2 -> add_pool_diff t k (x + y) = Ok t2.
Proof.
  intros Hx Hy Hf H1 H2. unfold add_pool_diff in *. cbv zeta in *. inv.
  rewrite oget_oinsert in *.
  destruct (oget k t) as [v|] eqn:Eg; unfold ohas in *; rewrite Eg in *; cbn [orb] in *.
  - rewrite (proj2 (safe_add64_ok v (x + y) (v + x + y))) by (split; lia). cbn [rbind]. rewrite oinsert_twice. reflexivity.
  - destruct (Z.of_nat (length t) <? POOL_CAP) eqn:El.
    + rewrite (proj2 (safe_add64_ok 0 (x + y) (0 + x + y))) by (split; lia). cbn [rbind]. rewrite oinsert_twice. reflexivity.
    + rewrite (proj2 (safe_add64_ok 0 (x + y) (0 + (x + y)))) by (split; lia). cbn [rbind].
      unfold oinsert, ohas. rewrite Eg, El. rewrite Eg, El. reflexivity.
Qed.
Lemma add_mining_twice t k x y t1 t2 :
  0 <= x -> 0 <= y ->
  add_mining_diff t k x = Ok t1 -> add_mining_diff t1 k y = Ok t2 -> add_mining_diff t k (x + y) = Ok t2.
Proof.
  intros Hx Hy H1 H2. unfold add_mining_diff in *.
  destruct (oget k t) as [v|] eqn:E; inv.
  - rewrite oget_oput, Z.eqb_refl in H2. inv.
    rewrite (proj2 (safe_add64_ok v (x + y) (v + x + y))) by (split; lia). cbn [rbind]. rewrite oput_oput. reflexivity.
  - rewrite oget_oinsert in H2. unfold ohas in H2. rewrite E in H2. cbn [orb] in H2.
    destruct (Z.ltb_spec (Z.of_nat (length t)) MINING_CAP) as [El|El]; inv; apply Z.ltb_lt in El || apply Z.ltb_ge in El.
    + unfold oinsert, ohas. rewrite E, El, oput_oput. reflexivity.
    + unfold oinsert, ohas. rewrite E, El, E, El. reflexivity.
Qed.
Lemma modify_twice t k x y t1 t2 :
  0 <= x -> 0 <= y ->
  modify_diffs t k x = Ok t1 -> modify_diffs t1 k y = Ok t2 -> modify_diffs t k (x + y) = Ok t2.
Proof.
  intros Hx Hy H1 H2. unfold modify_diffs in *. destruct (oget k t) as [v|] eqn:E; inv.
  rewrite oget_oput, Z.eqb_refl in H2. inv.
  rewrite (proj2 (safe_sub_ok v (x + y) (v - x - y))) by (split; lia). cbn [rbind]. rewrite oput_oput. reflexivity.
Qed.

Lemma decrease_loop_twice l : forall a b l1 l2,
  0 < a -> 0 < b -> values (fun v => 0 <= v) l ->
  decrease_loop a l = Ok l1 -> decrease_loop b l1 = Ok l2 -> decrease_loop (a + b) l = Ok l2.
Proof.
  induction l as [|[k v] r IH]; intros a b l1 l2 Ha Hb Hv H1 H2; cbn [decrease_loop] in *; [inv; exact H2|].
  assert (Hvr : values (fun v => 0 <= v) r) by (intros ? ? ?; eapply Hv; right; eauto).
  pose proof (Hv k v (or_introl eq_refl)) as Hv0. cbv beta in Hv0.
  destruct (Z.leb_spec a v).
  - inv. cbn [decrease_loop] in H2. destruct (Z.leb_spec b (v - a)).
    + inv. rewrite (proj2 (Z.leb_le (a + b) v)) by lia.
      rewrite (proj2 (safe_sub_ok v (a + b) (v - a - b))) by (split; lia). reflexivity.
    + inv. rewrite (proj2 (Z.leb_gt (a + b) v)) by lia.
      rewrite (proj2 (safe_sub_ok (a + b) v (b - (v - a)))) by (split; lia). cbn [rbind].
      match goal with H : decrease_loop _ _ = Ok _ |- _ => rewrite H end. reflexivity.
  - inv. cbn [decrease_loop] in H2. rewrite (proj2 (Z.leb_gt b 0)) in H2 by lia. inv.
    rewrite (proj2 (Z.leb_gt (a + b) v)) by lia.
    rewrite (proj2 (safe_sub_ok (a + b) v (a - v + b))) by (split; lia). cbn [rbind].
    match goal with A : decrease_loop _ r = Ok ?x, B : decrease_loop _ ?x = Ok _ |- _ =>
      rewrite (Z.sub_0_r b) in B; rewrite (IH (a - v) b _ _ ltac:(lia) Hb Hvr A B) end. reflexivity.
Qed.

(** ** Minings that have seen everything *)
Lemma up_refresh ts ci m m' : hist_ok ci -> min_ok m -> up_to_date ts ci m -> refresh ts ci m = Ok m' -> m' = m.
Proof.
  intros Hh Hm [H1 H2] H. eapply refreshed_same; [exact H1|exact H2|]. apply refresh_refreshed; assumption.
Qed.
Lemma refreshed_up ts ci m m' : refreshed ts ci m m' -> up_to_date ts ci m'.
Proof. intros R. split; [apply R|]. eapply refreshed_diffs. eassumption. Qed.
(** a delegate, if there is one, has seen everything *)
Definition dlg_up (ts : Z) (ci : sched) (d : dlg) : Prop :=
  match d with Some (Ok x) => up_to_date ts ci x | _ => True end.
(** the delegate as the next call finds it *)
Notation again d := (match d with None => None | Some x => Some (Ok x) end).

Lemma delegate_add_twice ts a b ci t d t1 d1 t' t2 d2 :
  hist_ok ci -> dlg_wf d -> dlg_up ts ci d -> 0 <= a -> 0 <= b ->
  delegate_add ts a ci t d = Ok (t1, d1) -> delegate_add ts b ci t' (again d1) = Ok (t2, d2) ->
  t1 = t + takes_part d a /\ t2 = t' + takes_part d b /\ (d = None \/ t' + b < U64) /\
  forall s u, u = s + takes_part d (a + b) -> (d = None \/ s + (a + b) < U64) -> delegate_add ts (a + b) ci s d = Ok (u, d2).
Proof.
  intros Hh Hd Hu Ha Hb H1 H2.
  destruct d as [[x|]|]; cbn [delegate_add rbind takes_part] in *; inv.
  all: cbn [delegate_add rbind] in H2; inv.
  2:{ rewrite !Z.add_0_r. repeat split; [left; reflexivity|]. intros s u -> _. rewrite Z.add_0_r. reflexivity. }
  cbn [dlg_wf dlg_up] in Hd, Hu. pose proof (mining_wf_min _ Hd) as Hm. pose proof (mo_sfo _ Hm) as Hsf.
  match goal with H : refresh _ _ (WMining (set_sfo (wm x) _) _) = Ok ?y |- _ =>
    apply up_refresh in H; [subst y|assumption| |] end.
  2:{ apply (min_ok_delegated x (m_sfo (wm x) + a)); [assumption|lia]. }
  2:{ exact Hu. }
  cbn [wm wm_diffs set_sfo m_sfo] in *.
  repeat split; [right; lia|]. intros s u -> [|Hs]; [discriminate|].
  rewrite (proj2 (safe_add64_ok (m_sfo (wm x)) (a + b) (m_sfo (wm x) + a + b))) by (split; lia). cbn [rbind].
  rewrite (proj2 (safe_add64_ok s (a + b) (s + (a + b)))) by (split; lia). cbn [rbind].
  match goal with H : refresh _ _ ?u = Ok _ |- context [refresh _ _ ?v] => change v with u; rewrite H end. auto.
Qed.
Lemma delegate_sub_twice ts a b ci t d t1 d1 t' t2 d2 :
  hist_ok ci -> dlg_wf d -> dlg_up ts ci d -> 0 <= a -> 0 <= b ->
  delegate_sub ts a ci t d = Ok (t1, d1) -> delegate_sub ts b ci t' (again d1) = Ok (t2, d2) ->
  t1 = t - takes_part d a /\ t2 = t' - takes_part d b /\ (d = None \/ a <= t /\ b <= t') /\
  forall s u, u = s - takes_part d (a + b) -> (d = None \/ a + b <= s) -> delegate_sub ts (a + b) ci s d = Ok (u, d2).
Proof.
  intros Hh Hd Hu Ha Hb H1 H2.
  destruct d as [[x|]|]; cbn [delegate_sub rbind takes_part] in *; inv.
  all: cbn [delegate_sub rbind] in H2; inv.
  2:{ rewrite !Z.sub_0_r. repeat split; [left; reflexivity|]. intros s u -> _. rewrite Z.sub_0_r. reflexivity. }
  cbn [dlg_wf dlg_up] in Hd, Hu. pose proof (mining_wf_min _ Hd) as Hm. pose proof (mo_sfo _ Hm) as Hsf.
  match goal with H : refresh _ _ (WMining (set_sfo (wm x) _) _) = Ok ?y |- _ =>
    apply up_refresh in H; [subst y|assumption| |] end.
  2:{ apply (min_ok_delegated x (m_sfo (wm x) - a)); [assumption|lia]. }
  2:{ exact Hu. }
  cbn [wm wm_diffs set_sfo m_sfo] in *.
  repeat split; [right; lia|]. intros s u -> [|Hs]; [discriminate|].
  rewrite (proj2 (safe_sub_ok (m_sfo (wm x)) (a + b) (m_sfo (wm x) - a - b))) by (split; lia). cbn [rbind].
  rewrite (proj2 (safe_sub_ok s (a + b) (s - (a + b)))) by (split; lia). cbn [rbind].
  match goal with H : refresh _ _ ?u = Ok _ |- context [refresh _ _ ?v] => change v with u; rewrite H end. auto.
Qed.

(** ** Methods *)
Lemma deposit_twice now ts w m a b p d w1 m1 d1 w2 m2 d2 :
  0 <= ts -> pool_wf now w -> mining_wf m -> dlg_wf d -> dlg_up ts (wp_ci w) d -> 0 <= a -> 0 <= b ->
  deposit ts w m a p d = Ok (w1, m1, d1) -> deposit ts w1 m1 b p (again d1) = Ok (w2, m2, d2) ->
  deposit ts w m (a + b) p d = Ok (w2, m2, d2).
Proof.
  intros Hts Hp Hm Hd Hu Ha Hb H1 H2. pose proof (pool_wf_hist _ _ Hp) as Hh.
  pose proof (deposit_wf _ _ _ _ _ _ _ _ _ _ Hts Hp Hm Hd Ha H1) as (Hp1 & Hm1 & Hd1).
  pose proof (deposit_effect _ _ _ _ _ _ _ _ _ _ Hp Hm Hd Ha H1) as (Hl & (m0 & R & O & Hs0 & S0) & OT & HT & HP & HD).
  assert (U1 : up_to_date ts (wp_ci w) m1).
  { split; [destruct O as (_ & -> & _); apply R|]. apply after_all.
    eapply Worth.scheduled_dates; [exact S0| |apply expiry_later; exact Hl].
    rewrite (rf_diffs _ _ _ _ R). apply Worth.dates_after. }
  destruct OT as (_ & _ & _ & _ & _ & _ & _ & _ & _ & Eci).
  clear HP HD HT Hs0 S0 O. unfold deposit in *. rewrite Eci in H2. inv. cbn [wp wp_diffs set_total p_total wm wm_diffs] in *.
  match goal with A : end_timestamp p ts = Ok ?x, B : end_timestamp p ts = Ok ?y |- _ => assert (y = x) by congruence; subst y; clear B end.
  match goal with A : refresh ts _ _ = Ok ?x, U : up_to_date _ _ _ |- _ => apply (up_refresh _ _ _ _ Hh (mining_wf_min _ Hm1) U) in A; subst x end.
  match goal with A : delegate_add _ a _ _ _ = Ok _, B : delegate_add _ b _ _ _ = Ok _ |- _ =>
    destruct (delegate_add_twice _ _ _ _ _ _ _ _ _ _ _ Hh Hd Hu Ha Hb A B) as (-> & -> & Hz & Hall) end.
  match goal with A : refresh ts _ m = Ok _ |- _ => rewrite A; cbn [rbind] end.
  pose proof (weight_pos p Hl) as Hw. rewrite <- weight_multiplier in *.
  pose proof (pw_total _ _ Hp) as Ht.
  assert (Etake : takes_part d a + takes_part d b = takes_part d (a + b)) by (destruct d; cbn [takes_part]; lia).
  assert (Hta : 0 <= takes_part d a) by (destruct d; cbn [takes_part]; lia).
  change (multiplier LFlex) with 1 in *. rewrite !Z.mul_1_r in *.
  assert (Ew : (a + b) * multiplier p = a * multiplier p + b * multiplier p) by lia.
  remember (a * multiplier p) as A eqn:EA. remember (b * multiplier p) as B eqn:EB.
  unfold is_u64 in Ht. cbn [wm set_share m_share wm_diffs] in *.
  rewrite (proj2 (safe_mul64_ok _ _ (A + B))) by lia. cbn [rbind].
  rewrite (proj2 (safe_mul64_ok _ _ (a + b))) by lia. cbn [rbind].
  rewrite (proj2 (safe_sub_ok _ _ (A - a + (B - b)))) by lia. cbn [rbind].
  rewrite (proj2 (safe_add64_ok _ _ (p_total (wp w) + (A + B)))) by lia. cbn [rbind].
  match goal with |- context [safe_add64 (m_share (wm ?x)) _] => rewrite (proj2 (safe_add64_ok (m_share (wm x)) _ (m_share (wm x) + A + B))) by lia end. cbn [rbind].
  match goal with A : end_timestamp p ts = Ok _ |- _ => rewrite A; cbn [rbind] end.
  match goal with P : add_pool_diff _ _ _ = Ok ?x, Q : add_pool_diff ?x _ _ = Ok _ |- _ => rewrite (add_pool_twice _ _ (A - a) (B - b) _ _ ltac:(lia) ltac:(lia) ltac:(lia) P Q) end. cbn [rbind].
  match goal with P : add_mining_diff _ _ _ = Ok ?x, Q : add_mining_diff ?x _ _ = Ok _ |- _ => rewrite (add_mining_twice _ _ (A - a) (B - b) _ _ ltac:(lia) ltac:(lia) P Q) end. cbn [rbind].
  erewrite Hall; [cbn [rbind]; reflexivity|lia|].
  destruct d; [|left; reflexivity]. destruct Hz as [Hz|Hz]; [discriminate|right]. cbn [takes_part] in *. lia.
Qed.

(** after a withdrawal the staker has seen everything *)
Lemma withdraw_twice now ts w m a b d w1 m1 d1 w2 m2 d2 :
  pool_wf now w -> mining_wf m -> dlg_wf d -> dlg_up ts (wp_ci w) d -> 0 <= a -> 0 <= b ->
  withdraw ts w m a d = Ok (w1, m1, d1) -> withdraw ts w1 m1 b (again d1) = Ok (w2, m2, d2) ->
  withdraw ts w m (a + b) d = Ok (w2, m2, d2).
Proof.
  intros Hp Hm Hd Hu Ha Hb H1 H2. pose proof (pool_wf_hist _ _ Hp) as Hh.
  pose proof (withdraw_wf _ _ _ _ _ _ _ _ _ Hp Hm Hd Ha H1) as (Hp1 & Hm1 & Hd1).
  pose proof (withdraw_effect _ _ _ _ _ _ _ _ _ Hp Hm Hd H1) as ((m0 & R & O & _ & _ & Hds) & OT & _).
  assert (U1 : up_to_date ts (wp_ci w) m1).
  { split; [destruct O as (_ & -> & _); apply R|]. rewrite Hds. eapply refreshed_diffs; exact R. }
  destruct OT as (_ & _ & _ & _ & _ & _ & _ & _ & _ & Eci).
  clear O Hds R. assert (Hpa : ascending (wp_diffs w)) by apply Hp. assert (Hpa1 : ascending (wp_diffs w1)) by apply Hp1.
  pose proof (pool_wf_vals _ _ Hp) as Hpv.
  unfold withdraw in *. rewrite Eci in H2. inv. cbn [wp wp_diffs set_total p_total wm wm_diffs] in *.
  match goal with A : refresh ts _ _ = Ok ?x, U : up_to_date _ _ _ |- _ => apply (up_refresh _ _ _ _ Hh (mining_wf_min _ Hm1) U) in A; subst x end.
  match goal with A : delegate_sub _ a _ _ _ = Ok _, B : delegate_sub _ b _ _ _ = Ok _ |- _ =>
    destruct (delegate_sub_twice _ _ _ _ _ _ _ _ _ _ _ Hh Hd Hu Ha Hb A B) as (-> & -> & Hz & Hall) end.
  match goal with A : refresh ts _ m = Ok _ |- _ => rewrite A; cbn [rbind] end.
  cbn [wm set_share m_share wm_diffs] in *.
  match goal with A : pool_consume _ _ (wp_diffs w) = Ok _ |- _ => apply pool_consume_ok in A as [-> ->]; [|assumption] end.
  match goal with A : pool_consume _ _ _ = Ok _ |- _ => apply pool_consume_ok in A as [-> ->]; [|assumption] end.
  rewrite !bod_day_start in *. rewrite (due_after _ _ _ (Z.le_refl _)), Z.sub_diag in *.
  rewrite (after_all _ (Spec.after _ _)) by apply Worth.dates_after.
  assert (Hta : 0 <= takes_part d a) by (destruct d; cbn [takes_part]; lia).
  assert (Etake : takes_part d a + takes_part d b = takes_part d (a + b)) by (destruct d; cbn [takes_part]; lia).
  pose proof (due_bounds (day_start ts) _ Hpv) as Hdb.
  rewrite (proj2 (safe_sub_ok _ _ (p_total (wp w) - (a + b)))) by lia. cbn [rbind].
  match goal with |- context [safe_sub (m_share (wm ?x)) _] => rewrite (proj2 (safe_sub_ok (m_share (wm x)) _ (m_share (wm x) - a - b))) by lia end. cbn [rbind].
  rewrite pool_consume_succeeds by (try assumption; lia). cbn [rbind].
  erewrite Hall; [cbn [rbind]; reflexivity|lia|].
  destruct d; [|left; reflexivity]. destruct Hz as [Hz|Hz]; [discriminate|right]. cbn [takes_part] in *. lia.
Qed.

(** refreshing a mining that has seen everything *)
Lemma up_refresh_iff ts ci m : hist_ok ci -> mining_wf m -> up_to_date ts ci m ->
  refresh ts ci m = Ok m <-> m_share (wm m) + m_sfo (wm m) < U64.
Proof.
  intros Hh Hm [U1 U2]. rewrite <- (current_iff ts ci m U1) by (try assumption; rewrite <- U2; apply Worth.dates_after).
  rewrite <- (refresh_iff ts ci m Hh Hm). split; [intros E; eexists; exact E|].
  intros (x & E). pose proof E as E'. apply up_refresh in E'; [|assumption|apply mining_wf_min; assumption|split; assumption]. congruence.
Qed.
(** withdrawing once more at the same time *)
Lemma withdraw_again now ts w m b w' m' d' :
  pool_wf now w -> mining_wf m -> up_to_date ts (wp_ci w) m -> Spec.after (day_start ts) (wp_diffs w) = wp_diffs w -> 0 <= b ->
  withdraw ts w m b None = Ok (w', m', d') <->
  m_share (wm m) + m_sfo (wm m) < U64 /\ b <= p_total (wp w) /\ b <= m_share (wm m) /\ d' = None /\
  w' = WPool (set_total (wp w) (p_total (wp w) - b)) (wp_diffs w) (wp_ci w) /\
  m' = WMining (set_share (wm m) (m_share (wm m) - b)) (wm_diffs m).
Proof.
  intros Hp Hm Hu Hc Hb. pose proof (pool_wf_hist _ _ Hp) as Hh. pose proof (pool_wf_vals _ _ Hp) as Hpv.
  assert (Hpa : ascending (wp_diffs w)) by apply Hp. rewrite <- (up_refresh_iff ts (wp_ci w)) by assumption.
  assert (Hd : due (day_start ts) (wp_diffs w) = 0) by (rewrite <- Hc, (due_after _ _ _ (Z.le_refl _)); lia).
  split.
  - intros H. unfold withdraw in H. cbn [delegate_sub] in H. inv.
    match goal with A : refresh ts _ _ = Ok ?x |- _ => pose proof (up_refresh _ _ _ _ Hh (mining_wf_min _ Hm) Hu A); subst x end.
    match goal with A : pool_consume _ _ _ = Ok _ |- _ => apply pool_consume_ok in A as [-> ->]; [|assumption] end.
    rewrite bod_day_start, Hd, Hc, Z.sub_0_r. auto 10.
  - intros (R & H1 & H2 & -> & -> & ->). unfold withdraw. rewrite R. cbn [rbind].
    rewrite (proj2 (safe_sub_ok _ _ (p_total (wp w) - b))) by lia. cbn [rbind].
    rewrite (proj2 (safe_sub_ok _ _ (m_share (wm m) - b))) by lia. cbn [rbind].
    rewrite pool_consume_succeeds by (rewrite ?bod_day_start, ?Hd; try assumption; lia). cbn [rbind delegate_sub].
    rewrite bod_day_start, Hd, Hc, Z.sub_0_r. reflexivity.
Qed.

Lemma modify_later b t k x t' : ascending t -> Spec.after b t = t -> modify_diffs t k x = Ok t' -> Spec.after b t' = t'.
Proof.
  intros Ha Hb H. apply modify_lowered in H; [|assumption]. destruct H as (_ & _ & K & _). eapply keys_later; eassumption.
Qed.
Lemma slash_twice now ts w m n1 n2 a b dt w1 m1 w2 m2 :
  pool_wf now w -> mining_wf m -> 0 <= n1 -> 0 <= n2 -> 0 <= a -> 0 <= b ->
  slash ts w m n1 a dt = Ok (w1, m1) -> slash ts w1 m1 n2 b dt = Ok (w2, m2) ->
  slash ts w m (n1 + n2) (a + b) dt = Ok (w2, m2).
Proof.
  intros Hp Hm Hn1 Hn2 Ha Hb H1 H2.
  pose proof (slash_wf _ _ _ _ _ _ _ _ _ Hp Hm Hn1 Ha H1) as (Hp1 & Hm1). unfold slash in *.
  destruct (withdraw ts w m a None) as [[[w0 m0] d0]|] eqn:E1; [|discriminate H1]. cbn [rbind] in H1.
  pose proof (withdraw_wf now w ts m a None _ _ _ Hp Hm I Ha E1) as (Hp0 & Hm0 & Hd0).
  pose proof (withdraw_effect now _ _ _ _ None _ _ _ Hp Hm I E1) as ((m' & R & O & _ & _ & Hds) & OT & _ & Hpd & _).
  destruct OT as (_ & _ & _ & _ & _ & _ & _ & _ & _ & Eci).
  assert (d0 = None) as -> by (unfold withdraw in E1; cbn [delegate_sub] in E1; inv; reflexivity).
  destruct dt as [dt|].
  2:{ inv. match goal with A : withdraw ts w1 m1 b None = Ok (_, _, ?d) |- _ =>
        rewrite (withdraw_twice now ts w m a b None _ _ _ _ _ _ Hp Hm I I Ha Hb E1 A) end. reflexivity. }
  assert (U0 : up_to_date ts (wp_ci w0) m0).
  { rewrite Eci. split; [destruct O as (_ & -> & _); apply R|]. rewrite Hds. eapply refreshed_diffs; exact R. }
  assert (C0 : Spec.after (day_start ts) (wp_diffs w0) = wp_diffs w0) by (rewrite Hpd; apply after_all, Worth.dates_after).
  cbv zeta in *. inv.
  match goal with A : withdraw ts (WPool _ ?pd _) (WMining _ ?md) b None = Ok _, P : modify_diffs (wp_diffs w0) _ _ = Ok ?pd, M : modify_diffs (wm_diffs m0) _ _ = Ok ?md |- _ =>
    assert (KP : Spec.after (day_start ts) pd = pd) by (eapply modify_later; [apply Hp0|exact C0|exact P]);
    assert (KM : Spec.after (day_start ts) md = md) by (eapply modify_later; [apply Hm0|apply U0|exact M]);
    apply (withdraw_again now) in A as (B1 & B2 & B3 & -> & -> & ->);
      [|assumption|assumption| | |assumption] end.
  2:{ split; [apply U0|]. cbn [wm_diffs]. exact KM. }
  2:{ cbn [wp_diffs]. exact KP. }
  cbn [wp wm wm_diffs wp_diffs wp_ci] in *.
  assert (Wb : withdraw ts w0 m0 b None = Ok (WPool (set_total (wp w0) (p_total (wp w0) - b)) (wp_diffs w0) (wp_ci w0), WMining (set_share (wm m0) (m_share (wm m0) - b)) (wm_diffs m0), None)).
  { apply (withdraw_again now); auto 10. }
  rewrite (withdraw_twice now ts w m a b None _ _ _ _ _ _ Hp Hm I I Ha Hb E1 Wb). cbn [rbind wp wm wm_diffs wp_diffs wp_ci].
  rewrite (proj2 (safe_sub_ok _ _ (a - n1 + (b - n2)))) by lia. cbn [rbind].
  match goal with P : modify_diffs (wm_diffs m0) _ _ = Ok ?x, Q : modify_diffs ?x _ _ = Ok _ |- _ => rewrite (modify_twice _ _ (a - n1) (b - n2) _ _ ltac:(lia) ltac:(lia) P Q) end. cbn [rbind].
  match goal with P : modify_diffs (wp_diffs w0) _ _ = Ok ?x, Q : modify_diffs ?x _ _ = Ok _ |- _ => rewrite (modify_twice _ _ (a - n1) (b - n2) _ _ ltac:(lia) ltac:(lia) P Q) end. cbn [rbind].
  reflexivity.
Qed.

Lemma change_twice now ts w m a b nd od w1 m1 od1 nd1 w2 m2 od2 nd2 :
  pool_wf now w -> mining_wf m -> dlg_wf od -> dlg_wf nd -> dlg_up ts (wp_ci w) od -> dlg_up ts (wp_ci w) nd -> 0 <= a -> 0 <= b ->
  a + b <= p_total (wp w) ->
  change_delegate ts w m nd od a = Ok (w1, m1, od1, nd1) -> change_delegate ts w1 m1 (again nd1) (again od1) b = Ok (w2, m2, od2, nd2) ->
  change_delegate ts w m nd od (a + b) = Ok (w2, m2, od2, nd2).
Proof.
  intros Hp Hm Ho Hn Uo Un Ha Hb Ht H1 H2. pose proof (pool_wf_hist _ _ Hp) as Hh. pose proof (pw_total _ _ Hp) as Hpt. unfold is_u64 in Hpt.
  pose proof (change_wf _ _ _ _ _ _ _ _ _ _ _ Hp Hm Ho Hn Ha H1) as (Hp1 & Hm1 & _).
  pose proof (change_effect _ _ _ _ _ _ _ _ _ _ _ Hp Hm Ho Hn Ha H1) as (R & _).
  pose proof (refreshed_up _ _ _ _ R) as U1. clear R.
  unfold change_delegate in *. inv. cbn [set_wtotal wp wp_ci wp_diffs set_total p_total] in *.
  match goal with A : refresh ts _ m1 = Ok ?x |- _ => apply (up_refresh _ _ _ _ Hh (mining_wf_min _ Hm1) U1) in A; subst x end.
  match goal with A : delegate_sub _ a _ _ _ = Ok _, B : delegate_sub _ b _ _ _ = Ok _ |- _ =>
    destruct (delegate_sub_twice _ _ _ _ _ _ _ _ _ _ _ Hh Ho Uo Ha Hb A B) as (-> & -> & Hz & Hall) end.
  match goal with A : delegate_add _ a _ _ _ = Ok _, B : delegate_add _ b _ _ _ = Ok _ |- _ =>
    destruct (delegate_add_twice _ _ _ _ _ _ _ _ _ _ _ Hh Hn Un Ha Hb A B) as (-> & -> & Hz' & Hall') end.
  match goal with A : refresh ts _ m = Ok _ |- _ => rewrite A; cbn [rbind] end.
  rewrite (Hall _ _ eq_refl) by (destruct od; [right; lia|left; reflexivity]). cbn [rbind].
  erewrite Hall'.
  - cbn [rbind]. reflexivity.
  - destruct od, nd; cbn [takes_part]; lia.
  - destruct nd; [|left; reflexivity]. right. destruct od; cbn [takes_part] in *; [lia|].
    destruct Hz' as [Hz'|Hz']; [discriminate|]. lia.
Qed.

Lemma decrease_twice m a b m1 m2 :
  mining_wf m -> 0 <= a -> 0 <= b -> decrease_rewards a m = Ok m1 -> decrease_rewards b m1 = Ok m2 -> decrease_rewards (a + b) m = Ok m2.
Proof.
  intros Hm Ha Hb H1 H2. unfold decrease_rewards in *.
  assert (Hv : values (fun v => 0 <= v) (rev (wm_diffs m))).
  { intros k v Hin. apply in_rev in Hin. exact (mo_vals _ (mining_wf_min _ Hm) _ _ Hin). }
  destruct (Z.eqb_spec a 0) as [->|Na]; [injection H1 as <-; exact H2|].
  destruct (Z.ltb_spec (m_share (wm m)) a); [discriminate H1|]. inv.
  destruct (Z.eqb_spec b 0) as [->|Nb].
  - inv. rewrite Z.add_0_r, (proj2 (Z.eqb_neq a 0)) by assumption.
    rewrite (proj2 (Z.ltb_ge _ _)) by lia. rewrite (proj2 (safe_sub_ok _ _ (m_share (wm m) - a))) by lia. cbn [rbind].
    match goal with A : decrease_loop _ _ = Ok _ |- _ => rewrite A end. reflexivity.
  - cbn [wm set_share m_share wm_diffs] in H2.
    destruct (Z.ltb_spec (m_share (wm m) - a) b); [discriminate H2|]. inv.
    rewrite (proj2 (Z.eqb_neq (a + b) 0)) by lia. rewrite (proj2 (Z.ltb_ge _ _)) by lia.
    rewrite (proj2 (safe_sub_ok _ _ (m_share (wm m) - a - b))) by lia. cbn [rbind].
    match goal with P : decrease_loop a _ = Ok ?x, Q : decrease_loop b _ = Ok _ |- _ => rewrite rev_involutive in Q;
      rewrite (decrease_loop_twice _ a b _ _ ltac:(lia) ltac:(lia) Hv P Q) end.
    cbn [rbind]. reflexivity.
Qed.

Lemma fill_twice now ts a b x w w1 w2 :
  pool_wf now w -> 0 <= a -> 0 <= b -> 0 <= x ->
  fill_pool ts a x w = Ok w1 -> fill_pool ts b x w1 = Ok w2 -> fill_pool ts (a + b) x w = Ok w2.
Proof.
  intros Hp Ha Hb Hx H1 H2. pose proof (pw_avail _ _ Hp). pose proof (pw_ends _ _ Hp). unfold is_u64 in *. unfold fill_pool in *. cbv zeta in *. inv.
  cbn [wp set_avail set_ends p_avail p_ends_at wp_diffs wp_ci] in *.
  rewrite (proj2 (Z.ltb_ge (bod x) (bod ts))) by lia. cbn [negb rbind].
  rewrite (proj2 (safe_sub_ok _ _ (bod x - p_ends_at (wp w)))) by lia. cbn [rbind].
  rewrite (proj2 (safe_add64_ok _ _ (bod x))) by lia. cbn [rbind].
  rewrite (proj2 (safe_add64_ok _ _ (p_avail (wp w) + a + b))) by lia. cbn [rbind]. unfold set_avail, set_ends. cbn.
  repeat f_equal; lia.
Qed.

(** ** The parts succeed when the whole does *)
Lemma add_pool_split t k x y t2 : 0 <= x -> 0 <= y -> values (fun v => 0 <= v) t ->
  add_pool_diff t k (x + y) = Ok t2 -> exists t1 t3, add_pool_diff t k x = Ok t1 /\ add_pool_diff t1 k y = Ok t3.
Proof.
  intros Hx Hy Hv H. unfold add_pool_diff in *. cbv zeta in *. inv.
  assert (H0 : 0 <= match oget k t with Some v => v | None => 0 end).
  { destruct (oget k t) as [v|] eqn:G; [|lia]. apply oget_in in G. exact (Hv _ _ G). }
  rewrite (proj2 (safe_add64_ok _ _ (match oget k t with Some v => v | None => 0 end + x))) by lia. cbn [rbind].
  do 2 eexists. split; [reflexivity|].
  erewrite (proj2 (safe_add64_ok _ _ _)); [cbn [rbind]; reflexivity|]. split; [|reflexivity].
  rewrite oget_oinsert. destruct (ohas k t || _); lia.
Qed.
Lemma add_mining_split t k x y t2 : 0 <= x -> 0 <= y -> x + y < U64 -> values (fun v => 0 <= v) t ->
  add_mining_diff t k (x + y) = Ok t2 -> exists t1 t3, add_mining_diff t k x = Ok t1 /\ add_mining_diff t1 k y = Ok t3.
Proof.
  intros Hx Hy Hf Hv H. unfold add_mining_diff in *.
  destruct (oget k t) as [v|] eqn:G; inv.
  - pose proof (oget_in _ _ _ G) as G'. apply Hv in G'.
    rewrite (proj2 (safe_add64_ok _ _ (v + x))) by lia. cbn [rbind]. eexists. eexists. split; [reflexivity|].
    rewrite oget_oput, Z.eqb_refl. rewrite (proj2 (safe_add64_ok _ _ (v + x + y))) by lia. reflexivity.
  - eexists. 
    destruct (oget k (oinsert MINING_CAP k x t)) as [v|] eqn:G1; [|eexists; split; [reflexivity|]; rewrite G1; reflexivity].
    rewrite oget_oinsert in G1. destruct (ohas k t || _) eqn:B; [|discriminate]. injection G1 as <-.
    eexists. split; [reflexivity|]. rewrite oget_oinsert, B. rewrite (proj2 (safe_add64_ok _ _ (x + y))) by lia. reflexivity.
Qed.
Lemma modify_split t k x y t2 : 0 <= x -> 0 <= y ->
  modify_diffs t k (x + y) = Ok t2 -> exists t1, modify_diffs t k x = Ok t1 /\ modify_diffs t1 k y = Ok t2.
Proof.
  intros Hx Hy H. unfold modify_diffs in *. destruct (oget k t) as [v|] eqn:E; inv.
  rewrite (proj2 (safe_sub_ok _ _ (v - x))) by lia. cbn [rbind]. eexists. split; [reflexivity|].
  rewrite oget_oput, Z.eqb_refl. rewrite (proj2 (safe_sub_ok _ _ (v - (x + y)))) by lia. cbn [rbind]. rewrite oput_oput. reflexivity.
Qed.
Lemma delegate_add_split ts a b ci s d u d2 :
  hist_ok ci -> dlg_wf d -> dlg_up ts ci d -> 0 <= a -> 0 <= b ->
  delegate_add ts (a + b) ci s d = Ok (u, d2) ->
  u = s + takes_part d (a + b) /\ (d = None \/ s + (a + b) < U64) /\
  exists d1, (forall t, d = None \/ t + a < U64 -> delegate_add ts a ci t d = Ok (t + takes_part d a, d1)) /\
    (forall t, d = None \/ t + b < U64 -> delegate_add ts b ci t (again d1) = Ok (t + takes_part d b, d2)).
Proof.
  intros Hh Hd Hu Ha Hb H.
  destruct d as [[x|]|]; cbn [delegate_add rbind takes_part] in *; inv.
  2:{ rewrite Z.add_0_r. repeat split; [left; reflexivity|]. exists None. split; intros t _; rewrite Z.add_0_r; reflexivity. }
  cbn [dlg_wf dlg_up] in Hd, Hu. pose proof (mining_wf_min _ Hd) as Hm. pose proof (mo_sfo _ Hm) as Hsf.
  split; [reflexivity|]. split; [right; lia|].
  assert (W : forall c, 0 <= c -> m_sfo (wm x) + c < U64 -> mining_wf (WMining (set_sfo (wm x) (m_sfo (wm x) + c)) (wm_diffs x))).
  { intros c Hc Hf. apply mining_sfo_wf; [assumption|]. unfold is_u64. lia. }
  match goal with H : refresh _ _ ?v = Ok ?y |- _ => pose proof (up_refresh _ _ v _ Hh (mining_wf_min _ (W (a + b) ltac:(lia) ltac:(lia))) Hu H); subst y;
    apply up_refresh_iff in H; [|assumption|apply W; lia|exact Hu] end.
  cbn [wm set_sfo m_share m_sfo] in *.
  exists (Some (WMining (set_sfo (wm x) (m_sfo (wm x) + a)) (wm_diffs x))). split; intros t [|Ht]; try discriminate.
  - rewrite (proj2 (safe_add64_ok _ _ (m_sfo (wm x) + a))) by lia. cbn [rbind]. rewrite (proj2 (safe_add64_ok _ _ (t + a))) by lia. cbn [rbind].
    rewrite (proj2 (up_refresh_iff ts ci _ Hh (W a Ha ltac:(lia)) Hu)) by (cbn; lia). reflexivity.
  - cbn [wm set_sfo m_sfo wm_diffs delegate_add rbind]. rewrite (proj2 (safe_add64_ok _ _ (m_sfo (wm x) + (a + b)))) by lia. cbn [rbind]. rewrite (proj2 (safe_add64_ok _ _ (t + b))) by lia. cbn [rbind].
    match goal with |- context [refresh ts ci ?v] => change v with (WMining (set_sfo (wm x) (m_sfo (wm x) + (a + b))) (wm_diffs x)) end.
    rewrite (proj2 (up_refresh_iff ts ci _ Hh (W (a + b) ltac:(lia) ltac:(lia)) Hu)) by (cbn; lia). reflexivity.
Qed.
Lemma delegate_sub_split ts a b ci s d u d2 :
  hist_ok ci -> dlg_wf d -> dlg_up ts ci d -> 0 <= a -> 0 <= b ->
  delegate_sub ts (a + b) ci s d = Ok (u, d2) ->
  u = s - takes_part d (a + b) /\ (d = None \/ a + b <= s) /\
  (match d with Some (Ok x) => m_share (wm x) + m_sfo (wm x) < U64 | _ => True end ->
  exists d1, (forall t, d = None \/ a <= t -> delegate_sub ts a ci t d = Ok (t - takes_part d a, d1)) /\
    (forall t, d = None \/ b <= t -> delegate_sub ts b ci t (again d1) = Ok (t - takes_part d b, d2))).
Proof.
  intros Hh Hd Hu Ha Hb H.
  destruct d as [[x|]|]; cbn [delegate_sub rbind takes_part] in *; inv.
  2:{ rewrite Z.sub_0_r. repeat split; [left; reflexivity|]. intros _. exists None. split; intros t _; rewrite Z.sub_0_r; reflexivity. }
  cbn [dlg_wf dlg_up] in Hd, Hu. pose proof (mining_wf_min _ Hd) as Hm. pose proof (mo_sfo _ Hm) as Hsf. pose proof (mw_sfo _ Hd) as Hsu. unfold is_u64 in Hsu.
  split; [reflexivity|]. split; [right; lia|]. intros Hfit.
  assert (W : forall c, 0 <= c -> c <= m_sfo (wm x) -> mining_wf (WMining (set_sfo (wm x) (m_sfo (wm x) - c)) (wm_diffs x))).
  { intros c Hc Hf. apply mining_sfo_wf; [assumption|]. unfold is_u64. lia. }
  match goal with H : refresh _ _ ?v = Ok ?y |- _ => pose proof (up_refresh _ _ v _ Hh (mining_wf_min _ (W (a + b) ltac:(lia) ltac:(lia))) Hu H); subst y;
    apply up_refresh_iff in H; [|assumption|apply W; lia|exact Hu] end.
  cbn [wm set_sfo m_share m_sfo] in *.
  exists (Some (WMining (set_sfo (wm x) (m_sfo (wm x) - a)) (wm_diffs x))). split; intros t [|Ht]; try discriminate.
  - rewrite (proj2 (safe_sub_ok _ _ (m_sfo (wm x) - a))) by lia. cbn [rbind]. rewrite (proj2 (safe_sub_ok _ _ (t - a))) by lia. cbn [rbind].
    rewrite (proj2 (up_refresh_iff ts ci _ Hh (W a Ha ltac:(lia)) Hu)) by (cbn; lia). reflexivity.
  - cbn [wm set_sfo m_sfo wm_diffs delegate_sub rbind]. rewrite (proj2 (safe_sub_ok _ _ (m_sfo (wm x) - (a + b)))) by lia. cbn [rbind]. rewrite (proj2 (safe_sub_ok _ _ (t - b))) by lia. cbn [rbind].
    match goal with |- context [refresh ts ci ?v] => change v with (WMining (set_sfo (wm x) (m_sfo (wm x) - (a + b))) (wm_diffs x)) end.
    rewrite (proj2 (up_refresh_iff ts ci _ Hh (W (a + b) ltac:(lia) ltac:(lia)) Hu)) by (cbn; lia). reflexivity.
Qed.

(** the stakes of a delegate, if there is one, fit in 64 bits together *)
Definition dlg_fits (d : dlg) : Prop := match d with Some (Ok x) => m_share (wm x) + m_sfo (wm x) < U64 | _ => True end.

Lemma deposit_split now ts w m a b p d w2 m2 d2 :
  0 <= ts -> pool_wf now w -> mining_wf m -> dlg_wf d -> dlg_up ts (wp_ci w) d -> 0 <= a -> 0 <= b ->
  deposit ts w m (a + b) p d = Ok (w2, m2, d2) -> m_share (wm m2) + m_sfo (wm m2) < U64 ->
  exists w1 m1 d1, deposit ts w m a p d = Ok (w1, m1, d1) /\ deposit ts w1 m1 b p (again d1) = Ok (w2, m2, d2).
Proof.
  intros Hts Hp Hm Hd Hu Ha Hb H Hf. pose proof (pool_wf_hist _ _ Hp) as Hh.
  pose proof (pw_total _ _ Hp) as Ht. pose proof (pool_wf_vals _ _ Hp) as Hpv.
  cut (exists w1 m1 d1 r, deposit ts w m a p d = Ok (w1, m1, d1) /\ deposit ts w1 m1 b p (again d1) = Ok r).
  { intros (w1 & m1 & d1 & [[w2' m2'] d2'] & H1 & H2). exists w1, m1, d1. split; [exact H1|].
    pose proof (deposit_twice _ _ _ _ _ _ _ _ _ _ _ _ _ _ Hts Hp Hm Hd Hu Ha Hb H1 H2) as H3. congruence. }
  assert (Hab : 0 <= a + b) by lia. pose proof (deposit_effect _ _ _ _ _ _ _ _ _ _ Hp Hm Hd Hab H) as (Hl & _). pose proof (weight_pos p Hl) as Hw.
  unfold deposit in H. inv. rewrite <- weight_multiplier in *. change (multiplier LFlex) with 1 in *. rewrite !Z.mul_1_r in *.
  match goal with A : refresh ts _ m = Ok ?x |- _ => pose proof (refresh_wf _ _ _ _ _ Hp Hm A) as Hm0; pose proof A as R end.
  match goal with A : delegate_add _ _ _ _ _ = Ok _ |- _ => apply delegate_add_split in A as (-> & Hz & d1 & D1 & D2); [|assumption..] end.
  assert (Ew : (a + b) * multiplier p = a * multiplier p + b * multiplier p) by lia.
  assert (Wa : a <= a * multiplier p) by nia. assert (Wb : b <= b * multiplier p) by nia.
  remember (a * multiplier p) as A eqn:EA. remember (b * multiplier p) as B eqn:EB. unfold is_u64 in Ht.
  rewrite Ew in *. replace (A + B - (a + b)) with (A - a + (B - b)) in * by lia.
  match goal with G : add_pool_diff _ _ _ = Ok _ |- _ => apply add_pool_split in G as (pd1 & pd2 & P1 & P2); [|lia|lia|assumption] end.
  pose proof (mo_vals _ (mining_wf_min _ Hm0)) as Hmv. pose proof (mw_share _ Hm0) as Hms. pose proof (mw_sfo _ Hm0) as Hmf. unfold is_u64 in Hms, Hmf.
  match goal with G : add_mining_diff _ _ _ = Ok _ |- _ => apply add_mining_split in G as (md1 & md2 & M1 & M2); [|lia|lia|lia|assumption] end.
  cbn [wm set_share m_share m_sfo] in Hf.
  assert (Hta : 0 <= takes_part d a) by (destruct d; cbn [takes_part]; lia).
  match goal with G : refresh ts _ m = Ok ?x |- _ => rename x into m0 end.
  match goal with G : end_timestamp p ts = Ok ?x |- _ => rename x into date; rename G into Ed end.
  assert (H1 : deposit ts w m a p d = Ok (WPool (set_total (wp w) (p_total (wp w) + A + takes_part d a)) pd1 (wp_ci w), WMining (set_share (wm m0) (m_share (wm m0) + A)) md1, d1)).
  { unfold deposit. rewrite R. cbn [rbind]. rewrite (proj2 (safe_mul64_ok _ _ A)) by lia. cbn [rbind].
    rewrite (proj2 (safe_mul64_ok _ _ a)) by (change (multiplier LFlex) with 1; lia). cbn [rbind].
    rewrite (proj2 (safe_sub_ok _ _ (A - a))) by lia. cbn [rbind].
    rewrite (proj2 (safe_add64_ok _ _ (p_total (wp w) + A))) by lia. cbn [rbind].
    rewrite (proj2 (safe_add64_ok _ _ (m_share (wm m0) + A))) by lia. cbn [rbind].
    rewrite Ed. cbn [rbind]. rewrite P1. cbn [rbind]. rewrite M1. cbn [rbind].
    rewrite D1 by (destruct Hz; [left; assumption|right; lia]). reflexivity. }
  do 4 eexists. split; [exact H1|].
  pose proof (deposit_wf _ _ _ _ _ _ _ _ _ _ Hts Hp Hm Hd Ha H1) as (Hp1 & Hm1 & Hd1).
  pose proof (deposit_effect _ _ _ _ _ _ _ _ _ _ Hp Hm Hd Ha H1) as (_ & (m0' & R' & O & _ & S0) & _).
  assert (U1 : up_to_date ts (wp_ci w) (WMining (set_share (wm m0) (m_share (wm m0) + A)) md1)).
  { split; [destruct O as (_ & -> & _); apply R'|]. apply after_all.
    eapply Worth.scheduled_dates; [exact S0| |apply expiry_later; exact Hl].
    rewrite (rf_diffs _ _ _ _ R'). apply Worth.dates_after. }
  unfold deposit. cbn [wp wp_ci wp_diffs set_total p_total].
  rewrite (proj2 (up_refresh_iff _ _ _ Hh Hm1 U1)) by (cbn; lia). cbn [rbind].
  rewrite (proj2 (safe_mul64_ok _ _ B)) by lia. cbn [rbind].
  rewrite (proj2 (safe_mul64_ok _ _ b)) by (change (multiplier LFlex) with 1; lia). cbn [rbind].
  rewrite (proj2 (safe_sub_ok _ _ (B - b))) by lia. cbn [rbind].
  assert (p_total (wp w) + A + takes_part d a + B < U64) by (destruct d; cbn [takes_part]; [destruct Hz; [discriminate|lia]|lia]).
  rewrite (proj2 (safe_add64_ok _ _ (p_total (wp w) + A + takes_part d a + B))) by lia. cbn [rbind wm set_share m_share wm_diffs].
  rewrite (proj2 (safe_add64_ok _ _ (m_share (wm m0) + A + B))) by lia. cbn [rbind].
  rewrite Ed. cbn [rbind]. rewrite P2. cbn [rbind]. rewrite M2. cbn [rbind].
  rewrite D2; [cbn [rbind]; reflexivity|]. destruct d; [right; destruct Hz; [discriminate|]; cbn [takes_part]; lia|left; reflexivity].
Qed.

Lemma withdraw_split now ts w m a b d w2 m2 d2 :
  pool_wf now w -> mining_wf m -> dlg_wf d -> dlg_up ts (wp_ci w) d -> dlg_fits d -> 0 <= a -> 0 <= b ->
  withdraw ts w m (a + b) d = Ok (w2, m2, d2) -> m_share (wm m) + m_sfo (wm m) < U64 ->
  exists w1 m1 d1, withdraw ts w m a d = Ok (w1, m1, d1) /\ withdraw ts w1 m1 b (again d1) = Ok (w2, m2, d2).
Proof.
  intros Hp Hm Hd Hu Hdf Ha Hb H Hf. pose proof (pool_wf_hist _ _ Hp) as Hh.
  pose proof (pw_total _ _ Hp) as Ht. pose proof (pool_wf_vals _ _ Hp) as Hpv. assert (Hpa : ascending (wp_diffs w)) by apply Hp.
  cut (exists w1 m1 d1 r, withdraw ts w m a d = Ok (w1, m1, d1) /\ withdraw ts w1 m1 b (again d1) = Ok r).
  { intros (w1 & m1 & d1 & [[w2' m2'] d2'] & H1 & H2). exists w1, m1, d1. split; [exact H1|].
    pose proof (withdraw_twice _ _ _ _ _ _ _ _ _ _ _ _ _ Hp Hm Hd Hu Ha Hb H1 H2) as H3. congruence. }
  unfold withdraw in H. inv.
  match goal with A : refresh ts _ m = Ok ?x |- _ => pose proof (refresh_wf _ _ _ _ _ Hp Hm A) as Hm0; pose proof A as R; rename x into m0;
    pose proof (refresh_refreshed _ _ _ _ Hh (mining_wf_min _ Hm) A) as RR end.
  match goal with A : delegate_sub _ _ _ _ _ = Ok _ |- _ => apply delegate_sub_split in A as (-> & Hz & D); [|assumption..] end.
  destruct (D Hdf) as (d1 & D1 & D2). clear D.
  match goal with A : pool_consume _ _ _ = Ok _ |- _ => pose proof A as PC; apply pool_consume_ok in A as [-> ->]; [|assumption] end.
  rewrite bod_day_start in *. pose proof (due_bounds (day_start ts) _ Hpv) as Hdb.
  assert (Hdue : due (day_start ts) (wp_diffs w) <= p_total (wp w) - (a + b)).
  { assert (S : succeeds (rbind (pool_consume (day_start ts) (p_total (wp w) - (a + b)) (wp_diffs w)) (fun x => Ok x))) by (rewrite PC; eexists; reflexivity).
    apply (consume_bind _ _ _ _ True) in S; [tauto|assumption..|lia|]. intros. split; [auto|eexists; reflexivity]. }
  assert (Hta : 0 <= takes_part d a) by (destruct d; cbn [takes_part]; lia).
  set (q := due (day_start ts) (wp_diffs w)) in *.
  assert (H1 : withdraw ts w m a d = Ok (WPool (set_total (wp w) (p_total (wp w) - a - q - takes_part d a)) (Spec.after (day_start ts) (wp_diffs w)) (wp_ci w), WMining (set_share (wm m0) (m_share (wm m0) - a)) (wm_diffs m0), d1)).
  { unfold withdraw. rewrite R. cbn [rbind]. rewrite (proj2 (safe_sub_ok _ _ (p_total (wp w) - a))) by lia. cbn [rbind].
    rewrite (proj2 (safe_sub_ok _ _ (m_share (wm m0) - a))) by lia. cbn [rbind].
    rewrite bod_day_start, pool_consume_succeeds by (try assumption; fold q; lia). cbn [rbind]. fold q.
    rewrite D1 by (destruct Hz; [left; assumption|right; lia]). reflexivity. }
  do 4 eexists. split; [exact H1|].
  pose proof (withdraw_wf _ _ _ _ _ _ _ _ _ Hp Hm Hd Ha H1) as (Hp1 & Hm1 & Hd1).
  assert (U1 : up_to_date ts (wp_ci w) (WMining (set_share (wm m0) (m_share (wm m0) - a)) (wm_diffs m0))).
  { split; [apply RR|]. cbn [wm_diffs]. eapply refreshed_diffs. exact RR. }
  assert (Hs : m_share (wm m0) + m_sfo (wm m0) < U64).
  { rewrite (rf_share _ _ _ _ RR), (rf_sfo _ _ _ _ RR). pose proof (due_bounds (day_start ts) _ (mo_vals _ (mining_wf_min _ Hm))). lia. }
  assert (Hle : p_total (wp w) - a - q - takes_part d a >= b) by (destruct d; cbn [takes_part]; [destruct Hz; [discriminate|lia]|lia]).
  unfold withdraw. cbn [wp wp_ci wp_diffs set_total p_total].
  rewrite (proj2 (up_refresh_iff _ _ _ Hh Hm1 U1)) by (cbn; lia). cbn [rbind wm set_share m_share wm_diffs].
  rewrite (proj2 (safe_sub_ok _ _ (p_total (wp w) - a - q - takes_part d a - b))) by lia. cbn [rbind].
  rewrite (proj2 (safe_sub_ok _ _ (m_share (wm m0) - a - b))) by lia. cbn [rbind].
  rewrite bod_day_start, pool_consume_succeeds; [cbn [rbind]|apply ascending_after; assumption|intros k v Hin; apply filter_In in Hin as [Hin _]; exact (Hpv _ _ Hin)|rewrite (due_after _ _ _ (Z.le_refl _)); lia].
  rewrite (due_after _ _ _ (Z.le_refl _)).
  rewrite D2; [cbn [rbind]; reflexivity|]. destruct d; [right; destruct Hz; [discriminate|]; cbn [takes_part]; lia|left; reflexivity].
Qed.

Lemma slash_split now ts w m n1 n2 a b dt w2 m2 :
  pool_wf now w -> mining_wf m -> 0 <= n1 -> 0 <= n2 -> 0 <= a -> 0 <= b -> (dt <> None -> n1 <= a /\ n2 <= b) ->
  slash ts w m (n1 + n2) (a + b) dt = Ok (w2, m2) -> m_share (wm m) + m_sfo (wm m) < U64 ->
  exists w1 m1, slash ts w m n1 a dt = Ok (w1, m1) /\ slash ts w1 m1 n2 b dt = Ok (w2, m2).
Proof.
  intros Hp Hm Hn1 Hn2 Ha Hb Hn H Hf.
  cut (exists w1 m1 r, slash ts w m n1 a dt = Ok (w1, m1) /\ slash ts w1 m1 n2 b dt = Ok r).
  { intros (w1 & m1 & [w2' m2'] & H1 & H2). exists w1, m1. split; [exact H1|].
    pose proof (slash_twice _ _ _ _ _ _ _ _ _ _ _ _ _ Hp Hm Hn1 Hn2 Ha Hb H1 H2) as H3. congruence. }
  unfold slash in H. destruct (withdraw ts w m (a + b) None) as [[[w' m'] d']|] eqn:E; [|discriminate H]. cbn [rbind] in H.
  destruct (withdraw_split now ts w m a b None _ _ _ Hp Hm I I I Ha Hb E Hf) as (w0 & m0 & d0 & E1 & E2).
  pose proof (withdraw_wf now w ts m a None _ _ _ Hp Hm I Ha E1) as (Hp0 & Hm0 & Hd0).
  pose proof (withdraw_effect now _ _ _ _ None _ _ _ Hp Hm I E1) as ((m3 & R & O & _ & _ & Hds) & OT & _ & Hpd & _).
  destruct OT as (_ & _ & _ & _ & _ & _ & _ & _ & _ & Eci).
  assert (d0 = None) as -> by (unfold withdraw in E1; cbn [delegate_sub] in E1; inv; reflexivity).
  destruct dt as [dt|].
  2:{ unfold slash. exists w0, m0. rewrite E1. cbn [rbind]. rewrite E2. cbn [rbind]. eauto. }
  destruct (Hn ltac:(discriminate)) as [Hna Hnb]. cbv zeta in H.
  assert (U0 : up_to_date ts (wp_ci w0) m0).
  { rewrite Eci. split; [destruct O as (_ & -> & _); apply R|]. rewrite Hds. eapply refreshed_diffs; exact R. }
  assert (C0 : Spec.after (day_start ts) (wp_diffs w0) = wp_diffs w0) by (rewrite Hpd; apply after_all, Worth.dates_after).
  apply (withdraw_again now) in E2 as (B1 & B2 & B3 & -> & -> & ->); [|assumption..].
  cbn [wp wm wm_diffs wp_diffs wp_ci] in H. inv. replace (a + b - (n1 + n2)) with (a - n1 + (b - n2)) in * by lia.
  match goal with A : modify_diffs (wm_diffs m0) _ _ = Ok _ |- _ => apply modify_split in A as (md & M1 & M2); [|lia|lia] end.
  match goal with A : modify_diffs (wp_diffs w0) _ _ = Ok _ |- _ => apply modify_split in A as (pd & P1 & P2); [|lia|lia] end.
  assert (H1 : slash ts w m n1 a (Some dt) = Ok (WPool (wp w0) pd (wp_ci w0), WMining (wm m0) md)).
  { unfold slash. rewrite E1. cbn [rbind]. rewrite (proj2 (safe_sub_ok _ _ (a - n1))) by lia. cbn [rbind]. cbv zeta. rewrite M1. cbn [rbind]. rewrite P1. reflexivity. }
  do 3 eexists. split; [exact H1|].
  pose proof (slash_wf _ _ _ _ _ _ _ _ _ Hp Hm Hn1 Ha H1) as (Hp1 & Hm1).
  assert (KP : Spec.after (day_start ts) pd = pd) by (eapply modify_later; [apply Hp0|exact C0|exact P1]).
  assert (KM : Spec.after (day_start ts) md = md) by (eapply modify_later; [apply Hm0|apply U0|exact M1]).
  unfold slash. cbv zeta.
  rewrite (proj2 (withdraw_again now ts _ _ b _ _ _ Hp1 Hm1 (conj (proj1 U0) KM) KP Hb)) by (cbn; eauto 10).
  cbn [rbind wp wm wm_diffs wp_diffs wp_ci].
  rewrite (proj2 (safe_sub_ok _ _ (b - n2))) by lia. cbn [rbind]. rewrite M2. cbn [rbind]. rewrite P2. reflexivity.
Qed.

Lemma change_split now ts w m a b nd od w2 m2 od2 nd2 :
  pool_wf now w -> mining_wf m -> dlg_wf od -> dlg_wf nd -> dlg_up ts (wp_ci w) od -> dlg_up ts (wp_ci w) nd -> dlg_fits od -> 0 <= a -> 0 <= b ->
  m_share (wm m) + m_sfo (wm m) < U64 ->
  change_delegate ts w m nd od (a + b) = Ok (w2, m2, od2, nd2) ->
  exists w1 m1 od1 nd1, change_delegate ts w m nd od a = Ok (w1, m1, od1, nd1) /\ 
    change_delegate ts w1 m1 (again nd1) (again od1) b = Ok (w2, m2, od2, nd2).
Proof.
  intros Hp Hm Ho Hn Uo Un Fo Ha Hb Hf H. pose proof (pool_wf_hist _ _ Hp) as Hh.
  pose proof (pw_total _ _ Hp) as Ht. unfold is_u64 in Ht.
  assert (Hab : 0 <= a + b) by lia.
  pose proof (change_wf _ _ _ _ _ _ _ _ _ _ _ Hp Hm Ho Hn Hab H) as (_ & Hm1 & _).
  unfold change_delegate in H. inv.
  match goal with A : refresh ts _ m = Ok _ |- _ => pose proof A as R; pose proof (refresh_refreshed _ _ _ _ Hh (mining_wf_min _ Hm) A) as RR end.
  match goal with A : delegate_sub _ _ _ _ _ = Ok _ |- _ => apply delegate_sub_split in A as (-> & Hz & D); [|assumption..] end.
  destruct (D Fo) as (od1 & D1 & D2). clear D.
  match goal with A : delegate_add _ _ _ _ _ = Ok _ |- _ => apply delegate_add_split in A as (-> & Hz' & nd1 & N1 & N2); [|assumption..] end.
  assert (Hs : m_share (wm m2) + m_sfo (wm m2) < U64).
  { rewrite (rf_share _ _ _ _ RR), (rf_sfo _ _ _ _ RR). pose proof (due_bounds (day_start ts) _ (mo_vals _ (mining_wf_min _ Hm))). lia. }
  exists (set_wtotal w (p_total (wp w) - takes_part od a + takes_part nd a)), m2, od1, nd1. split.
  - unfold change_delegate. rewrite R. cbn [rbind]. rewrite D1 by (destruct Hz; [left; assumption|right; lia]). cbn [rbind].
    rewrite N1; [reflexivity|]. destruct nd; [|left; reflexivity]. right. destruct Hz' as [|Hz']; [discriminate|].
    destruct od; cbn [takes_part] in *; [destruct Hz; [discriminate|]; lia|lia].
  - unfold change_delegate. cbn [set_wtotal wp wp_ci set_total p_total wp_diffs].
    rewrite (proj2 (up_refresh_iff _ _ _ Hh Hm1 (refreshed_up _ _ _ _ RR)) Hs). cbn [rbind].
    rewrite D2.
    2:{ destruct od; [|left; reflexivity]. right. destruct Hz as [|Hz]; [discriminate|]. destruct nd; cbn [takes_part] in *; lia. }
    cbn [rbind]. rewrite N2.
    + cbn [rbind]. unfold set_wtotal. cbn [wp wp_diffs wp_ci]. do 5 f_equal. unfold set_total. cbn. f_equal.
      destruct od, nd; cbn [takes_part]; lia.
    + destruct nd; [|left; reflexivity]. right. destruct Hz' as [|Hz']; [discriminate|].
      destruct od; cbn [takes_part] in *; [destruct Hz; [discriminate|]; lia|lia].
Qed.

Lemma decrease_split m a b m2 :
  mining_wf m -> 0 <= a -> 0 <= b -> decrease_rewards (a + b) m = Ok m2 ->
  exists m1, decrease_rewards a m = Ok m1 /\ decrease_rewards b m1 = Ok m2.
Proof.
  intros Hm Ha Hb H.
  assert (Hab : 0 <= a + b) by lia.
  assert (S : a + b <= m_share (wm m)) by (apply (decrease_iff _ _ Hm Hab); eexists; exact H).
  destruct (proj2 (decrease_iff a m Hm Ha) ltac:(lia)) as (m1 & E1). exists m1. split; [exact E1|].
  pose proof (decrease_wf _ _ _ Ha Hm E1) as Hm1.
  assert (Es : m_share (wm m1) = m_share (wm m) - a).
  { unfold decrease_rewards in E1. destruct (Z.eqb_spec a 0); [injection E1 as <-; lia|].
    destruct (_ <? _); [discriminate|]. inv. reflexivity. }
  destruct (proj2 (decrease_iff b m1 Hm1 Hb) ltac:(lia)) as (m2' & E2).
  pose proof (decrease_twice _ _ _ _ _ Hm Ha Hb E1 E2). congruence.
Qed.

Lemma fill_split now ts a b x w w2 :
  pool_wf now w -> is_u64 x -> 0 <= a -> 0 <= b ->
  fill_pool ts (a + b) x w = Ok w2 -> exists w1, fill_pool ts a x w = Ok w1 /\ fill_pool ts b x w1 = Ok w2.
Proof.
  intros Hp Hx Ha Hb H. assert (Hx0 : 0 <= x) by apply Hx.
  assert (S : day_start ts <= day_start x /\ p_ends_at (wp w) <= day_start x /\ p_avail (wp w) + (a + b) < U64) by
    (apply (fill_iff now ts (a + b) x w Hp Hx); eexists; exact H).
  destruct S as (S1 & S2 & S3). unfold U64 in S3.
  destruct (proj2 (fill_iff now ts a x w Hp Hx)) as (w1 & E1); [split; [assumption|split; [assumption|lia]]|]. exists w1. split; [exact E1|].
  pose proof (fill_wf _ _ _ _ _ _ Ha Hx0 Hp E1) as Hp1.
  assert (Es : p_avail (wp w1) = p_avail (wp w) + a /\ p_ends_at (wp w1) = day_start x).
  { unfold fill_pool in E1. cbv zeta in E1. inv. cbn. rewrite bod_day_start. split; [reflexivity|lia]. }
  destruct (proj2 (fill_iff now ts b x w1 Hp1 Hx)) as (w2' & E2); [destruct Es as [-> ->]; split; [assumption|split; lia]|].
  pose proof (fill_twice _ _ _ _ _ _ _ _ Hp Ha Hb Hx0 E1 E2). congruence.
Qed.
