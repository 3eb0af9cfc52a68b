(** What each method of State.v does, in terms of EffectSpec.v. *)
From Verif Require Import Base OMap State Spec EffectSpec ResLemmas TreeLemmas AccrualLemmas RefreshLemmas
  FrameLemmas WfLemmas CoreSteps CoreLive EffectLemmas.

(** ** Schedule updates *)
Lemma keys_oput k v t v0 : ascending t -> oget k t = Some v0 -> map fst (oput k v t) = map fst t.
Proof.
  induction t as [|[a b] r IH]; cbn [oget oput]; intros Ha H; [discriminate|].
  destruct (Z.eqb_spec a k).
  - subst. rewrite Z.ltb_irrefl. reflexivity.
  - assert (k <? a = false) as ->.
    { apply Z.ltb_ge. apply oget_in in H. apply Ha in H. lia. }
    cbn [map fst]. f_equal. apply IH; [apply Ha|assumption].
Qed.

Lemma at_date_oput k v t d : at_date d (oput k v t) = if d =? k then v else at_date d t.
Proof. rewrite !at_date_oget, oget_oput. destruct (d =? k); reflexivity. Qed.

Lemma has_date_oput k v t d : ascending t -> has_date d (oput k v t) <-> has_date d t \/ d = k.
Proof.
  intros Ha. rewrite !has_date_oget by (try apply ascending_oput; assumption). rewrite oget_oput.
  destruct (Z.eqb_spec d k); split; intros H; auto; try discriminate. destruct H; [assumption|contradiction].
Qed.

Lemma scheduled_put cap k x t v0 :
  ascending t -> (has_date k t \/ Z.of_nat (length t) < cap) -> at_date k t = v0 ->
  scheduled cap k x t (oput k (v0 + x) t).
Proof.
  intros Ha Hr Hv. split; [intros _|intros A B; destruct Hr; [contradiction|lia]].
  split; intros d.
  - rewrite at_date_oput. destruct (Z.eqb_spec d k); [subst; reflexivity|lia].
  - apply has_date_oput. assumption.
Qed.

Lemma scheduled_none cap k x t :
  ~ has_date k t -> cap <= Z.of_nat (length t) -> scheduled cap k x t t.
Proof. intros A B. split; [intros [C|C]; [contradiction|lia]|auto]. Qed.

Lemma scheduled_insert cap k x t v0 :
  ascending t -> at_date k t = v0 -> scheduled cap k x t (oinsert cap k (v0 + x) t).
Proof.
  intros Ha Hv. unfold oinsert. destruct (ohas k t) eqn:E.
  - apply scheduled_put; [assumption| |assumption]. left. apply has_date_oget; [assumption|].
    apply ohas_true in E as (v & ->). discriminate.
  - destruct (Z.ltb_spec (Z.of_nat (length t)) cap).
    + apply scheduled_put; auto.
    + apply scheduled_none; [|assumption]. rewrite has_date_oget by assumption. apply ohas_false in E. congruence.
Qed.

Lemma add_pool_scheduled t k x t' : ascending t -> add_pool_diff t k x = Ok t' -> scheduled 365 k x t t'.
Proof.
  intros Ha H. unfold add_pool_diff in H. cbv zeta in H. inv.
  apply scheduled_insert; [assumption|]. apply at_date_oget.
Qed.

Lemma add_mining_scheduled t k x t' : ascending t -> add_mining_diff t k x = Ok t' -> scheduled 50 k x t t'.
Proof.
  intros Ha H. unfold add_mining_diff in H. destruct (oget k t) as [v|] eqn:E; inv.
  - apply scheduled_put; [assumption| |rewrite at_date_oget, E; reflexivity].
    left. apply has_date_oget; [assumption|congruence].
  - apply (scheduled_insert 50 k x t 0 Ha). rewrite at_date_oget, E. reflexivity.
Qed.

Lemma modify_lowered t k x t' : ascending t -> modify_diffs t k x = Ok t' -> lowered k x t t'.
Proof.
  intros Ha H. unfold modify_diffs in H. destruct (oget k t) as [v|] eqn:E; [|discriminate]. inv.
  assert (Hv : at_date k t = v) by (rewrite at_date_oget, E; reflexivity).
  split; [apply has_date_oget; [assumption|congruence]|]. split; [lia|].
  split; [eapply keys_oput; eassumption|].
  intros d. rewrite at_date_oput. destruct (Z.eqb_spec d k); [subst; reflexivity|lia].
Qed.

(** ** Delegates *)
(** the delegate's mining, if one takes part, is refreshed with [delta] more delegated-in
    stake *)
Definition delegate_moved (ts : Z) (ci : tmap) (delta : Z) (d : dlg) (d' : option wmining) : Prop :=
  match d, d' with
  | None, None => True
  | Some (Ok x), Some x' =>
      0 <= m_sfo (wm x) + delta /\ refreshed ts ci (with_delegated x (m_sfo (wm x) + delta)) x'
  | _, _ => False
  end.
Definition takes_part (d : dlg) (a : Z) : Z := match d with None => 0 | Some _ => a end.

Lemma min_ok_delegated m x : min_ok m -> 0 <= x -> min_ok (with_delegated m x).
Proof. intros []. constructor; cbn; auto. Qed.

Lemma delegate_add_effect ts a ci t d t' d' :
  hist_ok ci -> dlg_wf d -> 0 <= a -> delegate_add ts a ci t d = Ok (t', d') ->
  t' = t + takes_part d a /\ delegate_moved ts ci a d d'.
Proof.
  intros Hh Hd Ha H. destruct d as [[x|]|]; cbn [delegate_add rbind] in H; inv; cbn [takes_part delegate_moved]; [|split; [lia|exact I]].
  cbn in Hd. pose proof (mining_wf_min _ Hd) as Hm. pose proof (mo_sfo _ Hm).
  split; [reflexivity|]. split; [lia|]. apply refresh_refreshed; [assumption| |eassumption].
  apply min_ok_delegated; [assumption|lia].
Qed.

Lemma delegate_sub_effect ts a ci t d t' d' :
  hist_ok ci -> dlg_wf d -> delegate_sub ts a ci t d = Ok (t', d') ->
  t' = t - takes_part d a /\ delegate_moved ts ci (- a) d d'.
Proof.
  intros Hh Hd H. destruct d as [[x|]|]; cbn [delegate_sub rbind] in H; inv; cbn [takes_part delegate_moved]; [|split; [lia|exact I]].
  cbn in Hd. pose proof (mining_wf_min _ Hd) as Hm.
  split; [reflexivity|]. change (m_sfo (wm x) + - a) with (m_sfo (wm x) - a). split; [lia|].
  apply refresh_refreshed; [assumption| |eassumption]. apply min_ok_delegated; [assumption|lia].
Qed.

(** ** Deposit *)
Lemma deposit_effect now ts w m a p d w' m' d' :
  pool_wf now w -> mining_wf m -> dlg_wf d -> 0 <= a ->
  deposit ts w m a p d = Ok (w', m', d') ->
  p <> LNone /\
  (exists m1, refreshed ts (wp_ci w) m m1 /\ only_stake m1 m' /\
     m_share (wm m') = m_share (wm m1) + a * weight_of p /\
     scheduled 50 (expiry p ts) (a * (weight_of p - 1)) (wm_diffs m1) (wm_diffs m')) /\
  only_total w w' /\
  p_total (wp w') = p_total (wp w) + a * weight_of p + takes_part d a /\
  scheduled 365 (expiry p ts) (a * (weight_of p - 1)) (wp_diffs w) (wp_diffs w') /\
  delegate_moved ts (wp_ci w) a d d'.
Proof.
  intros Hp Hm Hd Ha H. pose proof (pool_wf_hist _ _ Hp) as Hh. unfold deposit in H. inv.
  apply end_timestamp_ok in E5 as (-> & Hl & _).
  pose proof (refresh_refreshed _ _ _ _ Hh (mining_wf_min _ Hm) E) as R.
  apply delegate_add_effect in E8 as [Et Ed]; [|assumption|assumption|assumption].
  rewrite weight_multiplier in *. change (multiplier LFlex) with 1 in *.
  replace (a * weight_of p - a * 1) with (a * (weight_of p - 1)) in * by lia.
  split; [assumption|]. split.
  - eexists. split; [exact R|]. cbn [wm wm_diffs set_share m_share]. split; [repeat split|]. split; [reflexivity|].
    apply add_mining_scheduled; [|assumption]. rewrite (rf_diffs _ _ _ _ R). apply ascending_after. apply Hm.
  - split; [repeat split|]. split; [exact Et|]. split; [|exact Ed].
    apply add_pool_scheduled; [apply Hp|assumption].
Qed.

(** ** Withdraw *)
Lemma withdraw_effect now ts w m a d w' m' d' :
  pool_wf now w -> mining_wf m -> dlg_wf d ->
  withdraw ts w m a d = Ok (w', m', d') ->
  (exists m1, refreshed ts (wp_ci w) m m1 /\ only_stake m1 m' /\
     a <= m_share (wm m1) /\ m_share (wm m') = m_share (wm m1) - a /\ wm_diffs m' = wm_diffs m1) /\
  only_total w w' /\
  p_total (wp w') = p_total (wp w) - a - due (day_start ts) (wp_diffs w) - takes_part d a /\
  wp_diffs w' = after (day_start ts) (wp_diffs w) /\
  delegate_moved ts (wp_ci w) (- a) d d'.
Proof.
  intros Hp Hm Hd H. pose proof (pool_wf_hist _ _ Hp) as Hh. unfold withdraw in H. inv.
  pose proof (refresh_refreshed _ _ _ _ Hh (mining_wf_min _ Hm) E) as R.
  apply delegate_sub_effect in E3 as [Et Ed]; [|assumption|assumption].
  apply pool_consume_ok in E2 as [-> ->]; [|apply Hp]. rewrite bod_day_start in *.
  split.
  - eexists. split; [exact R|]. cbn [wm wm_diffs set_share m_share]. split; [repeat split|]. auto.
  - split; [repeat split|]. split; [exact Et|]. split; [reflexivity|exact Ed].
Qed.

(** ** Slash *)
Lemma slash_effect now ts w m n wt dt w' m' :
  pool_wf now w -> mining_wf m -> 0 <= n -> 0 <= wt ->
  slash ts w m n wt dt = Ok (w', m') ->
  exists m1, refreshed ts (wp_ci w) m m1 /\ only_stake m1 m' /\ only_total w w' /\
    wt <= m_share (wm m1) /\ m_share (wm m') = m_share (wm m1) - wt /\
    p_total (wp w') = p_total (wp w) - wt - due (day_start ts) (wp_diffs w) /\
    match dt with
    | None => wm_diffs m' = wm_diffs m1 /\ wp_diffs w' = after (day_start ts) (wp_diffs w)
    | Some x => n <= wt /\
        lowered (day_start x) (wt - n) (wm_diffs m1) (wm_diffs m') /\
        lowered (day_start x) (wt - n) (after (day_start ts) (wp_diffs w)) (wp_diffs w') /\
        unlocked_stake m' = unlocked_stake m1 - n
    end.
Proof.
  intros Hp Hm Hn Hw H. unfold slash in H.
  destruct (withdraw ts w m wt None) as [[[w1 m1] d1]|] eqn:E; cbn [rbind] in H; [|discriminate].
  pose proof (withdraw_wf now w ts m wt None _ _ _ Hp Hm I Hw E) as (Hp1 & Hm1 & _).
  apply (withdraw_effect now) in E as ((m0 & R & O & Hle & Hs & Hd) & T & Ht & Hpd & _); [|assumption|assumption|exact I].
  cbn [takes_part] in Ht. exists m0.
  destruct dt as [x|]; cbv zeta in H; inv.
  - split; [exact R|]. split; [exact O|]. split; [exact T|]. split; [assumption|]. split; [exact Hs|].
    cbn [wp wm wm_diffs wp_diffs]. split; [lia|]. split; [assumption|].
    pose proof E0 as E0'. apply modify_diffs_ok in E0' as (_ & _ & Htot & _); [|apply Hm1|].
    2:{ intros k v Hin. apply (mw_vals _ Hm1) in Hin. unfold is_u64 in Hin. lia. }
    apply modify_lowered in E0; [|apply Hm1]. apply modify_lowered in E1; [|apply Hp1].
    rewrite Hd, Hpd, bod_day_start in *. split; [assumption|]. split; [assumption|].
    unfold unlocked_stake. cbn [wm wm_diffs]. lia.
  - split; [exact R|]. split; [exact O|]. split; [exact T|]. split; [assumption|]. split; [exact Hs|].
    split; [lia|]. auto.
Qed.

(** ** Extend *)
Lemma unexpired_alt p start ts : unexpired p start ts = negb (lockup_eqb p LFlex) && (ts <? expiry p start).
Proof. destruct p; reflexivity. Qed.

(** the delegate of an extension: refreshed with [base] less delegated-in stake, then
    given [amount] *)
Definition delegate_extended (ts : Z) (ci : tmap) (base amount : Z) (d : dlg) (d' : option wmining) : Prop :=
  match d, d' with
  | None, None => True
  | Some (Ok x), Some x' => base <= m_sfo (wm x) /\
      exists y, refreshed ts ci (with_delegated x (m_sfo (wm x) - base)) y /\
                x' = with_delegated y (m_sfo (wm x) - base + amount)
  | _, _ => False
  end.

Lemma refreshed_same ts ci m m' :
  m_index (wm m) = visible ts ci -> after (day_start ts) (wm_diffs m) = wm_diffs m ->
  refreshed ts ci m m' -> m' = m.
Proof.
  intros Hi Hd [(R1 & R2 & R3 & R4 & R5) R6 R7 R8 R9 _ _ R10 _].
  assert (Hu : dates (fun k => day_start ts < k) (wm_diffs m)).
  { rewrite <- Hd. intros k v Hin. apply in_after in Hin. tauto. }
  rewrite due_nil_below, Z.sub_0_r in R8 by assumption.
  rewrite upto_none in R10 by assumption. cbn [earned] in R10.
  rewrite Hi, Z.sub_diag, Z.mul_0_l, Z.div_0_l, Z.add_0_r in R10 by discriminate.
  rewrite Hd in R7. rewrite <- Hi in R9.
  destruct m as [[] ds], m' as [[] ds']. cbn in *. congruence.
Qed.

Lemma refreshed_diffs ts ci m m' : refreshed ts ci m m' -> after (day_start ts) (wm_diffs m') = wm_diffs m'.
Proof. intros R. rewrite (rf_diffs _ _ _ _ R). apply after_after. lia. Qed.

Lemma keys_later d t t' : map fst t' = map fst t -> after d t = t -> after d t' = t'.
Proof.
  intros E H. apply after_all. assert (dates (fun k => d < k) t) as Hd.
  { rewrite <- H. intros k v Hin. apply in_after in Hin. tauto. }
  intros k v Hin. apply (in_map fst) in Hin. rewrite E in Hin. apply in_map_iff in Hin as ([k2 v2] & E2 & Hin).
  cbn in E2. subst. eapply Hd. eassumption.
Qed.

Lemma extend_effect now ts w m op np st b a d w' m' d' :
  0 <= ts -> pool_wf now w -> mining_wf m -> dlg_wf d -> 0 <= b -> 0 <= a ->
  extend ts w m op np st b a d = Ok (w', m', d') ->
  op <> LNone /\ np <> LNone /\
  let early := unexpired op st ts in
  let removed := if early then b * weight_of op else b in
  (exists m1 t, refreshed ts (wp_ci w) m m1 /\ only_stake m1 m' /\
     removed <= m_share (wm m1) /\
     m_share (wm m') = m_share (wm m1) - removed + (b + a) * weight_of np /\
     (if early then lowered (expiry op st) (b * (weight_of op - 1)) (wm_diffs m1) t
      else t = wm_diffs m1) /\
     scheduled 50 (expiry np ts) ((b + a) * (weight_of np - 1)) t (wm_diffs m')) /\
  only_total w w' /\
  p_total (wp w') = p_total (wp w) - removed + (b + a) * weight_of np + takes_part d a /\
  scheduled 365 (expiry np ts) ((b + a) * (weight_of np - 1)) (wp_diffs w) (wp_diffs w') /\
  delegate_extended ts (wp_ci w) b (b + a) d d'.
Proof.
  intros Hts Hp Hm Hd Hb Ha H. pose proof (pool_wf_hist _ _ Hp) as Hh. unfold extend in H.
  destruct (refresh ts (wp_ci w) m) as [m1|] eqn:E1; cbn [rbind] in H; [|discriminate].
  pose proof (refresh_wf _ _ _ _ _ Hp Hm E1) as Hm1.
  apply refresh_refreshed in E1 as R; [|assumption|apply mining_wf_min; assumption].
  destruct (if lockup_eqb op LFlex then _ else _) as [oe|] eqn:Eoe; cbn [rbind] in H; [|discriminate].
  assert (Hop : op <> LNone) by (destruct op; discriminate).
  assert (Hearly : (ts <? oe) = unexpired op st ts /\ (ts < oe -> oe = expiry op st)).
  { rewrite unexpired_alt. destruct (lockup_eqb op LFlex) eqn:El; inv; cbn [negb andb].
    - split; [apply Z.ltb_ge; lia|lia].
    - apply end_timestamp_ok in Eoe as (-> & _). auto. }
  destruct Hearly as [Hearly Hoe].
  destruct (safe_mul64 b _) as [fl|] eqn:Ef; cbn [rbind] in H; [|discriminate].
  change (multiplier LFlex) with 1 in Ef. apply safe_mul64_ok in Ef as [Hb64 ->].
  match type of H with rbind ?x _ = _ => destruct x as [[m2 t]|] eqn:E2 end; cbn [rbind] in H; [|discriminate].
  destruct (safe_add64 b a) as [am|] eqn:Eam; cbn [rbind] in H; [|discriminate].
  apply safe_add64_ok in Eam as [_ ->].
  destruct (delegate_sub _ _ _ _ _) as [[t' d1]|] eqn:E3; cbn [rbind] in H; [|discriminate].
  split; [assumption|]. cbv zeta.
  assert (H2 : let removed := if unexpired op st ts then b * weight_of op else b in
     mining_wf m2 /\ only_stake m1 m2 /\ is_u64 t /\
     removed <= m_share (wm m1) /\ m_share (wm m2) = m_share (wm m1) - removed /\
     t = p_total (wp w) - removed /\ after (day_start ts) (wm_diffs m2) = wm_diffs m2 /\
     (if unexpired op st ts then lowered (expiry op st) (b * (weight_of op - 1)) (wm_diffs m1) (wm_diffs m2)
      else wm_diffs m2 = wm_diffs m1)).
  { cbv zeta. rewrite <- Hearly. pose proof (mw_share _ Hm1) as Hs1. pose proof (pw_total _ _ Hp) as Ht1.
    destruct (Z.ltb_spec ts oe).
    - rewrite (Hoe H0) in *. inv. rewrite weight_multiplier in *.
      replace (b * weight_of op - b * 1) with (b * (weight_of op - 1)) in * by lia.
      assert (0 <= b * (weight_of op - 1)) by (destruct op; cbn; try congruence; lia).
      assert (0 <= b * weight_of op) by (destruct op; cbn; lia).
      split; [apply mining_stake_wf; [assumption|unfold is_u64 in *; lia|]|].
      { eapply modify_wf; [apply (mining_wf_sched m1 Hm1)| |eassumption]. lia. }
      split; [repeat split|]. split; [unfold is_u64 in *; lia|]. split; [lia|]. split; [reflexivity|].
      split; [reflexivity|]. cbn [wm_diffs].
      match goal with H : modify_diffs _ _ _ = _ |- _ => apply modify_lowered in H as L; [|apply Hm1] end.
      split; [|assumption]. destruct L as (_ & _ & L & _). eapply keys_later; [exact L|].
      eapply refreshed_diffs. eassumption.
    - inv. rewrite Z.mul_1_r in *.
      split; [apply mining_stake_wf; [assumption|unfold is_u64 in *; lia|apply mining_wf_sched; assumption]|].
      split; [repeat split|]. split; [unfold is_u64 in *; lia|]. split; [lia|]. split; [reflexivity|].
      split; [reflexivity|]. cbn [wm_diffs]. split; [|reflexivity]. eapply refreshed_diffs. eassumption. }
  cbv zeta in H2. set (removed := if unexpired op st ts then b * weight_of op else b) in *.
  destruct H2 as (Hm2 & O2 & Ht & Hle & Hs2 & -> & Hl2 & Hsched).
  pose proof (delegate_sub_wf now w ts b _ d t' d1 Hp Hd Ht Hb E3) as [Ht' Hd1].
  apply delegate_sub_effect in E3 as [Et Ed]; [|assumption|assumption].
  apply (deposit_effect now) in H as (Hnp & (m3 & R3 & O3 & Hs3 & Hsc3) & OT & HT & HP & HD).
  2:{ unfold set_wtotal. apply pool_stake_wf; [assumption|assumption|apply (pool_wf_sched now w Hp)]. }
  2:{ assumption. }
  2:{ apply odlg_dlg_wf. assumption. }
  2:{ lia. }
  change (wp_ci (set_wtotal w t')) with (wp_ci w) in *.
  change (wp_diffs (set_wtotal w t')) with (wp_diffs w) in *.
  change (p_total (wp (set_wtotal w t'))) with t' in *.
  apply refreshed_same in R3; [|destruct O2 as (_ & -> & _); apply (rf_index _ _ _ _ R)|assumption]. subst m3.
  split; [assumption|]. split.
  { exists m1, (wm_diffs m2). split; [assumption|]. split.
    { destruct O2 as ((? & ? & ? & ? & ?) & ? & ? & ?), O3 as ((? & ? & ? & ? & ?) & ? & ? & ?).
      repeat split; congruence. }
    split; [assumption|]. split; [lia|]. split; [|assumption]. destruct (unexpired op st ts); assumption. }
  split; [exact OT|]. split.
  { rewrite HT, Et. destruct d as [[x|]|], d1 as [y|]; cbn in Ed |- *; try contradiction; lia. }
  split; [assumption|].
  destruct d as [[x|]|], d1 as [y|], d' as [x'|]; cbn in Ed, HD |- *; try contradiction; try exact I.
  destruct Ed as [Hx Ry], HD as [_ Rx]. split; [lia|]. exists y. change (m_sfo (wm x) + - b) with (m_sfo (wm x) - b) in Ry.
  split; [assumption|]. apply refreshed_same in Rx.
  - rewrite Rx, (rf_sfo _ _ _ _ Ry). reflexivity.
  - exact (rf_index _ _ _ _ Ry).
  - exact (refreshed_diffs _ _ _ _ Ry).
Qed.

(** ** Change delegate *)
Lemma change_effect now ts w m nd od a w' m' od' nd' :
  pool_wf now w -> mining_wf m -> dlg_wf od -> dlg_wf nd -> 0 <= a ->
  change_delegate ts w m nd od a = Ok (w', m', od', nd') ->
  refreshed ts (wp_ci w) m m' /\ only_total w w' /\ wp_diffs w' = wp_diffs w /\
  p_total (wp w') = p_total (wp w) - takes_part od a + takes_part nd a /\
  delegate_moved ts (wp_ci w) (- a) od od' /\ delegate_moved ts (wp_ci w) a nd nd'.
Proof.
  intros Hp Hm Ho Hn Ha H. pose proof (pool_wf_hist _ _ Hp) as Hh. unfold change_delegate in H. inv.
  apply refresh_refreshed in E as R; [|assumption|apply mining_wf_min; assumption].
  apply delegate_sub_effect in E0 as [Et Ed]; [|assumption|assumption].
  apply delegate_add_effect in E1 as [Et2 Ed2]; [|assumption|assumption|assumption].
  split; [assumption|]. split; [repeat split|]. split; [reflexivity|]. split; [|auto].
  cbn [set_wtotal wp set_total p_total]. lia.
Qed.

(** ** Decrease rewards *)
Fixpoint descending (l : tmap) : Prop :=
  match l with
  | [] => True
  | (k, _) :: r => (forall k' v', In (k', v') r -> k' < k) /\ descending r
  end.
Lemma descending_app l k v :
  descending l -> (forall k' v', In (k', v') l -> k < k') -> descending (l ++ [(k, v)]).
Proof.
  induction l as [|[a b] r IH]; cbn [app descending]; intros Hd Hk; [split; [intros ? ? []|exact I]|].
  destruct Hd as [H1 H2]. split.
  - intros k' v' Hin. apply in_app_or in Hin as [Hin|[E|[]]]; [eauto|]. injection E as <- <-.
    apply (Hk a b). left. reflexivity.
  - apply IH; [assumption|]. intros k' v' Hin. apply (Hk k' v'). right. assumption.
Qed.
Lemma descending_rev l : ascending l -> descending (rev l).
Proof.
  induction l as [|[k v] r IH]; intros Ha; [exact I|]. cbn [rev]. apply descending_app; [apply IH; apply Ha|].
  intros k' v' Hin. apply in_rev in Hin. eapply Ha. eassumption.
Qed.
Lemma after_none_desc d k v r : descending ((k, v) :: r) -> k <= d -> after d ((k, v) :: r) = [].
Proof.
  intros [H1 _] Hk. assert (Hd : dates (fun x => x <= d) ((k, v) :: r)).
  { intros k' v' [E|E]; [congruence|]. apply H1 in E. lia. }
  clear H1 Hk. induction ((k, v) :: r) as [|[k' v'] l IH]; [reflexivity|]. unfold after in *. cbn [filter fst].
  pose proof (Hd k' v' (or_introl eq_refl)). cbv beta in *. rewrite (proj2 (Z.ltb_ge d k')) by assumption.
  apply IH. intros ? ? ?. eapply Hd; right; eauto.
Qed.

Lemma decrease_loop_latest d : forall l n l',
  0 <= n -> descending l -> values (fun v => 0 <= v) l -> decrease_loop n l = Ok l' ->
  total (after d l') = Z.max 0 (total (after d l) - n).
Proof.
  induction l as [|[k v] r IH]; cbn [decrease_loop]; intros n l' Hn Hd Hv H; [inv; cbn; lia|].
  pose proof (Hv k v (or_introl eq_refl)) as Hv0. cbv beta in Hv0.
  assert (Hvr : values (fun v => 0 <= v) r) by (intros ? ? ?; eapply Hv; right; eauto).
  assert (Hnn : 0 <= total (after d r)).
  { pose proof (due_bounds d r Hvr). rewrite total_after. lia. }
  destruct (Z_le_gt_dec k d).
  { rewrite (after_none_desc d k v r Hd) by assumption. cbn [total].
    rewrite Z.max_l by lia. destruct (Z.leb_spec n v); inv.
    - rewrite after_none_desc; [reflexivity| |assumption]. destruct Hd; split; assumption.
    - apply decrease_loop_ok in E0 as (_ & _ & E1 & _); [|lia|assumption].
      rewrite after_none_desc; [reflexivity| |assumption]. destruct Hd as [Hd1 Hd2]. split.
      + intros k' v' Hin. apply (in_map fst) in Hin. rewrite E1 in Hin. apply in_map_iff in Hin as ([k2 v2] & E2 & Hin).
        cbn in E2. subst. eauto.
      + clear -E1 Hd2. revert a0 E1. induction r as [|[k v] r IH]; intros [|[k' v'] r'] E; cbn in E; try discriminate; [exact I|].
        injection E as -> E. destruct Hd2 as [H1 H2]. split; [|auto].
        intros k2 v2 Hin. apply (in_map fst) in Hin. rewrite E in Hin. apply in_map_iff in Hin as ([k3 v3] & E3 & Hin).
        cbn in E3. subst. eauto. }
  destruct (Z.leb_spec n v); inv.
  - unfold after in *. cbn [filter fst]. rewrite (proj2 (Z.ltb_lt d k)) by lia. cbn [total]. lia.
  - apply IH in E0; [|lia|apply Hd|assumption].
    unfold after in *. cbn [filter fst]. rewrite (proj2 (Z.ltb_lt d k)) by lia. cbn [total]. lia.
Qed.

Lemma decrease_effect n m m' :
  mining_wf m -> 0 <= n -> decrease_rewards n m = Ok m' ->
  only_stake m m' /\ n <= m_share (wm m) /\ m_share (wm m') = m_share (wm m) - n /\
  map fst (wm_diffs m') = map fst (wm_diffs m) /\ values (fun v => 0 <= v) (wm_diffs m') /\
  total (wm_diffs m') = total (wm_diffs m) - Z.min n (total (wm_diffs m)) /\
  (forall d, total (after d (wm_diffs m')) = Z.max 0 (total (after d (wm_diffs m)) - n)) /\
  (total (wm_diffs m) <= m_share (wm m) -> total (wm_diffs m') <= m_share (wm m')).
Proof.
  intros Hm Hn H.
  assert (Hv : values (fun v => 0 <= v) (wm_diffs m)).
  { intros k v Hin. apply (mw_vals _ Hm) in Hin. unfold is_u64 in Hin. lia. }
  pose proof (mw_share _ Hm) as Hs. unfold is_u64 in Hs.
  pose proof (decrease_rewards_ok n m m' Hn (mw_asc _ Hm) Hv H) as (E & Hle & Ha & Hv' & Hk & Ht & _).
  assert (Hlast : forall d, total (after d (wm_diffs m')) = Z.max 0 (total (after d (wm_diffs m)) - n)).
  { intros d. assert (Hnn : 0 <= total (after d (wm_diffs m))).
    { pose proof (due_bounds d _ Hv). rewrite total_after. lia. }
    unfold decrease_rewards in H. destruct (Z.eqb_spec n 0); inv; [subst; lia|].
    destruct (_ <? n); inv. cbn [wm_diffs].
    match goal with H : decrease_loop _ _ = _ |- _ =>
      apply (decrease_loop_latest d) in H; [|assumption|apply descending_rev; apply Hm|apply values_rev; assumption] end.
    rewrite !total_after, !total_rev, !due_rev in *. lia. }
  rewrite E. cbn [set_share m_share].
  split; [unfold only_stake, same_mining; rewrite E; repeat split|]. split; [lia|]. split; [reflexivity|].
  split; [assumption|]. split; [assumption|]. pose proof (due_bounds 0 _ Hv).
  split; [lia|]. split; [assumption|]. lia.
Qed.

Lemma decrease_too_big n m : 0 <= m_share (wm m) < n -> exists er, decrease_rewards n m = Err er.
Proof.
  intros H. unfold decrease_rewards. destruct (Z.eqb_spec n 0); [lia|].
  rewrite (proj2 (Z.ltb_lt (m_share (wm m)) n)) by lia. eauto.
Qed.

(** ** Distribute *)
Lemma rewards_exact ts p :
  is_u64 (p_avail p) -> rewards_to_distribute ts p = Ok (daily_part (p_avail p) (p_ends_at p) ts).
Proof.
  intros Ha. unfold is_u64 in Ha. unfold rewards_to_distribute, daily_part. cbv zeta.
  assert (saturating_sub (p_ends_at p) ts = Z.max 0 (p_ends_at p - ts)) as ->.
  { unfold saturating_sub. destruct (Z.leb_spec ts (p_ends_at p)); lia. }
  unfold DAY. set (n := Z.max 0 (p_ends_at p - ts) / 86400).
  assert (0 <= n) by (apply Z.div_pos; [lia|reflexivity]).
  destruct (Z.eqb_spec n 0); [reflexivity|].
  rewrite (proj2 (safe_mul128_ok _ _ (p_avail p * PRECISION))); [|split; [unfold U64, U128, PRECISION in *; lia|reflexivity]].
  cbn [rbind]. rewrite (proj2 (safe_div_ok _ _ (p_avail p * PRECISION / n))) by auto. cbn [rbind].
  rewrite (proj2 (safe_div_ok _ _ (p_avail p * PRECISION / n / PRECISION))) by (split; [discriminate|reflexivity]).
  cbn [rbind].
  assert (p_avail p * PRECISION / n / PRECISION = p_avail p / n) as ->.
  { rewrite Z.div_div by (unfold PRECISION; lia). rewrite Z.div_mul_cancel_r by (unfold PRECISION; lia). reflexivity. }
  apply try_u64_ok. split; [|reflexivity]. apply Z.le_lt_trans with (p_avail p); [|lia].
  apply Z.div_le_upper_bound; nia.
Qed.

Lemma daily_part_bounds b x ts : 0 <= b -> 0 <= daily_part b x ts <= b.
Proof.
  intros Hb. unfold daily_part. cbv zeta. set (n := Z.max 0 (x - ts) / 86400).
  assert (0 <= n) by (apply Z.div_pos; [lia|reflexivity]).
  destruct (Z.eqb_spec n 0); [lia|]. split; [apply Z.div_pos; lia|]. apply Z.div_le_upper_bound; nia.
Qed.

Lemma distribute_effect now ts r w w' :
  pool_wf now w -> now <= ts -> distribute ts r w = Ok w' ->
  only_distribution w w' /\ p_total (wp w) <> 0 /\
  p_total (wp w') = p_total (wp w) - due (day_start ts) (wp_diffs w) /\
  wp_diffs w' = after (day_start ts) (wp_diffs w) /\
  (has_date (day_start ts) (wp_ci w) ->
     wp_ci w' = wp_ci w /\ p_index (wp w') = p_index (wp w) /\ p_avail (wp w') = p_avail (wp w)) /\
  (~ has_date (day_start ts) (wp_ci w) ->
     p_total (wp w') <> 0 /\
     p_index (wp w') = p_index (wp w) + 10000000000000000 * r / p_total (wp w') /\
     r <= p_avail (wp w) /\ p_avail (wp w') = p_avail (wp w) - r /\
     wp_ci w' = if Z.of_nat (length (wp_ci w)) <? 1095 then wp_ci w ++ [(day_start ts, p_index (wp w'))]
                else wp_ci w).
Proof.
  intros Hp Hn H. unfold distribute in H. cbv zeta in H. inv.
  apply pool_consume_ok in E0 as [-> ->]; [|apply Hp]. rewrite bod_day_start in *.
  pose proof (has_date_oget (day_start ts) _ (pw_ci_asc _ _ Hp)) as Hd.
  destruct (ohas (day_start ts) (wp_ci w)) eqn:Eh; inv.
  - cbn. split; [repeat split|]. split; [assumption|]. split; [reflexivity|]. split; [reflexivity|].
    split; [auto|]. intros A. exfalso. apply A. apply Hd. apply ohas_true in Eh as (v & ->). discriminate.
  - unfold pool_update_index in *. inv. cbn [wp wp_ci wp_diffs set_avail set_index set_total p_total p_index p_avail] in *.
    split; [repeat split|]. split; [assumption|]. split; [reflexivity|]. split; [reflexivity|].
    apply ohas_false in Eh as Eg.
    split; [intros A; exfalso; apply Hd in A; congruence|]. intros _.
    split; [assumption|]. split; [reflexivity|]. split; [assumption|]. split; [reflexivity|].
    unfold oinsert. rewrite Eh. change HISTORY_CAP with 1095. destruct (_ <? 1095); [|reflexivity].
    apply oput_last. intros k v Hin.
    pose proof (pw_ci_dates _ _ (pool_wf_mono _ _ _ Hn Hp) _ _ Hin) as B. cbv beta in B.
    assert (k <> day_start ts); [|lia]. intros ->. rewrite oget_none in Eg. eapply Eg. eassumption.
Qed.

(** ** Fill *)
Lemma fill_effect ts r x w w' :
  fill_pool ts r x w = Ok w' ->
  p_avail (wp w') = p_avail (wp w) + r /\ p_ends_at (wp w') = day_start x /\
  p_ends_at (wp w) <= day_start x /\ day_start ts <= day_start x /\
  wp_diffs w' = wp_diffs w /\ wp_ci w' = wp_ci w /\ p_total (wp w') = p_total (wp w) /\
  p_index (wp w') = p_index (wp w) /\ p_deposit_auth (wp w') = p_deposit_auth (wp w) /\
  p_distribute_auth (wp w') = p_distribute_auth (wp w) /\
  p_fill_auth (wp w') = p_fill_auth (wp w) /\ p_mint (wp w') = p_mint (wp w) /\
  p_bump (wp w') = p_bump (wp w) /\ p_type (wp w') = p_type (wp w).
Proof.
  intros H. unfold fill_pool in H. cbv zeta in H. inv. rewrite !bod_day_start in *.
  cbn. repeat split; lia.
Qed.
