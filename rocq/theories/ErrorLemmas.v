(** Which errors the methods of State.v return. *)
From stdpp Require Import gmap.
From Verif Require Import Base OMap State Spec EffectSpec ResLemmas TreeLemmas AccrualLemmas RefreshLemmas WfLemmas CoreSteps
  EffectLemmas EffectMethods SuccessMethods.

Lemma rbind_err {A B} (r : res A) (f : A -> res B) x :
  rbind r f = Err x -> r = Err x \/ exists a, r = Ok a /\ f a = Err x.
Proof. destruct r; cbn; intros H; [right; eauto|left; congruence]. Qed.

(** arithmetic *)
Definition numeric (x : err) : Prop := x = ECustom 1 \/ x = ECustom 5.
Lemma sub_err a b x : safe_sub a b = Err x -> x = ECustom 1 /\ a < b.
Proof. unfold safe_sub. destruct (Z.leb_spec b a); [discriminate|]. intros H0. injection H0 as <-. auto. Qed.
Lemma add_err a b x : safe_add64 a b = Err x -> x = ECustom 1.
Proof. unfold safe_add64. destruct (_ <? _); [discriminate|]. intros H. injection H as <-. reflexivity. Qed.
Lemma add128_err a b x : safe_add128 a b = Err x -> x = ECustom 1.
Proof. unfold safe_add128. destruct (_ <? _); [discriminate|]. intros H. injection H as <-. reflexivity. Qed.
Lemma mul_err a b x : safe_mul64 a b = Err x -> x = ECustom 1.
Proof. unfold safe_mul64. destruct (_ <? _); [discriminate|]. intros H. injection H as <-. reflexivity. Qed.
Lemma mul128_err a b x : safe_mul128 a b = Err x -> x = ECustom 1 /\ U128 <= a * b.
Proof. unfold safe_mul128. destruct (Z.ltb_spec (a * b) U128); [discriminate|]. intros H0. injection H0 as <-. auto. Qed.
Lemma div_err a b x : safe_div a b = Err x -> x = ECustom 1 /\ b = 0.
Proof. unfold safe_div. destruct (Z.eqb_spec b 0); [|discriminate]. intros H0. injection H0 as <-. auto. Qed.
Lemma try_err a x : try_u64 a = Err x -> x = ECustom 5 /\ U64 <= a.
Proof. unfold try_u64. destruct (Z.ltb_spec a U64); [discriminate|]. intros H0. injection H0 as <-. auto. Qed.
Lemma plain_err a b x : plain_add64 a b = Err x -> x = EPanic.
Proof. unfold plain_add64. destruct (_ <? _); [discriminate|]. intros H. injection H as <-. reflexivity. Qed.
Lemma ensure_err b er x : ensure b er = Err x -> b = false /\ x = er.
Proof. unfold ensure. destruct b; [discriminate|]. intros H. injection H as <-. auto. Qed.

Ltac einv1 :=
  match goal with
  | H : rbind _ _ = Err _ |- _ =>
      let a := fresh "a" in let E := fresh "E" in
      apply rbind_err in H as [H|(a & E & H)]; cbv beta in H
  | H : Ok _ = Err _ |- _ => discriminate H
  | p : (_ * _)%type |- _ => destruct p; cbv beta iota in *
  | u : unit |- _ => destruct u
  | H : safe_sub _ _ = Err _ |- _ => apply sub_err in H as [-> H]
  | H : safe_add64 _ _ = Err _ |- _ => apply add_err in H as ->
  | H : safe_add128 _ _ = Err _ |- _ => apply add128_err in H as ->
  | H : safe_mul64 _ _ = Err _ |- _ => apply mul_err in H as ->
  | H : safe_mul128 _ _ = Err _ |- _ => apply mul128_err in H as [-> H]
  | H : safe_div _ _ = Err _ |- _ => apply div_err in H as [-> H]
  | H : try_u64 _ = Err _ |- _ => apply try_err in H as [-> H]
  | H : plain_add64 _ _ = Err _ |- _ => apply plain_err in H as ->
  | H : ensure _ _ = Err _ |- _ => apply ensure_err in H as [H ->]
  end.
Ltac einv := repeat einv1.
Ltac num := solve [unfold numeric; auto].

Lemma update_index_err ci d s u j x : mining_update_index ci d s u j = Err x -> numeric x.
Proof. unfold mining_update_index. cbv zeta. intros H. einv; try num. destruct (0 <? _); einv; num. Qed.

Lemma mining_loop_err ci b l : forall s u j x, mining_consume_loop ci b l s u j = Err x -> numeric x.
Proof.
  induction l as [|[d v] r IH]; cbn [mining_consume_loop]; intros s u j x H; [discriminate|].
  destruct (b <? d); [discriminate|]. einv; try num; eauto using update_index_err.
Qed.
Lemma refresh_err ts ci m x : refresh ts ci m = Err x -> numeric x.
Proof.
  unfold refresh, mining_consume. cbv zeta. intros H.
  einv; try num; eauto using update_index_err, mining_loop_err.
Qed.
Lemma pool_loop_err b l : forall s x, pool_consume_loop b l s = Err x -> x = ECustom 1.
Proof.
  induction l as [|[d v] r IH]; cbn [pool_consume_loop]; intros s x H; [discriminate|].
  destruct (b <? d); [discriminate|]. einv; eauto.
Qed.
Lemma pool_consume_err b s t x : pool_consume b s t = Err x -> x = ECustom 1.
Proof. unfold pool_consume. intros H. einv; eauto using pool_loop_err. Qed.

(** an unreadable delegate *)
Definition unreadable (d : dlg) (x : err) : Prop := d = Some (Err x).
Lemma add_delegate_err ts a ci t d x : delegate_add ts a ci t d = Err x -> numeric x \/ unreadable d x.
Proof.
  unfold delegate_add, unreadable. destruct d as [rd|]; [|discriminate]. intros H. einv; try (left; num; fail).
  - right. congruence.
  - left. eauto using refresh_err.
Qed.
Lemma sub_delegate_err ts a ci t d x : delegate_sub ts a ci t d = Err x -> numeric x \/ unreadable d x.
Proof.
  unfold delegate_sub, unreadable. destruct d as [rd|]; [|discriminate]. intros H. einv; try (left; num; fail).
  - right. congruence.
  - left. eauto using refresh_err.
Qed.
Lemma end_err p t x : end_timestamp p t = Err x -> x = ECustom 3 /\ p = LNone \/ x = EPanic.
Proof.
  destruct p; cbn [end_timestamp]; intros H; einv; auto. left. injection H as <-. auto.
Qed.

Lemma deposit_err ts w m a p d x :
  0 <= a -> deposit ts w m a p d = Err x ->
  numeric x \/ unreadable d x \/ x = EPanic \/ x = ECustom 3 /\ p = LNone /\ a = 0.
Proof.
  intros Ha H. unfold deposit in H. einv; try (left; num; fail).
  - left. eauto using refresh_err.
  - apply end_err in H as [[-> ->]| ->]; auto. right. right. right. repeat split.
    repeat match goal with E : safe_sub _ _ = Ok _ |- _ => apply safe_sub_ok in E as [E _]
                         | E : safe_mul64 _ _ = Ok _ |- _ => apply safe_mul64_ok in E as [_ ->] end.
    cbn in E2. lia.
  - unfold add_pool_diff in H. cbv zeta in H. einv; left; num.
  - unfold add_mining_diff in H. destruct (oget _ _); einv; left; num.
  - apply add_delegate_err in H as [H|H]; auto.
Qed.
Lemma withdraw_err ts w m a d x : withdraw ts w m a d = Err x -> numeric x \/ unreadable d x.
Proof.
  intros H. unfold withdraw in H. einv; try (left; num; fail).
  - left. eauto using refresh_err.
  - left. apply pool_consume_err in H. num.
  - apply sub_delegate_err in H as [H|H]; auto.
Qed.
Lemma modify_err t d v x :
  modify_diffs t d v = Err x -> x = ECustom 1 \/ x = ECustom 9 /\ ~ has_date d t.
Proof.
  unfold modify_diffs. destruct (oget d t) as [y|] eqn:E; intros H; einv; auto.
  right. injection H as <-. split; [reflexivity|]. intros [v' Hin]. apply (proj1 (oget_none _ _) E v'). exact Hin.
Qed.
Lemma change_err ts w m nd od a x :
  change_delegate ts w m nd od a = Err x -> numeric x \/ unreadable nd x \/ unreadable od x.
Proof.
  intros H. unfold change_delegate in H. einv; try (left; num; fail).
  - left. eauto using refresh_err.
  - apply sub_delegate_err in H as [H|H]; auto.
  - apply add_delegate_err in H as [H|H]; auto.
Qed.
Lemma decrease_err n m x : decrease_rewards n m = Err x -> x = ECustom 15 /\ m_share (wm m) < n.
Proof.
  unfold decrease_rewards. destruct (n =? 0); [discriminate|].
  destruct (Z.ltb_spec (m_share (wm m)) n) as [Hn|Hn]; intros H.
  - injection H as <-. auto.
  - exfalso. einv; [lia|]. clear -H. revert n H. induction (rev (wm_diffs m)) as [|[d v] r IH]; cbn [decrease_loop]; intros n H; [discriminate|].
    destruct (Z.leb_spec n v); einv; try lia. eauto.
Qed.
Lemma fill_err ts r e w x :
  fill_pool ts r e w = Err x -> x = ECustom 1 \/ x = ECustom 4 /\ day_start e < day_start ts.
Proof.
  unfold fill_pool. cbv zeta. intros H. einv; auto. right. split; [reflexivity|].
  apply negb_false_iff, Z.ltb_lt in H. rewrite !bod_day_start in H. exact H.
Qed.
Lemma distribute_err ts r w x :
  distribute ts r w = Err x -> x = ECustom 1 \/ x = ECustom 2 /\ p_total (wp w) = 0.
Proof.
  unfold distribute. cbv zeta. intros H. einv; auto.
  - right. split; [reflexivity|]. apply negb_false_iff, Z.eqb_eq in H. exact H.
  - left. eauto using pool_consume_err.
  - destruct (ohas _ _); einv; auto. unfold pool_update_index in H. einv; auto.
Qed.
Lemma part_no_err ts w x :
  0 <= p_avail (wp w) < U64 -> rewards_to_distribute ts (wp w) = Err x -> False.
Proof.
  intros Ha H. unfold rewards_to_distribute in H. cbv zeta in H. destruct (_ =? 0) eqn:E0; [discriminate|].
  apply Z.eqb_neq in E0.
  einv.
  - unfold PRECISION, U64, U128 in *. lia.
  - contradiction.
  - discriminate H.
  - inv. assert (0 < saturating_sub (p_ends_at (wp w)) ts / DAY).
    { assert (0 <= saturating_sub (p_ends_at (wp w)) ts / DAY); [|lia].
      apply Z.div_pos; [|reflexivity]. unfold saturating_sub. destruct (Z.leb_spec ts (p_ends_at (wp w))); lia. }
    set (dl := saturating_sub (p_ends_at (wp w)) ts / DAY) in *.
    assert (p_avail (wp w) * PRECISION / dl <= p_avail (wp w) * PRECISION).
    { apply Z.div_le_upper_bound; [assumption|]. unfold PRECISION. nia. }
    assert (p_avail (wp w) * PRECISION / dl / PRECISION <= p_avail (wp w)).
    { apply Z.div_le_upper_bound; [reflexivity|]. lia. }
    lia.
Qed.

Lemma refresh_diffs now ts w m m1 : pool_wf now w -> mining_wf m -> refresh ts (wp_ci w) m = Ok m1 ->
  wm_diffs m1 = after (day_start ts) (wm_diffs m).
Proof.
  intros Hp Hm E. eapply rf_diffs, refresh_refreshed;
    [eapply pool_wf_hist; eassumption|apply mining_wf_min; assumption|exact E].
Qed.
Lemma has_after b d t : has_date d (after b t) <-> b < d /\ has_date d t.
Proof.
  unfold has_date. split.
  - intros [v H]. apply in_after in H as [H1 H2]. eauto.
  - intros [H1 [v H2]]. exists v. apply in_after. auto.
Qed.

Lemma slash_err now ts w m n wt dt x :
  pool_wf now w -> mining_wf m -> slash ts w m n wt dt = Err x ->
  numeric x \/ exists d, dt = Some d /\ x = ECustom 9 /\
    ~ (day_start ts < day_start d /\ has_date (day_start d) (wm_diffs m) /\ has_date (day_start d) (wp_diffs w)).
Proof.
  intros Hp Hm H. unfold slash in H. apply rbind_err in H as [H|([[w1 m1] d1] & E & H)].
  - apply withdraw_err in H as [H|H]; [auto|discriminate H].
  - destruct dt as [d|]; [|discriminate H]. cbv zeta in H.
    apply (withdraw_effect now) in E as ((m0 & R & _ & _ & _ & Em) & _ & _ & Ew & _); [|assumption|assumption|exact I].
    rewrite Em, Ew, (rf_diffs _ _ _ _ R), bod_day_start in H.
    einv; try (left; num; fail).
    + apply modify_err in H as [->|[-> H]]; [left; num|]. right. exists d. rewrite has_after in H. tauto.
    + apply modify_err in H as [->|[-> H]]; [left; num|]. right. exists d. rewrite has_after in H. tauto.
Qed.

Lemma extend_err now ts w m op np st b a d x :
  pool_wf now w -> mining_wf m -> 0 <= ts -> 0 <= b -> 0 <= a -> extend ts w m op np st b a d = Err x ->
  numeric x \/ unreadable d x \/ x = EPanic \/
  x = ECustom 3 /\ (op = LNone \/ np = LNone /\ b = 0 /\ a = 0) \/
  x = ECustom 9 /\ unexpired op st ts = true /\ ~ has_date (expiry op st) (wm_diffs m).
Proof.
  intros Hp Hm Hts Hb Ha H. unfold extend in H.
  apply rbind_err in H as [H|(m1 & E & H)]; [left; eauto using refresh_err|].
  apply (refresh_diffs now) in E; [|assumption|assumption].
  apply rbind_err in H as [H|(ex & E1 & H)].
  { destruct (lockup_eqb op LFlex); [discriminate H|]. apply end_err in H as [[-> ->]| ->]; auto 8. }
  apply rbind_err in H as [H|(fl & E2 & H)]; [einv; left; num|].
  apply rbind_err in H as [H|([m2 tot] & E3 & H)].
  { destruct (Z.ltb_spec ts ex) as [Hx|Hx]; einv; try (left; num; fail).
    apply modify_err in H as [->|[-> H]]; [left; num|]. right. right. right. right. split; [reflexivity|].
    rewrite unexpired_alt. destruct (lockup_eqb op LFlex); [injection E1 as <-; lia|].
    apply end_timestamp_ok in E1 as [E1 _]. subst ex. split.
    - cbn [negb andb]. apply Z.ltb_lt. assumption.
    - rewrite E, has_after in H. intros C. apply H. split; [|assumption]. pose proof (day_start_le ts Hts). lia. }
  apply rbind_err in H as [H|(am & E4 & H)]; [einv; left; num|].
  apply safe_add64_ok in E4 as [_ ->].
  apply rbind_err in H as [H|([t' d1] & E5 & H)].
  { apply sub_delegate_err in H as [H|H]; auto. }
  apply deposit_err in H as [H|[H|[->|(-> & -> & H)]]]; [auto|destruct d1; discriminate H|auto| |lia].
  right. right. right. left. split; [reflexivity|]. right. repeat split; lia.
Qed.
