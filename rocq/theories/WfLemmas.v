(** Well-formedness of pools and minings (machine ranges, ordered schedules) and its
    preservation by every method of State.v. *)
From Verif Require Import Base OMap State Spec ResLemmas TreeLemmas AccrualLemmas RefreshLemmas.

(** a date as the schedules hold it: the start of a day *)
Definition day_date (k : Z) : Prop := is_u64 k /\ k mod 86400 = 0.

(** a stored pool, at a time when the clock has reached [now] *)
Record pool_wf (now : Z) (w : wpool) : Prop := {
  pw_total : is_u64 (p_total (wp w));
  pw_ends : is_u64 (p_ends_at (wp w));
  pw_avail : is_u64 (p_avail (wp w));
  pw_index : is_u128 (p_index (wp w));
  pw_bump : is_u8 (p_bump (wp w));
  pw_type : p_type (wp w) = 0 \/ p_type (wp w) = 1;
  pw_diffs_asc : ascending (wp_diffs w);
  pw_diffs_vals : values is_u64 (wp_diffs w);
  pw_diffs_dates : dates day_date (wp_diffs w);
  pw_diffs_len : Z.of_nat (length (wp_diffs w)) <= 365;
  pw_ci_asc : ascending (wp_ci w);
  pw_ci_grow : growing 0 (wp_ci w);
  pw_ci_last : last_from 0 (wp_ci w) <= p_index (wp w);
  pw_ci_days : dates (fun k => k mod 86400 = 0) (wp_ci w);
  pw_ci_dates : dates (fun k => 0 <= k <= day_start now) (wp_ci w);
  pw_ci_len : Z.of_nat (length (wp_ci w)) <= 1095;
  pw_ends_day : p_ends_at (wp w) mod 86400 = 0 }.

(** a stored mining *)
Record mining_wf (w : wmining) : Prop := {
  mw_share : is_u64 (m_share (wm w));
  mw_sfo : is_u64 (m_sfo (wm w));
  mw_unclaimed : is_u64 (m_unclaimed (wm w));
  mw_index : is_u128 (m_index (wm w));
  mw_bump : is_u8 (m_bump (wm w));
  mw_type : m_type (wm w) = 0 \/ m_type (wm w) = 2;
  mw_asc : ascending (wm_diffs w);
  mw_vals : values is_u64 (wm_diffs w);
  mw_dates : dates day_date (wm_diffs w);
  mw_len : Z.of_nat (length (wm_diffs w)) <= 50 }.

Lemma bod_day_start ts : bod ts = day_start ts.
Proof. unfold bod, day_start, DAY. pose proof (Z.div_mod ts 86400). lia. Qed.

Lemma mining_wf_min m : mining_wf m -> min_ok m.
Proof.
  intros []. unfold is_u64, is_u128 in *. constructor; try lia; auto.
  intros k v H. apply mw_vals0 in H. lia.
Qed.

Lemma pool_wf_hist now w : pool_wf now w -> hist_ok (wp_ci w).
Proof. intros []. constructor; auto. Qed.

Lemma pool_wf_vals now w : pool_wf now w -> values (fun v => 0 <= v) (wp_diffs w).
Proof. intros []. intros k v H. apply pw_diffs_vals0 in H. unfold is_u64 in H. lia. Qed.

Lemma pool_wf_mono now now' w : now <= now' -> pool_wf now w -> pool_wf now' w.
Proof.
  intros H []. constructor; auto. intros k v Hin. apply pw_ci_dates0 in Hin.
  rewrite <- !bod_day_start in *. pose proof (bod_mono now now' H). lia.
Qed.

Lemma ci_values now w : pool_wf now w -> values is_u128 (wp_ci w).
Proof.
  intros H k v Hin. pose proof (growing_in 0 _ _ _ (pw_ci_grow _ _ H) Hin).
  pose proof (pw_ci_last _ _ H). pose proof (pw_index _ _ H). unfold is_u128 in *. lia.
Qed.

Lemma visible_u128 now w d : pool_wf now w -> is_u128 (visible d (wp_ci w)).
Proof.
  intros H. pose proof (visible_bounds 0 d _ (pw_ci_grow _ _ H)) as B.
  pose proof (pw_ci_last _ _ H). pose proof (pw_index _ _ H). unfold is_u128, visible in *. lia.
Qed.

(** ** Unclaimed rewards never leave 64 bits *)
Lemma update_index_u64 ci d s u j u' j' :
  is_u64 u -> 0 <= (match find_lt d ci with Some v => v | None => 0 end - j) * s ->
  mining_update_index ci d s u j = Ok (u', j') -> is_u64 u'.
Proof.
  unfold mining_update_index. intros Hu Hp H. inv.
  assert (0 <= (match find_lt d ci with Some v => v | None => 0 end - j) * s / PRECISION)
    by (apply Z.div_pos; [assumption|unfold PRECISION; lia]).
  unfold is_u64 in *. destruct (0 <? _); inv; lia.
Qed.

Lemma consume_loop_u64 ci b l : forall s u j s' u' j' ds,
  is_u64 u -> 0 <= s -> values (fun v => 0 <= v) l ->
  mining_consume_loop ci b l s u j = Ok (s', u', j', ds) -> is_u64 u' /\ 0 <= s' <= s.
Proof.
  induction l as [|[k v] r IH]; intros s u j s' u' j' ds Hu Hs Hv H; cbn in H.
  - inv. split; [assumption|lia].
  - destruct (b <? k); inv; [split; [assumption|lia]|].
    assert (0 <= v) by (apply (Hv k); left; reflexivity).
    assert (is_u64 z) as Hz.
    { pose proof E as E0'. unfold mining_update_index in E0'. inv.
      eapply update_index_u64; [eassumption| |eassumption].
      apply Z.mul_nonneg_nonneg; lia. }
    match goal with H : mining_consume_loop _ _ _ _ _ _ = _ |- _ => apply IH in H end; auto; try lia.
    + intuition lia.
    + intros k' v' Hin. apply (Hv k'). right. assumption.
Qed.

Lemma refresh_wf now w ts m m' :
  pool_wf now w -> mining_wf m -> refresh ts (wp_ci w) m = Ok m' -> mining_wf m'.
Proof.
  intros Hp Hm H. pose proof H as H0.
  pose proof (mining_wf_min _ Hm) as Ho. pose proof (pool_wf_hist _ _ Hp) as Hh.
  apply refresh_ok in H; [|assumption..]. cbv zeta in H.
  destruct H as (Hd & Hs & Hi & _ & Hf & _ & _ & _ & Hb & Ht & _ & Hs0 & _ & _).
  assert (Hu : is_u64 (m_unclaimed (wm m'))).
  { unfold refresh in H0. cbv zeta in H0. inv. unfold mining_consume in *. inv. cbn.
    match goal with H : mining_consume_loop _ _ _ _ _ _ = _ |- _ => apply consume_loop_u64 in H end.
    - eapply update_index_u64; [| |eassumption]; [tauto|].
      match goal with H : mining_update_index _ _ _ _ _ = _ |- _ =>
        unfold mining_update_index in H end. inv.
      apply Z.mul_nonneg_nonneg; lia.
    - apply Hm.
    - destruct Ho. lia.
    - apply Ho. }
  destruct Hm. constructor; auto.
  - rewrite Hs in *. pose proof (due_bounds (bod ts) _ (mo_vals _ Ho)). unfold is_u64 in *. lia.
  - rewrite Hf. assumption.
  - rewrite Hi. eapply visible_u128. eassumption.
  - rewrite Hb. assumption.
  - rewrite Ht. assumption.
  - rewrite Hd. apply ascending_after. assumption.
  - rewrite Hd. apply values_after. assumption.
  - rewrite Hd. apply dates_after. assumption.
  - rewrite Hd. pose proof (length_after (bod ts) (wm_diffs m)). lia.
Qed.

(** ** Schedules *)
Record sched_wf (cap : Z) (t : sched) : Prop := {
  sw_asc : ascending t; sw_vals : values is_u64 t; sw_dates : dates day_date t;
  sw_len : Z.of_nat (length t) <= cap }.

Lemma pool_wf_sched now w : pool_wf now w -> sched_wf 365 (wp_diffs w).
Proof. intros []. constructor; assumption. Qed.
Lemma mining_wf_sched m : mining_wf m -> sched_wf 50 (wm_diffs m).
Proof. intros []. constructor; assumption. Qed.

Lemma oput_wf cap k v t :
  sched_wf cap t -> day_date k -> is_u64 v ->
  oget k t <> None \/ Z.of_nat (length t) < cap -> sched_wf cap (oput k v t).
Proof.
  intros [] Hk Hv Hl. constructor.
  - apply ascending_oput. assumption.
  - intros k' v' H. apply in_oput in H as [[-> ->]|H]; eauto.
  - intros k' v' H. apply in_oput in H as [[-> ->]|H]; eauto.
  - destruct (oget k t) eqn:E.
    + rewrite length_oput_old; [assumption|assumption|congruence].
    + rewrite length_oput_new by assumption. destruct Hl; [congruence|lia].
Qed.

Lemma oinsert_wf cap k v t :
  sched_wf cap t -> day_date k -> is_u64 v -> sched_wf cap (oinsert cap k v t).
Proof.
  intros Ht Hk Hv. unfold oinsert. destruct (ohas k t) eqn:E.
  - apply oput_wf; auto. left. apply ohas_true in E as (x & ->). discriminate.
  - destruct (Z.ltb_spec (Z.of_nat (length t)) cap); [|assumption].
    apply oput_wf; auto.
Qed.

Lemma modify_wf cap t d x t' :
  sched_wf cap t -> 0 <= x -> modify_diffs t d x = Ok t' -> sched_wf cap t'.
Proof.
  unfold modify_diffs. intros Ht Hx H. destruct (oget d t) as [v|] eqn:E; inv.
  pose proof (oget_in _ _ _ E) as Hin.
  pose proof (sw_vals _ _ Ht _ _ Hin) as Hv. pose proof (sw_dates _ _ Ht _ _ Hin) as Hd.
  apply oput_wf; auto.
  - unfold is_u64 in *. lia.
  - left. congruence.
Qed.

Lemma add_mining_wf t d x t' :
  sched_wf 50 t -> day_date d -> is_u64 x -> add_mining_diff t d x = Ok t' -> sched_wf 50 t'.
Proof.
  unfold add_mining_diff. intros Ht Hd Hx H. destruct (oget d t) as [v|] eqn:E; inv.
  - pose proof (sw_vals _ _ Ht _ _ (oget_in _ _ _ E)) as Hv.
    apply oput_wf; auto; [unfold is_u64 in *; lia|left; congruence].
  - apply oinsert_wf; assumption.
Qed.

Lemma add_pool_wf t d x t' :
  sched_wf 365 t -> day_date d -> is_u64 x -> add_pool_diff t d x = Ok t' -> sched_wf 365 t'.
Proof.
  unfold add_pool_diff. intros Ht Hd Hx H. cbv zeta in H. inv.
  apply oinsert_wf; auto.
  destruct (oget d t) as [v|] eqn:Eg.
  - pose proof (sw_vals _ _ Ht _ _ (oget_in _ _ _ Eg)) as Hv. unfold is_u64 in *. lia.
  - unfold is_u64 in *. lia.
Qed.

Lemma pool_consume_loop_pos b t : forall s s' ds,
  0 <= s -> values (fun v => 0 <= v) t -> pool_consume_loop b t s = Ok (s', ds) -> 0 <= s' <= s.
Proof.
  induction t as [|[k v] r IH]; intros s s' ds Hs Hv H; cbn in H; inv; [lia|].
  destruct (b <? k); inv; [lia|].
  assert (0 <= v) by (apply (Hv k); left; reflexivity).
  match goal with H : pool_consume_loop _ _ _ = _ |- _ => apply IH in H end; [lia|lia|].
  intros k' v' Hin. apply (Hv k'). right. assumption.
Qed.

Lemma sched_wf_pos cap t : sched_wf cap t -> values (fun v => 0 <= v) t.
Proof. intros [] k v H. apply sw_vals0 in H. unfold is_u64 in H. lia. Qed.

Lemma pool_consume_wf cap b s t s' t' :
  sched_wf cap t -> is_u64 s -> pool_consume b s t = Ok (s', t') -> sched_wf cap t' /\ is_u64 s'.
Proof.
  intros Ht Hs H. pose proof H as H0. apply pool_consume_ok in H as [-> ->]; [|apply Ht].
  unfold pool_consume in H0. inv.
  match goal with H : pool_consume_loop _ _ _ = _ |- _ => apply pool_consume_loop_pos in H end;
    [|unfold is_u64 in Hs; lia|eapply sched_wf_pos; eassumption].
  split; [|unfold is_u64 in *; lia].
  destruct Ht. constructor.
  - apply ascending_after. assumption.
  - apply values_after. assumption.
  - apply dates_after. assumption.
  - pose proof (length_after b t). lia.
Qed.

(** ** Rebuilding *)
Lemma pool_stake_wf now w t ds :
  pool_wf now w -> is_u64 t -> sched_wf 365 ds -> pool_wf now (WPool (set_total (wp w) t) ds (wp_ci w)).
Proof. intros [] Ht []. constructor; cbn; auto. Qed.

Lemma mining_stake_wf m s ds :
  mining_wf m -> is_u64 s -> sched_wf 50 ds -> mining_wf (WMining (set_share (wm m) s) ds).
Proof. intros [] Hs []. constructor; cbn; auto. Qed.

Lemma mining_sfo_wf m s :
  mining_wf m -> is_u64 s -> mining_wf (WMining (set_sfo (wm m) s) (wm_diffs m)).
Proof. intros [] Hs. constructor; cbn; auto. Qed.

(** ** Methods *)
Definition dlg_wf (d : dlg) : Prop :=
  match d with Some (Ok m) => mining_wf m | _ => True end.
Definition odlg_wf (d : option wmining) : Prop :=
  match d with Some m => mining_wf m | None => True end.

Lemma delegate_sub_wf now w ts a t d t' d' :
  pool_wf now w -> dlg_wf d -> is_u64 t -> 0 <= a ->
  delegate_sub ts a (wp_ci w) t d = Ok (t', d') -> is_u64 t' /\ odlg_wf d'.
Proof.
  intros Hp Hd Ht Ha H. destruct d as [[m|]|]; cbn in H; inv; cbn; auto.
  cbn in Hd. pose proof (mw_sfo _ Hd). split; [unfold is_u64 in *; lia|].
  eapply refresh_wf; [eassumption| |eassumption].
  apply mining_sfo_wf; [assumption|]. unfold is_u64 in *. lia.
Qed.

Lemma delegate_add_wf now w ts a t d t' d' :
  pool_wf now w -> dlg_wf d -> is_u64 t -> 0 <= a ->
  delegate_add ts a (wp_ci w) t d = Ok (t', d') -> is_u64 t' /\ odlg_wf d'.
Proof.
  intros Hp Hd Ht Ha H. destruct d as [[m|]|]; cbn in H; inv; cbn; auto.
  cbn in Hd. pose proof (mw_sfo _ Hd). split; [unfold is_u64 in *; lia|].
  eapply refresh_wf; [eassumption| |eassumption].
  apply mining_sfo_wf; [assumption|]. unfold is_u64 in *. lia.
Qed.

Lemma multiplier_bounds p : 0 <= multiplier p <= 6.
Proof. destruct p; cbn; lia. Qed.

Lemma end_timestamp_day p ts d : 0 <= ts -> end_timestamp p ts = Ok d -> day_date d.
Proof.
  intros Hts H. pose proof (bod_nonneg ts Hts). pose proof (bod_aligned ts) as Hb. unfold day_date, is_u64, DAY in *.
  destruct p; cbn [end_timestamp] in H; inv; unfold DAY in *;
    (split; [lia|rewrite Z.add_mod, Hb by lia; reflexivity]).
Qed.

Lemma deposit_wf now w ts m a p d w' m' d' :
  0 <= ts -> pool_wf now w -> mining_wf m -> dlg_wf d -> 0 <= a ->
  deposit ts w m a p d = Ok (w', m', d') -> pool_wf now w' /\ mining_wf m' /\ odlg_wf d'.
Proof.
  intros Hts Hp Hm Hd Ha H. unfold deposit in H. inv.
  match goal with H : refresh _ _ _ = Ok _ |- _ => pose proof (refresh_wf _ _ _ _ _ Hp Hm H) as Hm1 end.
  pose proof (multiplier_bounds p) as Hmu.
  assert (is_u64 (a * multiplier p)) by (unfold is_u64; nia).
  assert (is_u64 (a * multiplier p - a * multiplier LFlex)) as Hdiff.
  { cbn [multiplier] in *. unfold is_u64 in *. lia. }
  match goal with H : end_timestamp _ _ = Ok _ |- _ => apply end_timestamp_day in H as Hdate; [|assumption] end.
  match goal with H : add_pool_diff _ _ _ = Ok _ |- _ =>
    apply add_pool_wf in H; [|eapply pool_wf_sched; eassumption|assumption|assumption] end.
  match goal with H : add_mining_diff _ _ _ = Ok _ |- _ =>
    apply add_mining_wf in H; [|apply mining_wf_sched; assumption|assumption|assumption] end.
  match goal with H : delegate_add _ _ _ _ _ = Ok _ |- _ =>
    eapply delegate_add_wf in H as [Ht Hd']; [|eassumption|assumption| |assumption] end.
  - split; [apply pool_stake_wf; assumption|]. split; [|assumption].
    apply mining_stake_wf; [assumption| |assumption].
    pose proof (mw_share _ Hm1). unfold is_u64 in *. lia.
  - pose proof (pw_total _ _ Hp). unfold is_u64 in *. lia.
Qed.

Lemma withdraw_wf now w ts m a d w' m' d' :
  pool_wf now w -> mining_wf m -> dlg_wf d -> 0 <= a ->
  withdraw ts w m a d = Ok (w', m', d') -> pool_wf now w' /\ mining_wf m' /\ odlg_wf d'.
Proof.
  intros Hp Hm Hd Ha H. unfold withdraw in H. inv.
  match goal with H : refresh _ _ _ = Ok _ |- _ => pose proof (refresh_wf _ _ _ _ _ Hp Hm H) as Hm1 end.
  match goal with H : pool_consume _ _ _ = Ok _ |- _ =>
    eapply pool_consume_wf in H as [Hs Ht1]; [|eapply pool_wf_sched; eassumption|] end.
  - match goal with H : delegate_sub _ _ _ _ _ = Ok _ |- _ =>
      eapply delegate_sub_wf in H as [Ht Hd']; [|eassumption|assumption|assumption|assumption] end.
    split; [apply pool_stake_wf; assumption|]. split; [|assumption].
    apply mining_stake_wf; [assumption| |apply mining_wf_sched; assumption].
    pose proof (mw_share _ Hm1). unfold is_u64 in *. lia.
  - pose proof (pw_total _ _ Hp). unfold is_u64 in *. lia.
Qed.

Lemma slash_wf now w ts m n wt dt w' m' :
  pool_wf now w -> mining_wf m -> 0 <= n -> 0 <= wt ->
  slash ts w m n wt dt = Ok (w', m') -> pool_wf now w' /\ mining_wf m'.
Proof.
  intros Hp Hm Hn Hw H. unfold slash in H.
  destruct (withdraw ts w m wt None) as [[[w1 m1] d1]|] eqn:E; cbn [rbind] in H; [|discriminate].
  eapply withdraw_wf in E as (Hp1 & Hm1 & _); [|eassumption..|exact I|assumption].
  destruct dt; cbv zeta in H; inv; [|auto].
  split.
  - match goal with H : modify_diffs (wp_diffs _) _ _ = Ok _ |- _ =>
      eapply modify_wf in H; [|eapply pool_wf_sched; eassumption|lia] end.
    destruct w1 as [p ds ci]. cbn in *.
    assert (Ep : p = set_total p (p_total p)) by (destruct p; reflexivity). rewrite Ep.
    change (pool_wf now (WPool (set_total (wp (WPool p ds ci)) (p_total p)) a1 (wp_ci (WPool p ds ci)))).
    apply pool_stake_wf; [assumption|apply Hp1|assumption].
  - match goal with H : modify_diffs (wm_diffs _) _ _ = Ok _ |- _ =>
      eapply modify_wf in H; [|eapply mining_wf_sched; eassumption|lia] end.
    destruct m1 as [p ds]. cbn in *.
    assert (Ep : p = set_share p (m_share p)) by (destruct p; reflexivity). rewrite Ep.
    change (mining_wf (WMining (set_share (wm (WMining p ds)) (m_share p)) a0)).
    apply mining_stake_wf; [assumption|apply Hm1|assumption].
Qed.

Lemma odlg_dlg_wf d : odlg_wf d -> dlg_wf (match d with None => None | Some x => Some (Ok x) end).
Proof. destruct d; auto. Qed.

Lemma extend_wf now w ts m op np st b a d w' m' d' :
  0 <= ts -> pool_wf now w -> mining_wf m -> dlg_wf d -> 0 <= b -> 0 <= a ->
  extend ts w m op np st b a d = Ok (w', m', d') -> pool_wf now w' /\ mining_wf m' /\ odlg_wf d'.
Proof.
  intros Hts Hp Hm Hd Hb Ha H. unfold extend in H.
  destruct (refresh ts (wp_ci w) m) as [m1|] eqn:E1; cbn [rbind] in H; [|discriminate].
  apply (refresh_wf _ _ _ _ _ Hp Hm) in E1.
  destruct (if lockup_eqb op LFlex then _ else _) as [oe|]; cbn [rbind] in H; [|discriminate].
  destruct (safe_mul64 b _) as [fl|] eqn:Ef; cbn [rbind] in H; [|discriminate].
  match type of H with rbind ?x _ = _ => destruct x as [[m2 t]|] eqn:E2 end; cbn [rbind] in H; [|discriminate].
  destruct (safe_add64 b a) as [am|] eqn:Ea; cbn [rbind] in H; [|discriminate].
  destruct (delegate_sub _ _ _ _ _) as [[t' d1]|] eqn:E3; cbn [rbind] in H; [|discriminate].
  assert (mining_wf m2 /\ is_u64 t) as [Hm2 Ht].
  { pose proof (mw_share _ E1). pose proof (pw_total _ _ Hp). pose proof (multiplier_bounds op).
    destruct (ts <? oe); inv.
    - match goal with H : modify_diffs (wm_diffs _) _ _ = Ok _ |- _ =>
        eapply modify_wf in H; [|eapply mining_wf_sched; eassumption|lia] end.
      split; [apply mining_stake_wf; auto|]; unfold is_u64 in *; nia.
    - split; [apply mining_stake_wf; auto; [|apply mining_wf_sched; assumption]|];
        cbn [multiplier] in *; unfold is_u64 in *; lia. }
  eapply delegate_sub_wf in E3 as [Ht' Hd1]; [|eassumption..].
  inv. eapply deposit_wf in H; eauto; try lia.
  - unfold set_wtotal. apply pool_stake_wf; [assumption|assumption|eapply pool_wf_sched; eassumption].
  - apply odlg_dlg_wf. assumption.
Qed.

Lemma change_wf now w ts m nd od a w' m' od' nd' :
  pool_wf now w -> mining_wf m -> dlg_wf od -> dlg_wf nd -> 0 <= a ->
  change_delegate ts w m nd od a = Ok (w', m', od', nd') ->
  pool_wf now w' /\ mining_wf m' /\ odlg_wf od' /\ odlg_wf nd'.
Proof.
  intros Hp Hm Ho Hn Ha H. unfold change_delegate in H. inv.
  match goal with H : refresh _ _ _ = Ok _ |- _ => pose proof (refresh_wf _ _ _ _ _ Hp Hm H) as Hm1 end.
  match goal with H : delegate_sub _ _ _ _ _ = Ok _ |- _ =>
    eapply delegate_sub_wf in H as [Ht Hd']; [|eassumption|assumption|apply Hp|assumption] end.
  match goal with H : delegate_add _ _ _ _ _ = Ok _ |- _ =>
    eapply delegate_add_wf in H as [Ht2 Hd2]; [|eassumption|assumption|assumption|assumption] end.
  split; [|auto]. unfold set_wtotal.
  apply pool_stake_wf; [assumption|assumption|eapply pool_wf_sched; eassumption].
Qed.

Lemma decrease_loop_wf l : forall d l',
  0 <= d -> decrease_loop d l = Ok l' ->
  map fst l' = map fst l /\ (values is_u64 l -> values is_u64 l').
Proof.
  induction l as [|[k v] r IH]; intros d l' Hd H; cbn in H; inv; [auto|].
  destruct (d <=? v) eqn:E; inv.
  - split; [reflexivity|]. intros Hv k' v' [Hin|Hin].
    + injection Hin as <- <-. specialize (Hv k v (or_introl eq_refl)). unfold is_u64 in *. lia.
    + apply (Hv k'). right. assumption.
  - match goal with H : decrease_loop _ _ = _ |- _ => apply IH in H as [Hm Hv'] end; [|lia].
    cbn. rewrite Hm. split; [reflexivity|]. intros Hv k' v' [Hin|Hin].
    + injection Hin as <- <-. unfold is_u64, U64. lia.
    + eapply Hv'; [|eassumption]. intros k2 v2 H2. apply (Hv k2). right. assumption.
Qed.

(** orders and dates depend only on the keys *)
Lemma ascending_keys t t' : map fst t = map fst t' -> ascending t -> ascending t'.
Proof.
  revert t'. induction t as [|[k v] r IH]; intros [|[k' v'] r'] E H; cbn in E; try discriminate; auto.
  injection E as <- E. destruct H as [H1 H2]. split; [|auto].
  intros k2 v2 Hin. assert (In k2 (map fst r)) as Hin2.
  { rewrite E. apply in_map_iff. exists (k2, v2). auto. }
  apply in_map_iff in Hin2 as ([k3 v3] & <- & Hin2). eapply H1. eassumption.
Qed.
Lemma dates_keys (P : Z -> Prop) t t' : map fst t = map fst t' -> dates P t -> dates P t'.
Proof.
  intros E H k v Hin. assert (In k (map fst t)) as Hin2.
  { rewrite E. apply in_map_iff. exists (k, v). auto. }
  apply in_map_iff in Hin2 as ([k3 v3] & <- & Hin2). eapply H. eassumption.
Qed.

Lemma decrease_wf n m m' : 0 <= n -> mining_wf m -> decrease_rewards n m = Ok m' -> mining_wf m'.
Proof.
  intros Hn Hm H. unfold decrease_rewards in H. destruct (n =? 0); inv; [assumption|].
  destruct (m_share (wm m) <? n) eqn:E; inv.
  match goal with H : decrease_loop _ _ = _ |- _ => apply decrease_loop_wf in H as [Hk Hv]; [|lia] end.
  assert (Hk' : map fst (wm_diffs m) = map fst (rev a0)).
  { rewrite map_rev, Hk, map_rev, rev_involutive. reflexivity. }
  apply mining_stake_wf; [assumption| |].
  - pose proof (mw_share _ Hm). unfold is_u64 in *. lia.
  - destruct Hm. constructor.
    + eapply ascending_keys; eassumption.
    + intros k v Hin. rewrite <- in_rev in Hin. eapply Hv; [|eassumption].
      intros k' v' H'. rewrite <- in_rev in H'. eauto.
    + eapply dates_keys; eassumption.
    + rewrite <- (map_length fst), <- Hk', map_length. assumption.
Qed.

Lemma fill_wf now ts r x w w' :
  0 <= r -> 0 <= x -> pool_wf now w -> fill_pool ts r x w = Ok w' -> pool_wf now w'.
Proof.
  intros Hr Hx Hp H. unfold fill_pool in H. cbv zeta in H. inv.
  pose proof (bod_aligned x) as Hb. unfold DAY in Hb.
  destruct Hp. constructor; cbn; auto; unfold is_u64 in *; try lia.
  match goal with |- (?a + (?b - ?a)) mod _ = 0 => replace (a + (b - a)) with b by lia end. assumption.
Qed.

Lemma distribute_wf now ts r w w' :
  0 <= ts -> now <= ts -> 0 <= r -> pool_wf now w -> distribute ts r w = Ok w' -> pool_wf ts w'.
Proof.
  intros Hts Hnow Hr Hp H. unfold distribute in H. cbv zeta in H. inv.
  match goal with H : pool_consume _ _ _ = Ok _ |- _ =>
    eapply pool_consume_wf in H as [Hs Ht1]; [|eapply pool_wf_sched; eassumption|apply Hp] end.
  apply (pool_wf_mono now ts) in Hp; [|assumption].
  destruct (ohas (bod ts) (wp_ci w)) eqn:Eh; inv.
  - apply pool_stake_wf; assumption.
  - unfold pool_update_index in *. inv. cbn [set_total p_index p_total p_avail] in *.
    pose proof (pw_index _ _ Hp) as Hi. pose proof (pw_avail _ _ Hp) as Hav.
    assert (0 <= PRECISION * r / z).
    { apply Z.div_pos; [unfold PRECISION; nia|]. unfold is_u64 in Ht1. lia. }
    assert (Hd : dates (fun k => k < bod ts) (wp_ci w)).
    { intros k v Hin. pose proof (pw_ci_dates _ _ Hp _ _ Hin) as B. rewrite <- bod_day_start in B.
      apply ohas_false in Eh. assert (k <> bod ts); [|lia].
      intros ->. rewrite oget_none in Eh. eapply Eh. eassumption. }
    set (q := PRECISION * r / z) in *. clearbody q.
    destruct Hp. destruct Hs.
    unfold oinsert. rewrite Eh.
    destruct (Z.ltb_spec (Z.of_nat (length (wp_ci w))) HISTORY_CAP) as [Hl|Hl].
    + rewrite oput_last by assumption.
      constructor; cbn; auto.
      * unfold is_u64 in *. lia.
      * unfold is_u128 in *. lia.
      * apply ascending_app; assumption.
      * apply growing_app; [assumption|lia].
      * rewrite last_app. lia.
      * intros k v Hin. apply in_app_iff in Hin as [Hin|[Hin|[]]]; [eauto|].
        injection Hin as <- <-. apply (bod_aligned ts).
      * intros k v Hin. apply in_app_iff in Hin as [Hin|[Hin|[]]]; [eauto|].
        injection Hin as <- <-. rewrite <- bod_day_start. pose proof (bod_nonneg ts Hts). lia.
      * rewrite app_length. cbn. unfold HISTORY_CAP in Hl. lia.
    + constructor; cbn; auto.
      * unfold is_u64 in *. lia.
      * unfold is_u128 in *. lia.
      * lia.
Qed.

Lemma zero_pool_wf now : 0 <= now -> pool_wf now zero_wpool.
Proof.
  intros H. constructor; cbn; unfold is_u64, is_u128, is_u8, U64, U128, values, dates; cbn; try tauto; try lia.
Qed.
Lemma zero_mining_wf : mining_wf zero_wmining.
Proof.
  constructor; cbn; unfold is_u64, is_u128, is_u8, U64, U128, values, dates; cbn; try tauto; try lia.
Qed.
Lemma init_pool_wf now b a d f m :
  is_u8 b -> pool_wf now (WPool (pool_initialize b a d f m) [] []).
Proof.
  intros Hb. constructor; cbn; unfold is_u64, is_u128, U64, U128, values, dates; cbn; try tauto; try lia.
Qed.
Lemma init_mining_wf p o b : is_u8 b -> mining_wf (WMining (mining_initialize p o b) []).
Proof.
  intros Hb. constructor; cbn; unfold is_u64, is_u128, U64, U128, values, dates; cbn; try tauto; try lia.
Qed.
Lemma claim_wf m : mining_wf m -> mining_wf (WMining (mining_claim (wm m)) (wm_diffs m)).
Proof. intros []. constructor; cbn; auto. unfold is_u64, U64. lia. Qed.
