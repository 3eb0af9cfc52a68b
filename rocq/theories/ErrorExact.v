(** Which error is certain. *)
From stdpp Require Import gmap.
From Verif Require Import Base OMap State Spec EffectSpec Ledger Program LedgerLemmas LedgerSpec CodecLemmas History HistoryLemmas HistoryThms
  SuccessSpec ResLemmas TreeLemmas AccrualLemmas RefreshLemmas WfLemmas CoreSteps EffectLemmas EffectMethods
  SuccessLemmas SuccessMethods ReachThms Clients ClientSpec SuccessThms ErrorSpec ErrorLemmas.

Section env.
Context (e : env) (Henv : env_ok e).

Lemma err_exec ts ms i L x : process e ts ms i L = Err x -> exec e ts ms i L = Err x.
Proof. intros H. unfold exec. rewrite H. reflexivity. Qed.

(** ** The first account not as wanted *)
Definition load_want (ms : list meta) (L : ledger) (w : want) (it : list meta) : res (pubkey * list meta) :=
  match w with
  | OwnedBy o => next_with_owner L o it
  | Signing => next_signer ms it
  | Exactly k => next_with_key k it
  | Blank => next_uninitialized L it
  end.
Lemma load_wrong ms L w m r : ~ meets ms L w (mt_key m) -> load_want ms L w (m :: r) = Err (complaint w).
Proof.
  destruct w; cbn [meets load_want complaint next_with_owner next_signer next_with_key next_uninitialized]; intros H.
  - unfold owner_of in H. rewrite (proj2 (Z.eqb_neq _ _) H). reflexivity.
  - rewrite <- is_signer_ok in H. apply not_true_iff_false in H. rewrite H. reflexivity.
  - rewrite (proj2 (Z.eqb_neq _ _) H). reflexivity.
  - apply not_true_iff_false in H. unfold data_of in H. rewrite H. reflexivity.
Qed.
Lemma load_right ms L w m r : meets ms L w (mt_key m) -> load_want ms L w (m :: r) = Ok (mt_key m, r).
Proof.
  destruct w; cbn [meets load_want next_with_owner next_signer next_with_key next_uninitialized]; intros H.
  - unfold owner_of in H. rewrite H, Z.eqb_refl. reflexivity.
  - rewrite <- is_signer_ok in H. rewrite H. reflexivity.
  - rewrite H, Z.eqb_refl. reflexivity.
  - unfold data_of in H. rewrite H. reflexivity.
Qed.
Lemma load_none ms L w : load_want ms L w [] = Err ENotEnoughKeys.
Proof. destruct w; reflexivity. Qed.

(** the loaders of an instruction, run one after the other *)
Fixpoint load_all (ms : list meta) (L : ledger) (ws : list want) (it : list meta) : option err :=
  match ws with
  | [] => None
  | w :: ws => match load_want ms L w it with Ok (_, r) => load_all ms L ws r | Err x => Some x end
  end.
Lemma loaders_first ts ms i L x : load_all ms L (wants e i) ms = Some x -> process e ts ms i L = Err x.
Proof.
  intros H. destruct i; cbn [wants load_all load_want] in H; cbn [process];
  [unfold process_initialize_pool|unfold process_fill_vault|unfold process_initialize_mining|unfold process_deposit
  |unfold process_withdraw|unfold process_claim|unfold process_extend|unfold process_distribute|unfold process_close
  |unfold process_change_delegate|unfold process_slash|unfold process_decrease].
  all: repeat match goal with
  | H : match ?r with Ok _ => _ | Err _ => _ end = Some _ |- _ =>
      destruct r as [[? ?]|?]; cbn [rbind]; [|injection H as ->; reflexivity]
  end; discriminate H.
Qed.
Lemma load_all_wrong ms L x ws : forall it p w k,
  nth_error ws p = Some w -> account_at it p k -> ~ meets ms L w k ->
  (forall q v, (q < p)%nat -> nth_error ws q = Some v -> exists k', account_at it q k' /\ meets ms L v k') ->
  complaint w = x -> load_all ms L ws it = Some x.
Proof.
  induction ws as [|v ws IH]; intros it p w k Hw Hk Hn Hb Hx; [destruct p; discriminate Hw|].
  destruct it as [|m r]; [destruct p; discriminate Hk|]. destruct p as [|p]; cbn [load_all].
  - injection Hw as ->. injection Hk as <-. rewrite load_wrong by assumption. congruence.
  - destruct (Hb 0%nat v ltac:(lia) eq_refl) as (k' & Hk' & Hm). injection Hk' as <-. rewrite load_right by assumption.
    eapply (IH r p); [exact Hw|exact Hk|exact Hn| |exact Hx]. intros q u Hq Hu. apply (Hb (S q) u ltac:(lia) Hu).
Qed.
Lemma load_all_few ms L ws : forall it,
  (length it < length ws)%nat ->
  (forall q v, (q < length it)%nat -> nth_error ws q = Some v -> exists k', account_at it q k' /\ meets ms L v k') ->
  load_all ms L ws it = Some ENotEnoughKeys.
Proof.
  induction ws as [|v ws IH]; intros it Hl Hb; cbn [length] in Hl; [lia|]. cbn [load_all].
  destruct it as [|m r]; [rewrite load_none; reflexivity|].
  destruct (Hb 0%nat v ltac:(cbn; lia) eq_refl) as (k' & Hk' & Hm). injection Hk' as <-. rewrite load_right by assumption.
  apply IH; [cbn in Hl; lia|]. intros q u Hq Hu. apply (Hb (S q) u ltac:(cbn; lia) Hu).
Qed.

(** ** Methods *)
Lemma fill_past ts r x w : day_start x < day_start ts -> fill_pool ts r x w = Err (ECustom 4).
Proof.
  intros H. unfold fill_pool. cbv zeta. rewrite !bod_day_start, (proj2 (Z.ltb_lt _ _) H). reflexivity.
Qed.
Lemma fill_earlier ts r x w : day_start ts <= day_start x -> day_start x < p_ends_at (wp w) -> fill_pool ts r x w = Err (ECustom 1).
Proof.
  intros H H1. unfold fill_pool. cbv zeta. rewrite !bod_day_start, (proj2 (Z.ltb_ge _ _) H). cbn [negb ensure rbind].
  unfold safe_sub. rewrite (proj2 (Z.leb_gt _ _) H1). reflexivity.
Qed.
Lemma sub_over a b : a < b -> safe_sub a b = Err (ECustom 1).
Proof. intros H. unfold safe_sub. rewrite (proj2 (Z.leb_gt _ _) H). reflexivity. Qed.
Lemma modify_missing t d v : ~ has_date d t -> modify_diffs t d v = Err (ECustom 9).
Proof.
  intros H. unfold modify_diffs. destruct (oget d t) as [y|] eqn:E; [|reflexivity].
  exfalso. apply H. exists y. apply oget_in. exact E.
Qed.

Section refreshed.
Context (now ts : Z) (w : wpool) (m : wmining) (Hp : pool_wf now w) (Hm : mining_wf m) (Hts : 0 <= ts)
        (C : can_refresh ts (wp_ci w) m).
Lemma refresh_some : exists m1, refresh ts (wp_ci w) m = Ok m1 /\ refreshed ts (wp_ci w) m m1.
Proof.
  pose proof (pool_wf_hist _ _ Hp) as Hh. pose proof C as C'. apply refresh_iff in C' as [m1 H]; [|assumption..].
  exists m1. split; [exact H|]. apply refresh_refreshed; [assumption|apply mining_wf_min; assumption|assumption].
Qed.
Lemma deposit_period d : deposit ts w m 0 LNone d = Err (ECustom 3).
Proof.
  destruct refresh_some as (m1 & E & R). unfold deposit. rewrite E. cbn [rbind multiplier].
  change (safe_mul64 0 0) with (Ok 0). change (safe_mul64 0 1) with (Ok 0). cbn [rbind].
  change (safe_sub 0 0) with (Ok 0). cbn [rbind].
  pose proof (pw_total _ _ Hp) as Ht. pose proof (refresh_wf _ _ _ _ _ Hp Hm E) as Hm1. pose proof (mw_share _ Hm1) as Hs.
  unfold is_u64 in Ht, Hs.
  assert (A1 : p_total (wp w) + 0 < U64) by (unfold U64 in *; lia).
  assert (A2 : m_share (wm m1) + 0 < U64) by (unfold U64 in *; lia).
  rewrite (proj2 (safe_add64_ok _ _ _) (conj A1 eq_refl)). cbn [rbind].
  rewrite (proj2 (safe_add64_ok _ _ _) (conj A2 eq_refl)). reflexivity.
Qed.
Lemma deposit_no_period a d : 0 < a < U64 -> deposit ts w m a LNone d = Err (ECustom 1).
Proof.
  intros Ha. destruct refresh_some as (m1 & E & R). unfold deposit. rewrite E. cbn [rbind multiplier].
  rewrite (proj2 (safe_mul64_ok a 0 0)) by (unfold U64 in *; lia). cbn [rbind].
  rewrite (proj2 (safe_mul64_ok a 1 a)) by lia. cbn [rbind]. rewrite sub_over by lia. reflexivity.
Qed.
Lemma extend_old_period np s b a d : extend ts w m LNone np s b a d = Err (ECustom 3).
Proof. destruct refresh_some as (m1 & E & R). unfold extend. rewrite E. reflexivity. Qed.
Lemma extend_missing op np s b a d :
  0 <= b -> op <> LNone -> expiry op s < U64 -> unexpired op s ts = true -> b * weight_of op < U64 ->
  ~ has_date (expiry op s) (wm_diffs m) ->
  extend ts w m op np s b a d = Err (ECustom 9).
Proof.
  intros Hb Hop He Hu Hf Hn. destruct refresh_some as (m1 & E & R). unfold extend. rewrite E. cbn [rbind].
  rewrite unexpired_alt in Hu. apply andb_true_iff in Hu as [Hfl Hu]. apply negb_true_iff in Hfl. rewrite Hfl.
  apply Z.ltb_lt in Hu.
  assert (Ee : end_timestamp op s = Ok (expiry op s)).
  { unfold expiry, end_timestamp in *. rewrite <- bod_day_start in *.
    destruct op; try congruence; unfold plain_add64, DAY; cbn [days_of] in *;
      rewrite (proj2 (Z.ltb_lt _ _)) by lia; f_equal; lia. }
  rewrite Ee. cbn [rbind].
  assert (W : multiplier op = weight_of op) by (destruct op; reflexivity).
  assert (1 <= weight_of op) by (destruct op; cbn; lia || congruence).
  rewrite (proj2 (safe_mul64_ok b (multiplier LFlex) b)) by (cbn [multiplier]; split; [nia|lia]). cbn [rbind].
  rewrite (proj2 (Z.ltb_lt _ _) Hu). rewrite W.
  rewrite (proj2 (safe_mul64_ok b (weight_of op) (b * weight_of op))) by (split; [assumption|reflexivity]). cbn [rbind].
  rewrite (proj2 (safe_sub_ok _ _ (b * weight_of op - b))) by (split; [nia|reflexivity]). cbn [rbind].
  rewrite modify_missing; [reflexivity|]. rewrite (rf_diffs _ _ _ _ R), has_after. tauto.
Qed.
Lemma withdraw_too_much a d : p_total (wp w) < a \/ share_at ts m < a -> withdraw ts w m a d = Err (ECustom 1).
Proof.
  intros H. destruct refresh_some as (m1 & E & R). unfold withdraw. rewrite E. cbn [rbind].
  destruct (Z.lt_ge_cases (p_total (wp w)) a) as [Ht|Ht]; [rewrite sub_over by assumption; reflexivity|].
  rewrite (proj2 (safe_sub_ok _ _ _) (conj Ht eq_refl)). cbn [rbind].
  assert (Hs : m_share (wm m1) = share_at ts m) by apply R. rewrite sub_over by lia. reflexivity.
Qed.
End refreshed.

Lemma slash_missing now ts w m n wt dt :
  pool_wf now w -> mining_wf m -> is_u64 wt -> can_withdraw ts w m wt None -> n <= wt ->
  ~ has_date (day_start dt) (wm_diffs m) \/ day_start dt <= day_start ts \/
  holds_at (day_start dt) (wt - n) (wm_diffs m) /\ ~ has_date (day_start dt) (wp_diffs w) ->
  slash ts w m n wt (Some dt) = Err (ECustom 9).
Proof.
  intros Hp Hm Hx C Hn H. apply (withdraw_iff now ts w m wt None Hp Hm I Hx) in C as [[[w1 m1] d1] E]. cbn [some_dlg] in E.
  unfold slash. rewrite E. cbn [rbind]. cbv zeta.
  apply (withdraw_effect now) in E as ((m0 & R & _ & _ & _ & Em) & _ & _ & Ew & _); [|assumption|assumption|exact I].
  rewrite Em, Ew, (rf_diffs _ _ _ _ R), bod_day_start.
  rewrite (proj2 (safe_sub_ok wt n (wt - n))) by lia. cbn [rbind].
  destruct (Z.le_gt_cases (day_start dt) (day_start ts)) as [Hd|Hd].
  { rewrite modify_missing; [reflexivity|]. rewrite has_after. lia. }
  destruct H as [H|[H|[H1 H2]]]; [|lia|].
  { rewrite modify_missing; [reflexivity|]. rewrite has_after. tauto. }
  assert (Ha : ascending (wm_diffs m)) by apply Hm.
  assert (M : succeeds (rbind (modify_diffs (after (day_start ts) (wm_diffs m)) (day_start dt) (wt - n)) Ok)).
  { apply (modify_bind _ _ _ _ True); [apply ascending_after; assumption|intros; apply ok_ex|]. split; [|exact I].
    apply holds_after; auto. }
  destruct M as [md M]. destruct (modify_diffs (after (day_start ts) (wm_diffs m)) _ _); [|discriminate M]. cbn [rbind].
  rewrite modify_missing; [reflexivity|]. rewrite has_after. tauto.
Qed.

Lemma refresh_conversion ts ci m :
  wm_diffs m = [] -> m_share (wm m) + m_sfo (wm m) < U64 -> m_index (wm m) <= visible ts ci -> hist_ok ci ->
  (visible ts ci - m_index (wm m)) * (m_share (wm m) + m_sfo (wm m)) < U128 ->
  U64 <= (visible ts ci - m_index (wm m)) * (m_share (wm m) + m_sfo (wm m)) / PRECISION ->
  refresh ts ci m = Err (ECustom 5).
Proof.
  intros Hd Hf Hi Hh H1 H2. unfold refresh. rewrite (proj2 (safe_add64_ok _ _ _) (conj Hf eq_refl)). cbn [rbind].
  rewrite Hd. cbn [mining_consume mining_consume_loop rbind remove_dates fold_left].
  unfold mining_update_index. cbv zeta. rewrite (find_lt_visible ts ci 0 (h_asc _ Hh)).
  change (visible_from 0 ts ci) with (visible ts ci).
  rewrite (proj2 (safe_sub_ok _ _ _) (conj Hi eq_refl)). cbn [rbind].
  rewrite (proj2 (safe_mul128_ok _ _ _) (conj H1 eq_refl)). cbn [rbind].
  unfold safe_div at 1. change (PRECISION =? 0) with false. cbv iota. cbn [rbind].
  unfold try_u64. rewrite (proj2 (Z.ltb_ge _ _) H2). reflexivity.
Qed.

(** ** Instructions *)
Ltac load1 :=
  match goal with
  | H : map mt_key ?it = _ :: _ |- context [next_with_owner ?L ?o ?it] =>
      let r := fresh "r" in let E := fresh "E" in
      edestruct (load_owner L o it) as (r & E & ?); [exact H|assumption|rewrite E; clear E; cbn [rbind]]
  | H : map mt_key ?it = _ :: _ |- context [next_signer ?ms ?it] =>
      let r := fresh "r" in let E := fresh "E" in
      edestruct (load_signer ms it) as (r & E & ?); [exact H|assumption|rewrite E; clear E; cbn [rbind]]
  | H : map mt_key ?it = ?k :: _ |- context [next_with_key ?k ?it] =>
      let r := fresh "r" in let E := fresh "E" in
      edestruct (load_key it) as (r & E & ?); [exact H|rewrite E; clear E; cbn [rbind]]
  | H : map mt_key ?it = _ :: _ |- context [next_uninitialized ?L ?it] =>
      let r := fresh "r" in let E := fresh "E" in
      edestruct (load_blank L it) as (r & E & ?); [exact H|assumption|rewrite E; clear E; cbn [rbind]]
  end.
Ltac loads := repeat load1.
Ltac stake_in :=
  match goal with
  | Ha : accounts_are _ _, Hc : stake_accounts _ _ _ _ _ _ _ _ _, Hd : checked_delegate _ _ _ _ _ _ _, HL : ledger_ok _ _ _ |- _ =>
      let rest := fresh "rest" in
      destruct Ha as [rest Ha]; cbn [app process] in *; pose proof (get_ok e _ _ _ _ _ _ _ _ Hc) as [Hmp Hg];
      destruct Hc as [Hw Hm _ Sa _ _ _]; pose proof (part_owner e _ _ _ _ _ Hm (proj1 Hd)) as Hdo;
      pose proof (checked_ok e _ _ _ _ _ _ _ _ Hm Hw Hd) as Hv;
      pose proof (ok_pool e _ _ _ _ HL (proj1 Hw) (proj2 Hw)) as Hww; pose proof (ok_mining e _ _ _ _ HL (proj1 Hm) (proj2 Hm)) as Hmw;
      pose proof (proj1 Hw) as Ho; pose proof (proj1 Hm) as Hmo; match goal with H : 0 <= _ <= ?t |- _ => assert (Ht0 : 0 <= t) by lia end
  end.
Ltac prelude :=
  rewrite distinct_intro by assumption; cbn [rbind];
  match goal with Hg : assert_and_get _ _ _ _ _ _ = _ |- _ => rewrite Hg end; cbn [rbind];
  match goal with Hv : verify_opt _ _ _ _ _ _ = _ |- _ => rewrite Hv end; cbn [rbind].
Ltac penalty_in :=
  match goal with
  | Ha : accounts_are _ _, Hc : stake_accounts _ _ _ _ _ _ _ _ _, HL : ledger_ok _ _ _ |- _ =>
      let rest := fresh "rest" in
      destruct Ha as [rest Ha]; cbn [app process] in *; pose proof (get_ok e _ _ _ _ _ _ _ _ Hc) as [Hmp Hg];
      destruct Hc as [Hw Hm _ Sa _ _ _];
      pose proof (ok_pool e _ _ _ _ HL (proj1 Hw) (proj2 Hw)) as Hww; pose proof (ok_mining e _ _ _ _ HL (proj1 Hm) (proj2 Hm)) as Hmw;
      pose proof (proj1 Hw) as Ho; pose proof (proj1 Hm) as Hmo; match goal with H : 0 <= _ <= ?t |- _ => assert (Ht0 : 0 <= t) by lia end
  end.
Ltac close_in :=
  match goal with
  | Ha : accounts_are _ _, Hp : is_pool _ _ _ ?w, Hmi : is_mining _ _ _ ?m, HL : ledger_ok _ _ _, C : can_refresh _ _ _ |- _ =>
      let rest := fresh "rest" in
      destruct Ha as [rest Ha]; cbn [app process] in *; pose proof (pool_not_mining e _ _ _ _ _ Hp Hmi) as Hne;
      destruct Hp as [Ho Hw], Hmi as [Hmio Hm];
      pose proof (ok_pool e _ _ _ _ HL Ho Hw) as Hww; pose proof (ok_mining e _ _ _ _ HL Hmio Hm) as Hmw;
      destruct (refresh_some _ _ _ _ Hww Hmw C) as (m1 & Hr & R);
      unfold process_close; loads; unfold data_of in *; rewrite Hw; cbn [load_pool rbind];
      match goal with H : p_deposit_auth _ = _ |- _ => rewrite H end; rewrite key_ok; cbn [rbind];
      rewrite distinct_intro by assumption; cbn [rbind]; rewrite Hm; cbn [load_mining rbind];
      match goal with H : m_owner _ = _ |- _ => rewrite H end; rewrite key_ok; cbn [rbind];
      rewrite Hr; cbn [rbind]
  end.
Lemma process_returns now ts ms i L x :
  ledger_ok e now L -> 0 <= now <= ts -> ix_in_range i -> returns e ts ms L i x -> process e ts ms i L = Err x.
Proof.
  intros HL Hts Hi R. destruct R.
  - apply loaders_first. eapply load_all_wrong; eauto.
  - apply loaders_first. apply load_all_few; assumption.
  - destruct H as [rest Ha], H0 as [Ho Hw]. cbn [app process] in *. unfold process_initialize_pool. loads.
    unfold data_of in Hw. rewrite Hw. cbn [data_len load_pool rbind ensure].
    change (POOL_LEN =? POOL_LEN) with true. cbn [ensure rbind]. unfold pool_is_initialized. rewrite H5. reflexivity.
  - destruct H as [rest Ha]. cbn [app process] in *. unfold process_fill_vault. loads. reflexivity.
  - destruct H as [rest Ha], H0 as [Ho Hw]. cbn [app process] in *. unfold process_fill_vault. loads.
    rewrite (proj2 (Z.eqb_neq r 0)) by assumption. cbn [negb ensure rbind].
    unfold data_of in Hw. rewrite Hw. cbn [load_pool rbind]. rewrite H5, key_ok. cbn [rbind]. rewrite H6. cbn [pda rbind]. rewrite key_ok. cbn [rbind].
    rewrite fill_past by assumption. reflexivity.
  - destruct H as [rest Ha], H0 as [Ho Hw]. cbn [app process] in *. unfold process_fill_vault. loads.
    rewrite (proj2 (Z.eqb_neq r 0)) by assumption. cbn [negb ensure rbind].
    unfold data_of in Hw. rewrite Hw. cbn [load_pool rbind]. rewrite H5, key_ok. cbn [rbind]. rewrite H6. cbn [pda rbind]. rewrite key_ok. cbn [rbind].
    rewrite fill_earlier by assumption. reflexivity.
  - destruct H as [rest Ha], H0 as [Ho Hw]. cbn [app process] in *. unfold process_distribute. loads.
    pose proof (rewards_exact ts (wp w) (pw_avail _ _ (ok_pool e _ _ _ _ HL Ho Hw))) as Hr.
    unfold data_of in Hw. rewrite Hw. cbn [load_pool rbind]. rewrite Hr. cbn [rbind]. rewrite H2, key_ok. cbn [rbind].
    unfold distribute. rewrite H3. reflexivity.
  - destruct H as [rest Ha], H0 as [Ho Hw]. cbn [app process] in *. unfold process_distribute. loads.
    pose proof (ok_pool e _ _ _ _ HL Ho Hw) as Hww. pose proof (rewards_exact ts (wp w) (pw_avail _ _ Hww)) as Hr.
    unfold data_of in Hw. rewrite Hw. cbn [load_pool rbind]. rewrite Hr. cbn [rbind]. rewrite H2, key_ok. cbn [rbind].
    unfold distribute. rewrite (proj2 (Z.eqb_neq _ 0)) by assumption. cbn [negb ensure rbind]. cbv zeta.
    destruct (pool_consume (bod ts) (p_total (wp w)) (wp_diffs w)) as [[t' ds]|er] eqn:Ec.
    + exfalso. pose proof Ec as Ec1. apply pool_consume_ok in Ec as [Ec _]; [|apply Hww].
      apply (pool_consume_wf 365) in Ec1 as [_ Ec1]; [|apply (pool_wf_sched now); assumption|apply Hww].
      unfold is_u64 in Ec1. rewrite bod_day_start in Ec. lia.
    + apply pool_consume_err in Ec as ->. reflexivity.
  - destruct H as (pool & mining & auth & dm & owner & wallet & Es & Ha & Hc & Hd). injection Es as <- <-. stake_in.
    unfold process_deposit. loads. prelude. rewrite (deposit_period now) by assumption. reflexivity.
  - destruct H as (pool & mining & auth & dm & owner & wallet & Es & Ha & Hc & Hd). injection Es as <- <-. stake_in.
    unfold process_deposit. loads. prelude. rewrite (deposit_no_period now) by (first [assumption|destruct Hi as [[? ?] _]; lia]). reflexivity.
  - destruct H as (pool & mining & auth & dm & owner & wallet & Es & Ha & Hc & Hd). injection Es as <- <-. stake_in.
    unfold process_extend. loads. prelude. rewrite (extend_old_period now) by assumption. reflexivity.
  - destruct H as (pool & mining & auth & dm & owner & wallet & Es & Ha & Hc & Hd). injection Es as <- <-. stake_in.
    unfold process_extend. loads. prelude. rewrite (extend_missing now) by (first [assumption|apply Hi]). reflexivity.
  - destruct H as (pool & mining & auth & dm & owner & wallet & Es & Ha & Hc & Hd). injection Es as <- <-. stake_in.
    unfold process_withdraw. loads. prelude. rewrite (withdraw_too_much now) by assumption. reflexivity.
  - destruct H as (auth & pool & mining & Ha & Hc). penalty_in.
    unfold process_slash. loads. rewrite distinct_intro by assumption. cbn [rbind]. rewrite Hg. cbn [rbind].
    rewrite (slash_missing now) by (first [assumption|apply Hi]). reflexivity.
  - destruct H as (auth & pool & mining & Ha & Hc). penalty_in.
    unfold process_decrease. loads. rewrite distinct_intro by assumption. cbn [rbind]. rewrite Hg. cbn [rbind].
    unfold decrease_rewards. pose proof (mw_share _ Hmw) as Hs. unfold is_u64 in Hs.
    rewrite (proj2 (Z.eqb_neq n 0)) by lia. rewrite (proj2 (Z.ltb_lt _ _)) by assumption. reflexivity.
  - destruct H as (mining & owner & target & auth & pool & Ha & Hp & Hmi & Hto & So & Sa & Hau & Hmow). close_in.
    rewrite <- (rf_sfo _ _ _ _ R) in H1. pose proof (mw_sfo _ (refresh_wf _ _ _ _ _ Hww Hmw Hr)) as Hs. unfold is_u64 in Hs.
    rewrite (proj2 (Z.ltb_lt 0 _)) by lia. reflexivity.
  - destruct H as (mining & owner & target & auth & pool & Ha & Hp & Hmi & Hto & So & Sa & Hau & Hmow). close_in.
    rewrite <- (rf_sfo _ _ _ _ R) in H1. rewrite H1. cbn [Z.ltb Z.compare negb ensure rbind].
    replace (tokens_at ts (wp_ci w) m) with (m_unclaimed (wm m1)) in H2 by apply R.
    rewrite (proj2 (Z.eqb_neq _ 0)) by assumption. reflexivity.
  - destruct H as [rest Ha]. cbn [app process] in *. unfold process_change_delegate. loads. rewrite Z.eqb_refl. reflexivity.
  - pose proof (get_ok e _ _ _ _ _ _ _ _ H1) as [Hmp Hg]. pose proof H1 as [Hw Hm _ Sa _ _ _].
    pose proof (pool_not_mining e _ _ _ _ _ Hw H2) as Hdp. destruct H0 as [rest Ha], H2 as [Hdo Hx].
    pose proof (proj1 Hw) as Ho. pose proof (proj1 Hm) as Hmo.
    assert (Hv : verify_opt e L dm mining wallet pool = Err (ECustom 13)).
    { unfold verify_opt. rewrite (proj2 (Z.eqb_neq mining dm)) by congruence. unfold verify_delegate.
      rewrite distinct_intro by assumption. cbn [rbind]. unfold data_of in Hx. rewrite Hx. cbn [load_mining rbind].
      rewrite H4, (proj2 (Z.eqb_neq dm k)) by congruence. reflexivity. }
    cbn [app] in Ha. destruct i; try discriminate H; injection H as -> ->; cbn [process];
      [unfold process_deposit|unfold process_withdraw|unfold process_extend]; loads;
      rewrite distinct_intro by assumption; cbn [rbind]; rewrite Hg; cbn [rbind]; rewrite Hv; reflexivity.
  - pose proof (get_ok e _ _ _ _ _ _ _ _ H1) as [Hmp Hg]. pose proof H1 as [Hw Hm _ Sa _ _ _].
    pose proof (pool_not_mining e _ _ _ _ _ Hw H2) as Hdp. destruct H0 as [rest Ha], H2 as [Hdo Hx].
    pose proof (proj1 Hw) as Ho. pose proof (proj1 Hm) as Hmo.
    assert (Hv : verify_opt e L dm mining wallet pool = Err (ECustom 14)).
    { unfold verify_opt. rewrite (proj2 (Z.eqb_neq mining dm)) by congruence. unfold verify_delegate.
      rewrite distinct_intro by assumption. cbn [rbind]. unfold data_of in Hx. rewrite Hx. cbn [load_mining rbind].
      rewrite H4. reflexivity. }
    cbn [app] in Ha. destruct i; try discriminate H; injection H as -> ->; cbn [process];
      [unfold process_deposit|unfold process_withdraw|unfold process_extend]; loads;
      rewrite distinct_intro by assumption; cbn [rbind]; rewrite Hg; cbn [rbind]; rewrite Hv; reflexivity.
  - pose proof (get_ok e _ _ _ _ _ _ _ _ H0) as [Hmp Hg]. pose proof H0 as [Hw Hm _ Sa _ _ _].
    pose proof (pool_not_mining e _ _ _ _ _ Hw H3) as Hdp. destruct H as [rest Ha], H3 as [Hdo Hx].
    pose proof (proj1 Hw) as Ho. pose proof (proj1 Hm) as Hmo.
    assert (Hv : verify_opt e L nd mining wallet pool = Err (ECustom 13)).
    { unfold verify_opt. rewrite (proj2 (Z.eqb_neq mining nd)) by congruence. unfold verify_delegate.
      rewrite distinct_intro by assumption. cbn [rbind]. unfold data_of in Hx. rewrite Hx. cbn [load_mining rbind].
      rewrite H6, (proj2 (Z.eqb_neq nd k)) by congruence. reflexivity. }
    cbn [app process] in *. unfold process_change_delegate. loads. rewrite (proj2 (Z.eqb_neq nd od)) by congruence. cbn [negb ensure rbind].
    rewrite distinct_intro by assumption. cbn [rbind]. rewrite Hg. cbn [rbind]. rewrite Hv. reflexivity.
  - destruct H0 as [rest Ha]. cbn [app] in Ha.
    assert (Hg : assert_and_get e L owner mining pool auth = Err EPanic).
    { unfold assert_and_get, data_of in *. rewrite H6. cbn [load_mining data_len].
      rewrite (proj2 (Z.ltb_lt n _)) by assumption. reflexivity. }
    destruct i; try discriminate H; injection H as -> ->; cbn [process];
      [unfold process_deposit|unfold process_withdraw|unfold process_extend]; loads;
      rewrite distinct_intro by assumption; cbn [rbind]; rewrite Hg; reflexivity.
  - destruct H as [rest Ha]. cbn [app process] in *. unfold process_distribute. loads. unfold data_of in *.
    destruct H2 as [[m ->]|[-> Hn]]; [reflexivity|]. cbn [load_pool data_len].
    rewrite (proj2 (Z.ltb_lt n _)) by assumption. reflexivity.
  - destruct H as (pool & mint & vault & mining & owner & auth & dest & t & Ha & Hp & Hmi & Hmo & Hv & Hdo & Hdd & Hto & So & Sa & Hau & Hmow & Hmp & Hc).
    destruct Ha as [rest Ha]. cbn [app process] in *. pose proof (pool_not_mining e _ _ _ _ _ Hp Hmi) as Hne.
    destruct Hp as [Ho Hw], Hmi as [Hmio Hm]. pose proof (pool_wf_hist _ _ (ok_pool e _ _ _ _ HL Ho Hw)) as Hh.
    unfold process_claim. loads. unfold data_of in *. rewrite Hdd. cbn [load_token rbind]. rewrite Hto, key_ok. cbn [rbind]. rewrite Hw. cbn [load_pool rbind].
    rewrite Hau, key_ok. cbn [rbind]. rewrite distinct_intro by assumption. cbn [rbind]. rewrite Hm. cbn [load_mining rbind]. rewrite Hmow, key_ok. cbn [rbind].
    rewrite Hmp, key_ok. cbn [rbind]. rewrite Hc. cbn [pda rbind]. rewrite key_ok. cbn [rbind].
    rewrite refresh_conversion by assumption. reflexivity.
Qed.

Lemma exec_returns now ts ms i L x :
  reached e now L -> now <= ts -> ix_in_range i -> returns e ts ms L i x -> exec e ts ms i L = Err x.
Proof.
  intros HR Hts Hi H. destruct (reached_ok e Henv _ _ HR) as (HL & _ & Hn). apply err_exec.
  eapply process_returns; [exact HL|lia|exact Hi|exact H].
Qed.
End env.
