(** Proofs of C60: what lowers the tokens a mining stands for. *)
From stdpp Require Import gmap.
From Verif Require Import Base OMap State Spec Ledger Program ResLemmas TreeLemmas AccrualLemmas RefreshLemmas LedgerLemmas LedgerSpec
  FrameLemmas CodecLemmas WfLemmas History HistoryLemmas Changes AccessLemmas HistoryThms ReachThms Core CoreInv Dust LedgerView LedgerCore
  EffectSpec EffectLemmas EffectMethods EffectCompare SuccessSpec SuccessLemmas CoreSteps PowerSpec Powers Commute CommuteSpec LedgerCoreThms Leave Plain WorthSpec.

(** ** The passing of time and further distributions *)
Lemma day_before k t : k mod 86400 = 0 -> k < t -> k <= day_start t.
Proof.
  intros Hk Hlt. unfold day_start. pose proof (Z.div_mod k 86400 ltac:(lia)) as E. rewrite Hk, Z.add_0_r in E.
  assert (k / 86400 <= t / 86400) by (apply Z.div_le_mono; lia). lia.
Qed.
Lemma visible_day prev t d ci :
  growing prev ci -> dates (fun k => k mod 86400 = 0) ci -> day_start t < d -> visible_from prev t ci <= visible_from prev d ci.
Proof.
  revert prev. induction ci as [|[k i] r IH]; intros prev Hg Hd Hlt; cbn [visible_from]; [lia|].
  destruct Hg as [H1 H2]. destruct (Z.ltb_spec k t).
  - pose proof (day_before k t (Hd k i (or_introl eq_refl)) ltac:(assumption)).
    rewrite (proj2 (Z.ltb_lt k d)) by lia. apply IH; [assumption| |assumption].
    intros ? ? ?. eapply Hd. right. eassumption.
  - destruct (k <? d); [|lia]. pose proof (visible_bounds i d r H2). lia.
Qed.
Lemma visible_app prev d ci more : growing prev (ci ++ more) -> visible_from prev d ci <= visible_from prev d (ci ++ more).
Proof.
  revert prev. induction ci as [|[k i] r IH]; intros prev Hg; cbn [app visible_from] in *.
  - pose proof (visible_bounds prev d more Hg). lia.
  - destruct Hg as [_ Hg]. destruct (k <? d); [apply IH; assumption|lia].
Qed.
Lemma growing_prefix prev ci more : growing prev (ci ++ more) -> growing prev ci.
Proof.
  revert prev. induction ci as [|[k i] r IH]; intros prev H; [exact I|]. destruct H as [H1 H2]. split; [assumption|auto].
Qed.

Lemma tokens_later t1 t2 ci more m :
  t1 <= t2 -> growing 0 (ci ++ more) -> dates (fun k => k mod 86400 = 0) ci ->
  dates (fun k => day_start t1 <= k) more -> min_ok m ->
  can_refresh t2 (ci ++ more) m -> tokens_at t1 ci m <= tokens_at t2 (ci ++ more) m.
Proof.
  intros Ht Hg Hal Hmore Hm C. pose proof (growing_prefix _ _ _ Hg) as Hg1. unfold tokens_at.
  set (l1 := upto (day_start t1) (wm_diffs m)).
  assert (Hda : day_start t1 <= day_start t2) by (rewrite <- !bod_day_start; apply bod_mono; assumption).
  pose proof (day_start_le t2) as Hd2.
  set (l2 := upto (day_start t2) (Spec.after (day_start t1) (wm_diffs m))).
  assert (Es : upto (day_start t2) (wm_diffs m) = l1 ++ l2).
  { rewrite (upto_after_split (day_start t1) (wm_diffs m) (mo_asc _ Hm)) at 1. rewrite upto_app. f_equal.
    apply upto_all. intros d v Hin. apply in_upto in Hin as [_ Hin]. lia. }
  rewrite Es.
  pose proof (earned_path ci (ci ++ more) t1 t2 l2 l1 (m_share (wm m) + m_sfo (wm m)) (m_index (wm m))) as H.
  assert (Hd1 : dates (fun d => visible d ci = visible d (ci ++ more)) l1).
  { intros d v Hin. apply in_upto in Hin as [_ Hin]. unfold visible. symmetry. apply visible_app_later.
    intros k i Hk. apply Hmore in Hk. lia. }
  specialize (H Hd1).
  assert (0 <= earned (ci ++ more) (m_share (wm m) + m_sfo (wm m) - total l1) (visible t1 ci) l2 t2); [|lia].
  apply earned_nonneg; [assumption| | | | |].
  - apply ascending_upto. apply ascending_after. apply Hm.
  - etransitivity; [apply (visible_mono 0 t1 t2); assumption|apply visible_app; assumption].
  - intros d v Hin. apply in_upto in Hin as [Hin Hle]. apply filter_In in Hin as [Hin Hlt].
    cbn [fst] in Hlt. apply Z.ltb_lt in Hlt. split; [|lia].
    etransitivity; [apply (visible_day 0 t1 d); assumption|apply visible_app; assumption].
  - intros d v Hin. apply in_upto in Hin as [Hin _]. apply filter_In in Hin as [Hin _]. exact (mo_vals _ Hm d v Hin).
  - pose proof (cr_due _ _ _ C) as Hdue. pose proof (mo_sfo _ Hm).
    rewrite <- total_upto, Es, total_app in Hdue. lia.
Qed.

(** ** Minings brought up to date *)
(** [m'] is up to date at [ts] *)
Definition current (ts : Z) (ci : sched) (m' : wmining) : Prop :=
  m_index (wm m') = visible ts ci /\ dates (fun d => day_start ts < d) (wm_diffs m').

Lemma current_tokens ts ci m' : current ts ci m' -> tokens_at ts ci m' = m_unclaimed (wm m').
Proof.
  intros [E D]. unfold tokens_at. rewrite upto_none by exact D. cbn [earned]. rewrite E, Z.sub_diag, Z.mul_0_l, Z.div_0_l by discriminate. lia.
Qed.
Lemma dates_after b t : dates (fun d => b < d) (Spec.after b t).
Proof. intros d v Hin. apply filter_In in Hin as [_ Hin]. apply Z.ltb_lt in Hin. exact Hin. Qed.
Lemma refreshed_current ts ci m m' : refreshed ts ci m m' -> current ts ci m' /\ m_unclaimed (wm m') = tokens_at ts ci m.
Proof.
  intros R. split; [split|].
  - apply R.
  - rewrite (rf_diffs _ _ _ _ R). apply dates_after.
  - apply R.
Qed.
Lemma scheduled_dates (Q : Z -> Prop) cap d x t t' :
  scheduled cap d x t t' -> dates Q t -> Q d -> dates Q t'.
Proof.
  intros [A B] Ht Hd k v Hin.
  assert (C : has_date d t \/ Z.of_nat (length t) < cap \/ t' = t).
  { destruct (in_dec Z.eq_dec d (map fst t)) as [Hi|Hi].
    - left. apply in_map_iff in Hi as ([a b] & <- & Hi). exists b. exact Hi.
    - right. destruct (Z_lt_ge_dec (Z.of_nat (length t)) cap); [left; assumption|right]. apply B; [|lia].
      intros [y Hy]. apply Hi. apply in_map_iff. exists (d, y). auto. }
  assert (has_date d t \/ Z.of_nat (length t) < cap \/ t' = t) as [C1|[C1| ->]] by exact C; [| |eapply Ht; eassumption].
  - destruct (A (or_introl C1)) as [_ A2]. destruct (proj1 (A2 k) (ex_intro _ v Hin)) as [[y Hy]| ->]; [eapply Ht; eassumption|assumption].
  - destruct (A (or_intror C1)) as [_ A2]. destruct (proj1 (A2 k) (ex_intro _ v Hin)) as [[y Hy]| ->]; [eapply Ht; eassumption|assumption].
Qed.
Lemma keys_dates (Q : Z -> Prop) (t t' : sched) : map fst t' = map fst t -> dates Q t -> dates Q t'.
Proof.
  intros E Ht k v Hin. apply (in_map fst) in Hin. rewrite E in Hin. apply in_map_iff in Hin as ([a b] & Ea & Hin).
  cbn in Ea. subst a. eapply Ht; eassumption.
Qed.
Lemma expiry_later p ts : p <> LNone -> day_start ts < expiry p ts.
Proof. unfold expiry. destruct p; cbn; intros; try contradiction; lia. Qed.

(** [m'] is up to date and stands for the same *)
Definition settled (ts : Z) (ci : sched) (m m' : wmining) : Prop :=
  current ts ci m' /\ m_unclaimed (wm m') = tokens_at ts ci m.
(** ... or for more *)
Definition gained (ts : Z) (ci : sched) (m m' : wmining) : Prop :=
  current ts ci m' /\ tokens_at ts ci m <= m_unclaimed (wm m').

Lemma only_stake_settled ts ci m m1 m' :
  refreshed ts ci m m1 -> only_stake m1 m' -> dates (fun d => day_start ts < d) (wm_diffs m') -> settled ts ci m m'.
Proof.
  intros R (_ & Hi & Hu & _) Hd. apply refreshed_current in R as [[Ri _] Ru].
  split; [split; [congruence|assumption]|congruence].
Qed.

Lemma joined_gains ts ci a x x' :
  growing 0 ci -> min_ok x -> 0 <= a -> can_refresh ts ci x ->
  refreshed ts ci (with_delegated x (m_sfo (wm x) + a)) x' -> gained ts ci x x'.
Proof.
  intros Hg Hx Ha C R. apply refreshed_current in R as [Rc Ru]. split; [assumption|]. rewrite Ru.
  unfold tokens_at, with_delegated. cbn [wm wm_diffs m_share m_sfo m_index m_unclaimed]. apply Zplus_le_compat_l. apply earned_mono.
  - assumption.
  - apply ascending_upto. apply Hx.
  - reflexivity.
  - apply C.
  - intros d v Hin. apply in_upto in Hin as [Hin Hle]. pose proof (cr_first _ _ _ C d v Hin Hle).
    pose proof (day_start_le ts). split; [assumption|lia].
  - intros d. set (q := due d _). lia.
Qed.

Section methods.
Context (now ts : Z) (w : wpool) (Hw : pool_wf now w).
Lemma deposit_settled m a p d w' m' d' :
  mining_wf m -> dlg_wf d -> 0 <= a -> deposit ts w m a p d = Ok (w', m', d') ->
  settled ts (wp_ci w) m m' /\
  (forall x x', d = Some (Ok x) -> d' = Some x' -> can_refresh ts (wp_ci w) x -> gained ts (wp_ci w) x x').
Proof.
  intros Hm Hd Ha H. eapply deposit_effect in H as (Hp & (m1 & R & O & _ & S) & _ & _ & _ & Dm); [|eassumption..].
  split.
  - eapply only_stake_settled; [exact R|exact O|]. eapply scheduled_dates; [exact S| |apply expiry_later; exact Hp].
    rewrite (rf_diffs _ _ _ _ R). apply dates_after.
  - intros x x' -> -> C. cbn in Dm, Hd. destruct Dm as [_ Dm].
    eapply joined_gains; [apply (pool_wf_hist _ _ Hw)|apply mining_wf_min; exact Hd|exact Ha|exact C|exact Dm].
Qed.
Lemma withdraw_settled m a d w' m' d' :
  mining_wf m -> dlg_wf d -> withdraw ts w m a d = Ok (w', m', d') -> settled ts (wp_ci w) m m'.
Proof.
  intros Hm Hd H. eapply withdraw_effect in H as ((m1 & R & O & _ & _ & E) & _); [|eassumption..].
  eapply only_stake_settled; [exact R|exact O|]. rewrite E, (rf_diffs _ _ _ _ R). apply dates_after.
Qed.
Lemma slash_settled m n wt dt w' m' :
  mining_wf m -> 0 <= n -> 0 <= wt -> slash ts w m n wt dt = Ok (w', m') -> settled ts (wp_ci w) m m'.
Proof.
  intros Hm Hn Hwt H. eapply slash_effect in H as (m1 & R & O & _ & _ & _ & _ & E); [|eassumption..].
  eapply only_stake_settled; [exact R|exact O|]. destruct dt as [x|].
  - destruct E as (_ & (_ & _ & E & _) & _). eapply keys_dates; [exact E|]. rewrite (rf_diffs _ _ _ _ R). apply dates_after.
  - destruct E as [E _]. rewrite E, (rf_diffs _ _ _ _ R). apply dates_after.
Qed.
Lemma extend_settled m op np st b a d w' m' d' :
  0 <= ts -> mining_wf m -> dlg_wf d -> 0 <= b -> 0 <= a ->
  extend ts w m op np st b a d = Ok (w', m', d') -> settled ts (wp_ci w) m m'.
Proof.
  intros Hts Hm Hd Hb Ha H. eapply extend_effect in H as (_ & Hnp & (m1 & t & R & O & _ & _ & E & S) & _); [|eassumption..].
  eapply only_stake_settled; [exact R|exact O|]. eapply scheduled_dates; [exact S| |apply expiry_later; exact Hnp].
  destruct (unexpired op st ts).
  - destruct E as (_ & _ & E & _). eapply keys_dates; [exact E|]. rewrite (rf_diffs _ _ _ _ R). apply dates_after.
  - rewrite E, (rf_diffs _ _ _ _ R). apply dates_after.
Qed.
Lemma change_settled m nd od a w' m' od' nd' :
  mining_wf m -> dlg_wf od -> dlg_wf nd -> 0 <= a ->
  change_delegate ts w m nd od a = Ok (w', m', od', nd') ->
  settled ts (wp_ci w) m m' /\
  (forall x x', nd = Some (Ok x) -> nd' = Some x' -> can_refresh ts (wp_ci w) x -> gained ts (wp_ci w) x x').
Proof.
  intros Hm Ho Hd Ha H. eapply change_effect in H as (R & _ & _ & _ & _ & Dm); [|eassumption..].
  split; [apply refreshed_current; exact R|].
  intros x x' -> -> C. cbn in Dm, Hd. destruct Dm as [_ Dm].
  eapply joined_gains; [apply (pool_wf_hist _ _ Hw)|apply mining_wf_min; exact Hd|exact Ha|exact C|exact Dm].
Qed.
End methods.

(** the last value written at [k], if it was written *)
Ltac written H k :=
  cbn [put_dlg] in H; chase H k; unfold put_data, put_lamports in H; rewrite ?acc_insert in H; cbn [a_data] in H;
  unfold data_of, owner_of in *;
  try congruence;
  try (match goal with A : a_data (acc ?L k) = DMining ?x, B : a_data (acc ?L k) = DMining ?y |- _ =>
         assert (x = y) by congruence; subst; clear A end);
  try (match goal with A : a_data (acc ?L ?p) = DPool ?x, B : a_data (acc ?L ?p) = DPool ?y |- _ =>
         assert (x = y) by congruence; subst; clear A end);
  try (injection H as <-).

(** [k] is given delegated stake *)
Definition joins (k : pubkey) (ms : list meta) (i : ix) : Prop :=
  match i with
  | DepositMining _ _ _ _ => account_at ms 3 k /\ ~ account_at ms 1 k
  | ChangeDelegate _ _ => account_at ms 5 k /\ ~ account_at ms 1 k
  | _ => False
  end.

Section env.
Context (e : env) (Henv : env_ok e) (Hinj : env_inj e).

Lemma dlg_at L dm mining x : dm <> mining -> data_of L dm = DMining x -> dlg_of L dm mining = Some (Ok x).
Proof.
  intros Hne Hd. unfold dlg_of. destruct (Z.eqb_spec mining dm); [congruence|].
  unfold data_of in Hd. rewrite Hd. reflexivity.
Qed.

Lemma exec_worth now ts ms i L L' r k m m' w :
  0 <= now -> now <= ts -> is_u64 ts -> ix_in_range i -> ledger_ok e now L -> addresses_ok e L ->
  exec e ts ms i L = Ok (L', r) -> spares k ms i ->
  is_mining e L k m -> m_type (wm m) = TYPE_MINING -> is_pool e L (m_pool (wm m)) w ->
  can_refresh ts (wp_ci w) m -> is_mining e L' k m' ->
  m' = m \/ i <> DistributeRewards /\ (settled ts (wp_ci w) m m' \/ gained ts (wp_ci w) m m' /\ joins k ms i).
Proof.
  intros Hn Hts Hu Hr HL HA X Hsp [Ho Hd] Hty [Po Pd] C [Ho' Hd'].
  destruct (decide (acc L' k = acc L k)) as [E|Hc].
  { left. unfold data_of in *. rewrite E, Hd in Hd'. congruence. }
  apply exec_inv in X as [H _].
  pose proof (eo_sys _ Henv). pose proof (eo_tok _ Henv). pose proof (eo_toksys _ Henv).
  assert (HL2 : ledger_ok e ts L) by (eapply ledger_ok_mono; eassumption).
  unfold data_of in Hd'.
  destruct i; cbn [process ix_in_range spares joins] in *; unfold is_u64 in Hr; try (apply no_ret_ok in H as [H _]).
  - left. apply init_pool_inv in H as (pool & mint & vault & payer & auth & bump & w0 & L1 & L2 & A & _ & _ & _ & _ & _ & _ & _ & _ & _ & _ & Hcr & Ha & ->).
    apply create_account_inv in Hcr as (_ & _ & _ & _ & Hv & _ & Hf & _ & _ & _ & ->).
    apply initialize_account_inv in Ha as (_ & _ & _ & ->).
    written Hd' k.
  - left. apply fill_inv in H as (pool & mint & vault & auth & src & w0 & w' & A & _ & _ & Hv & Hs & _ & _ & _ & _ & _ & _ & _ & Ht).
    apply spl_transfer_inv in Ht as (s & d & _ & _ & _ & _ & _ & _ & _ & _ & [[-> ->]|(_ & _ & ->)]); written Hd' k.
  - left. apply init_mining_inv in H as (pool & mining & payer & bump & L1 & A & _ & _ & _ & _ & Hcr & ->).
    apply create_account_inv in Hcr as (_ & _ & _ & _ & Hv & _ & Hf & _ & _ & _ & ->).
    written Hd' k.
  - right. split; [discriminate|]. apply deposit_inv in H as (pool & mining & auth & dm & w0 & m0 & w' & m0' & d' & A & Hx & Hdo & Hoo & Hde & ->).
    pose proof (ok_ctx _ _ _ _ _ _ _ _ _ _ HL2 Hx) as [Hw Hm]. destruct Hx.
    pose proof (ok_dlg e ts L dm mining HL2 Hoo) as Hdw.
    pose proof (deposit_grows _ _ _ _ _ _ _ _ _ Hde) as (_ & _ & G).
    eapply deposit_settled in Hde as [K1 K2]; [|eassumption|assumption|assumption|lia].
    destruct (Z.eq_dec k mining) as [->|Hkm].
    { left. apply dlg_of_cases in G as [[-> ->]|(Hnm & x & x' & Hdm & -> & _)]; written Hd' mining; congruence. }
    apply dlg_of_cases in G as [[-> ->]|(Hnm & x & x' & Hdm & -> & _)]; [exfalso; wrote Hc k|].
    destruct (Z.eq_dec dm k) as [->|Hkd]; [|exfalso; wrote Hc k].
    right. pose proof (delegate_pool e Hinj L mining _ _ pool m HA Hdo Hnm (conj Ho Hd) Hty) as Ep.
    assert (w0 = w) as -> by congruence. assert (x = m) as -> by congruence.
    assert (x' = m') as -> by (cbn [put_dlg] in Hd'; unfold put_mining at 1 in Hd'; rewrite acc_put, Z.eqb_refl in Hd'; cbn in Hd'; congruence).
    split; [apply K2; [apply dlg_at; assumption|reflexivity|assumption]|].
    split; [at_|]. intros Hk1. apply Hnm. eapply at_fun; [exact Hk1|at_].
  - right. split; [discriminate|]. left. apply withdraw_inv in H as (pool & mining & auth & dm & w0 & m0 & w' & m0' & d' & A & Hx & Hdo & Hoo & Hde & ->).
    pose proof (ok_ctx _ _ _ _ _ _ _ _ _ _ HL2 Hx) as [Hw Hm]. destruct Hx.
    pose proof (ok_dlg e ts L dm mining HL2 Hoo) as Hdw.
    pose proof (withdraw_grows _ _ _ _ _ _ _ _ Hde) as (_ & _ & G).
    eapply withdraw_settled in Hde as K1; [|eassumption|assumption|assumption].
    destruct (Z.eq_dec k mining) as [->|Hkm].
    { apply dlg_of_cases in G as [[-> ->]|(Hnm & x & x' & Hdm & -> & _)]; written Hd' mining; congruence. }
    apply dlg_of_cases in G as [[-> ->]|(Hnm & x & x' & Hdm & -> & _)]; [exfalso; wrote Hc k|].
    destruct (Z.eq_dec dm k) as [->|Hkd]; [|exfalso; wrote Hc k].
    exfalso. apply Hnm. eapply at_fun; [apply Hsp|]; at_.
  - left. destruct (process_claim e ts ms L) as [[L1 x]|] eqn:E; [|discriminate]. injection H as <- <-.
    apply claim_inv in E as (pool & mint & vault & mining & owner & auth & dest & w0 & m0 & m1 & t & A & _ & _ & Hv & _ & Hde & _ & _ & _ & _ & _ & _ & Hm & _ & Hmp & _ & _ & _ & _ & Hcl).
    destruct (Z.eq_dec mining k) as [->|Hmk]; [destruct Hsp; at_|].
    cbv zeta in Hcl. destruct Hcl as [[_ ->]|[_ Ht]]; [exfalso; wrote Hc k|].
    apply spl_transfer_inv in Ht as (s & d & _ & _ & _ & _ & _ & _ & _ & _ & [[-> ->]|(_ & _ & ->)]); exfalso; wrote Hc k.
  - right. split; [discriminate|]. left. apply extend_inv in H as (pool & mining & auth & dm & w0 & m0 & w' & m0' & d' & A & Hx & Hdo & Hoo & Hde & ->).
    pose proof (ok_ctx _ _ _ _ _ _ _ _ _ _ HL2 Hx) as [Hw Hm]. destruct Hx.
    pose proof (ok_dlg e ts L dm mining HL2 Hoo) as Hdw.
    pose proof (extend_grows _ _ _ _ _ _ _ _ _ _ _ _ Hde) as (_ & _ & G).
    eapply extend_settled in Hde as K1; [|eassumption|lia|assumption|assumption|lia|lia].
    destruct (Z.eq_dec k mining) as [->|Hkm].
    { apply dlg_of_cases in G as [[-> ->]|(Hnm & x & x' & Hdm & -> & _)]; written Hd' mining; congruence. }
    apply dlg_of_cases in G as [[-> ->]|(Hnm & x & x' & Hdm & -> & _)]; [exfalso; wrote Hc k|].
    destruct (Z.eq_dec dm k) as [->|Hkd]; [|exfalso; wrote Hc k].
    exfalso. apply Hnm. eapply at_fun; [apply Hsp|]; at_.
  - exfalso. apply distribute_inv in H as (pool & auth & w0 & r0 & w' & A & _ & _ & Hpd & _ & _ & _ & ->). wrote Hc k.
  - exfalso. apply close_inv in H as (mining & owner & target & auth & pool & w0 & m0 & m1 & A & _ & Ht & _ & _ & _ & _ & _ & _ & Hm & _ & _ & _ & _ & _ & ->).
    destruct (Z.eq_dec mining k) as [->|Hmk]; [destruct Hsp; at_|]. wrote Hc k.
  - right. split; [discriminate|]. apply change_inv in H as (pool & mining & auth & owner & od & nd & w0 & m0 & w' & m0' & od' & nd' & A & Hx & Hso & Hdo & Hoo & Hno & Hon & Hop & Hde & ->).
    pose proof (ok_ctx _ _ _ _ _ _ _ _ _ _ HL2 Hx) as [Hw Hm]. destruct Hx.
    pose proof (ok_dlg e ts L od mining HL2 Hoo) as Hodw. pose proof (ok_dlg e ts L nd mining HL2 Hno) as Hndw.
    pose proof (change_grows _ _ _ _ _ _ _ _ _ _ Hde) as (_ & _ & G1 & G2).
    eapply change_settled in Hde as (K1 & K2); [|eassumption|assumption|assumption|assumption|lia].
    destruct (Z.eq_dec k mining) as [->|Hkm].
    { left. apply dlg_of_cases in G1 as [[-> ->]|(Hnm1 & x1 & x1' & Hdm1 & -> & _)];
        apply dlg_of_cases in G2 as [[-> ->]|(Hnm & x & x' & Hdm & -> & _)]; written Hd' mining; congruence. }
    assert (Hko : od = mining \/ od <> k).
    { destruct (Z.eq_dec od k) as [->|]; [left|auto]. eapply at_fun; [apply Hsp|]; at_. }
    apply dlg_of_cases in G2 as [[-> ->]|(Hnm & x & x' & Hdm & -> & _)].
    { exfalso. apply dlg_of_cases in G1 as [[-> ->]|(Hnm1 & x1 & x1' & Hdm1 & -> & _)]; [wrote Hc k|].
      destruct Hko as [|Hko]; [contradiction|]. wrote Hc k. }
    destruct (Z.eq_dec nd k) as [->|Hkd].
    + right. pose proof (delegate_pool e Hinj L mining _ _ pool m HA Hdo Hnm (conj Ho Hd) Hty) as Ep.
      assert (w0 = w) as -> by congruence. assert (x = m) as -> by congruence.
      assert (x' = m') as -> by (cbn [put_dlg] in Hd'; unfold put_mining at 1 in Hd'; rewrite acc_put, Z.eqb_refl in Hd'; cbn in Hd'; congruence).
      split; [apply K2; [apply dlg_at; assumption|reflexivity|assumption]|].
      split; [at_|]. intros Hk1. apply Hnm. eapply at_fun; [exact Hk1|at_].
    + exfalso. apply dlg_of_cases in G1 as [[-> ->]|(Hnm1 & x1 & x1' & Hdm1 & -> & _)]; [wrote Hc k|].
      destruct Hko as [|Hko]; [contradiction|]. wrote Hc k.
  - right. split; [discriminate|]. left. apply slash_inv in H as (auth & pool & mining & w0 & m0 & w' & m0' & A & Hx & Hde & ->).
    pose proof (ok_ctx _ _ _ _ _ _ _ _ _ _ HL2 Hx) as [Hw Hm]. destruct Hx.
    eapply slash_settled in Hde; [|eassumption|assumption|lia|lia].
    destruct (Z.eq_dec k mining) as [->|Hkm]; [written Hd' mining; congruence|exfalso; wrote Hc k].
  - exfalso. apply decrease_inv in H as (auth & pool & mining & w0 & m0 & m0' & A & Hx & Hde & ->). destruct Hx.
    destruct (Z.eq_dec mining k) as [->|Hmk]; [destruct Hsp; at_|]. wrote Hc k.
Qed.

Lemma init_pool_kept ts ms f d L L' r P w :
  exec e ts ms (InitializePool f d) L = Ok (L', r) -> is_pool e L P w -> p_type (wp w) = TYPE_POOL -> is_pool e L' P w.
Proof.
  intros X [Ho Hd] Hty. destruct (decide (acc L' P = acc L P)) as [E|Hc].
  { unfold is_pool, owner_of, data_of in *. rewrite E. auto. }
  apply exec_inv in X as [H _]. cbn [process] in H. apply no_ret_ok in H as [H _].
  pose proof (eo_sys _ Henv). pose proof (eo_tok _ Henv). pose proof (eo_toksys _ Henv).
  apply init_pool_inv in H as (pool & mint & vault & payer & auth & bump & w0 & L1 & L2 & A & _ & _ & _ & _ & _ & Hd0 & Hty0 & _ & _ & _ & Hcr & Ha & ->).
  apply create_account_inv in Hcr as (_ & _ & _ & _ & Hv & _ & Hf & _ & _ & _ & ->).
  apply initialize_account_inv in Ha as (_ & _ & _ & ->).
  exfalso. destruct (Z.eq_dec pool P) as [->|]; [congruence|]. wrote Hc P.
Qed.

(** one instruction, at one moment *)
Lemma call_worth now ts ms i L L' r k x x' :
  reached e now L -> now <= ts -> is_u64 ts -> ix_in_range i -> exec e ts ms i L = Ok (L', r) -> spares k ms i ->
  worth e ts L k x -> worth e ts L' k x' -> x <= x' /\ (leaves_alone k ms i -> x' = x).
Proof.
  intros HR Hts Hu Hr X Hsp (w & m & Hm & Ht & Hp & Hpt & C & ->) (w' & m' & Hm' & Ht' & Hp' & Hpt' & C' & ->).
  destruct (reached_ok e Henv _ _ HR) as (HL & HA & Hn).
  assert (HL2 : ledger_ok e ts L) by (eapply ledger_ok_mono; eassumption).
  assert (HL' : ledger_ok e ts L').
  { eapply (step_ok e Henv now L (EvIx ts ms i)); [exact Hn|econstructor; eassumption|assumption]. }
  assert (~ (i = CloseMining /\ account_at ms 0 k)) as Hnc by (intros [-> Hk]; exact (Hsp Hk)).
  destruct (exec_mining e Henv _ _ _ _ _ _ _ _ _ Hts HL X Hm Hnc) as (m1 & Hm1 & [G _] & _).
  assert (m1 = m') as -> by (destruct Hm1, Hm'; congruence).
  assert (Ep : m_pool (wm m') = m_pool (wm m)) by apply G.
  rewrite Ep in Hp'.
  destruct (exec_pool e Henv _ _ _ _ _ _ _ _ _ Hts HL X Hp Hpt) as (w1 & Hw1 & (_ & _ & more & Hci & Hmd) & _).
  assert (w1 = w') as -> by (destruct Hw1, Hp'; congruence).
  assert (Hsame : i <> DistributeRewards -> wp_ci w' = wp_ci w).
  { intros Hnd. destruct i as [f d| | | | | | | | | | |]; try contradiction.
    1: { pose proof (init_pool_kept _ _ _ _ _ _ _ _ _ X Hp Hpt) as Hk.
         assert (w' = w) as -> by (destruct Hk, Hp'; congruence). reflexivity. }
    all: apply exec_inv in X as [X _]; eapply (history_kept e); [exact X|exact I|apply Hp|apply Hp']. }
  destruct Hm as [Ho Hd], Hp as [Po Pd], Hp' as [Po' Pd'].
  pose proof (ok_mining e now L k m HL Ho Hd) as Wm. pose proof (ok_pool e now L _ w HL Po Pd) as Wp.
  pose proof (ok_pool e ts L' _ w' HL' Po' Pd') as Wp'.
  destruct (exec_worth _ _ _ _ _ _ _ _ _ _ _ Hn Hts Hu Hr HL HA X Hsp (conj Ho Hd) Ht (conj Po Pd) C Hm')
    as [->|[Hnd [[S1 S2]|[[S1 S2] J]]]].
  - split.
    + rewrite Hci in *. apply tokens_later; [lia|apply pw_ci_grow in Wp'; rewrite Hci in Wp'; exact Wp'|apply Wp|exact Hmd|apply mining_wf_min; exact Wm|exact C'].
    + intros [_ Hal]. rewrite Hsame; [reflexivity|]. intros ->. exact Hal.
  - rewrite (Hsame Hnd). rewrite (current_tokens _ _ _ S1). split; [lia|auto].
  - rewrite (Hsame Hnd). rewrite (current_tokens _ _ _ S1). split; [lia|].
    intros [_ Hal]. exfalso. destruct i; try contradiction; destruct J as [J1 J2]; auto.
Qed.

(** one ledger, two moments *)
Lemma wait_worth now L ts ts' k x x' :
  reached e now L -> ts <= ts' -> worth e ts L k x -> worth e ts' L k x' -> x <= x'.
Proof.
  intros HR Hts (w & m & Hm & Ht & Hp & Hpt & C & ->) (w' & m' & Hm' & _ & Hp' & _ & C' & ->).
  destruct (reached_ok e Henv _ _ HR) as (HL & HA & Hn).
  assert (m' = m) as -> by (destruct Hm, Hm'; congruence).
  assert (w' = w) as -> by (destruct Hp, Hp'; congruence).
  destruct Hm as [Ho Hd], Hp as [Po Pd].
  pose proof (ok_mining e now L k m HL Ho Hd) as Wm. pose proof (ok_pool e now L _ w HL Po Pd) as Wp.
  pose proof (tokens_later ts ts' (wp_ci w) [] m Hts) as T. rewrite app_nil_r in T.
  apply T; [apply Wp|apply Wp|apply dates_nil|apply mining_wf_min; assumption|assumption].
Qed.

(** a claim pays it *)
Lemma claim_worth now ts ms L L' r k x :
  reached e now L -> now <= ts -> is_u64 ts -> exec e ts ms Claim L = Ok (L', r) -> account_at ms 3 k ->
  worth e ts L k x -> r = Some x /\ worth e ts L' k 0.
Proof.
  intros HR Hts Hu X Hk (w & m & Hm & Ht & Hp & Hpt & C & ->).
  destruct (reached_ok e Henv _ _ HR) as (HL & HA & Hn).
  assert (HL' : ledger_ok e ts L').
  { eapply (step_ok e Henv now L (EvIx ts ms Claim)); [exact Hn|econstructor; try eassumption; exact I|assumption]. }
  assert (exists P V T, account_at ms 0 P /\ account_at ms 2 V /\ account_at ms 6 T) as (P & V & T & HP & HV & HT).
  { pose proof X as X0. apply exec_inv in X0 as [H _]. cbn [process] in H.
    destruct (process_claim e ts ms L) as [[L1 y]|] eqn:E; [|discriminate].
    apply claim_inv in E as (pool & mint & vault & mining & owner & auth & dest & w0 & m0 & m1 & t & A & _).
    exists pool, vault, dest. repeat split; at_. }
  destruct (claim_pays e Henv _ _ _ _ _ _ _ _ _ _ HR Hts X HP HV Hk HT) as (w0 & m0 & m1 & m' & t & Hp0 & Hm0 & R & Hm' & PO & -> & _).
  assert (m0 = m) as -> by (destruct Hm, Hm0; congruence).
  assert (P = m_pool (wm m)) as ->.
  { pose proof X as X0. apply exec_inv in X0 as [H _]. cbn [process] in H.
    destruct (process_claim e ts ms L) as [[L1 y]|] eqn:E; [|discriminate].
    apply claim_inv in E as (pool & mint & vault & mining & owner & auth & dest & w1 & m2 & m3 & t1 & A & _ & _ & _ & _ & _ & _ & _ & _ & _ & _ & _ & Hmd & _ & Hpo & _).
    assert (k = mining) by (eapply at_fun; [exact Hk|at_]); subst mining.
    assert (P = pool) as -> by (eapply at_fun; [exact HP|at_]).
    destruct Hm as [_ Hm]. congruence. }
  assert (w0 = w) as -> by (destruct Hp, Hp0; congruence).
  apply refreshed_current in R as R'. destruct R' as [Rc Ru]. split; [congruence|].
  destruct (exec_pool e Henv _ _ _ _ _ _ _ _ _ Hts HL X Hp Hpt) as (w' & Hp' & (Cf & _) & _).
  assert (Eci : wp_ci w' = wp_ci w).
  { pose proof X as X0. apply exec_inv in X0 as [X0 _]. eapply (history_kept e); [exact X0|exact I|apply Hp|apply Hp']. }
  destruct PO as (S1 & S2 & S3 & S4 & S5 & S6). destruct (rf_same _ _ _ _ R) as (Q1 & _ & _ & _ & Q5).
  destruct S1 as (S11 & _ & _ & _ & S15).
  assert (Cc : current ts (wp_ci w) m') by (destruct Rc; split; [congruence|rewrite S5; assumption]).
  exists w', m'. split; [assumption|]. split; [congruence|].
  split; [rewrite S11, Q1; assumption|]. split; [destruct Cf as (_ & _ & _ & _ & _ & ->); assumption|].
  rewrite Eci, (current_tokens _ _ _ Cc), S6. split; [|reflexivity].
  destruct Hm' as [Mo' Md'], Hm as [Mo Md], Hp as [Po Pd].
  pose proof (ok_mining e ts L' k m' HL' Mo' Md') as W'. pose proof (ok_mining e now L k m HL Mo Md) as W.
  assert (Hd0 : due (day_start ts) (wm_diffs m') = 0).
  { rewrite <- total_upto, upto_none by apply Cc. reflexivity. }
  constructor.
  - pose proof (cr_fits _ _ _ C). pose proof (mw_share _ W'). pose proof (mw_sfo _ W').
    rewrite S2, S3, (rf_share _ _ _ _ R), (rf_sfo _ _ _ _ R) in *.
    pose proof (mining_wf_min _ W) as Wm. pose proof (due_bounds (day_start ts) _ (mo_vals _ Wm)).
    lia.
  - rewrite Hd0. pose proof (mw_share _ W') as Q. unfold is_u64 in Q. lia.
  - destruct Cc as [-> _]. lia.
  - intros d v Hin Hle. destruct Cc as [_ Cd]. apply Cd in Hin. lia.
  - rewrite (current_tokens _ _ _ Cc), S6. split; reflexivity || lia.
Qed.
End env.

(** ** Histories *)
Section pool.
Context (e : env) (Henv : env_ok e) (Hinj : env_inj e) (Hrent : 0 < rent_min e MINING_LEN).
Context (P : pubkey) (HP : P <> 0) (D : Z -> op -> core -> Prop)
        (HDonate : forall ts n c, D ts (ODonate n) c)
        (HDinit : forall ts k p o b c, D ts (OInit k p o b) c)
        (HDis : forall ts o c, D ts o c -> disciplined ts o c).

Lemma worth_defined now ts L V w k m :
  orderly e P D now L -> pool_vault e L P V w -> now <= ts -> mining_in e L P k m ->
  worth e ts L k (tokens_at ts (wp_ci w) m).
Proof.
  intros HO HV Hts [Hm Hmp].
  destruct (orderly_good e Henv Hinj Hrent P HP D HDonate HDinit _ _ HO) as (_ & _ & HM & _).
  destruct (typed e P HP L k m HM Hm Hmp) as [Ht _].
  exists w, m. split; [assumption|]. split; [assumption|]. rewrite Hmp. split; [apply HV|]. split; [apply HV|].
  split; [|reflexivity].
  apply (plain_refresh False w (minings_of e P L) (balance L V) ts) with (k := k).
  - eapply view_inv; eassumption.
  - eapply view_wf; eassumption.
  - apply in_view. split; assumption.
Qed.

Lemma run_ext now L now1 L1 ts L2 :
  orderly_run e P D now L now1 L1 -> now1 <= ts -> is_u64 ts -> external e L1 L2 -> orderly_ext e P L1 L2 ->
  orderly_run e P D now L ts L2.
Proof.
  induction 1 as [|now L ts0 ms0 i0 L0 r0 now1 L1 Hts0 Hu0 Hr0 X0 O0 R IH|now L ts0 L0 now1 L1 Hts0 Hu0 X0 O0 R IH];
    intros Hts Hu X O.
  - exact (or_ext _ _ _ _ _ _ _ _ _ Hts Hu X O (or_nil _ _ _ _ _)).
  - exact (or_ix _ _ _ _ _ _ _ _ _ _ _ _ Hts0 Hu0 Hr0 X0 O0 (IH Hts Hu X O)).
  - exact (or_ext _ _ _ _ _ _ _ _ _ Hts0 Hu0 X0 O0 (IH Hts Hu X O)).
Qed.

Lemma sparing_worth k now L now' L' :
  sparing e P D k now L now' L' -> forall V w m x, orderly e P D now L -> pool_vault e L P V w ->
  mining_in e L P k m -> worth e now L k x -> exists x', worth e now' L' k x' /\ x <= x'.
Proof.
  induction 1 as [now L|now L ts ms i L1 r now' L' Hts Hu Hr X O Sp R IH|now L ts L1 now' L' Hts Hu X O R IH];
    intros V w m x HO HV Hm Hx; [exists x; split; [assumption|lia]| |].
  - pose proof (worth_defined now ts L V w k m HO HV Hts Hm) as Hy.
    pose proof (orderly_reached e P D now L HO) as HR.
    pose proof (wait_worth e Henv now L now ts k _ _ HR Hts Hx Hy) as Hxy.
    destruct (reached_ok e Henv _ _ HR) as (HL & HA & Hn).
    assert (HO1 : orderly e P D ts L1).
    { destruct HO as (L0 & G & Hd & R0). exists L0. split; [assumption|]. split; [assumption|].
      eapply run_snoc; eassumption. }
    assert (~ (i = CloseMining /\ account_at ms 0 k)) as Hnc by (intros [-> Hk]; exact (Sp Hk)).
    destruct (exec_mining e Henv _ _ _ _ _ _ _ _ _ Hts HL X (proj1 Hm) Hnc) as (m1 & Hm1 & [G _] & _).
    destruct HV as (HV1 & HV2 & HV3).
    destruct (exec_pool e Henv _ _ _ _ _ _ _ _ _ Hts HL X HV1 HV2) as (w1 & Hw1 & (Cf & _) & _).
    destruct Cf as (_ & _ & _ & C4 & C5 & C6).
    assert (HV' : pool_vault e L1 P V w1) by (split; [assumption|]; split; congruence).
    assert (Hm1' : mining_in e L1 P k m1) by (split; [assumption|]; destruct G as [-> _]; apply Hm).
    pose proof (worth_defined ts ts L1 V w1 k m1 HO1 HV' ltac:(lia) Hm1') as Hz.
    destruct (call_worth e Henv Hinj _ _ _ _ _ _ _ _ _ _ HR Hts Hu Hr X Sp Hy Hz) as [Hyz _].
    destruct (IH V w1 m1 _ HO1 HV' Hm1' Hz) as (x' & Hx' & Hle). exists x'. split; [assumption|lia].
  - pose proof (worth_defined now ts L V w k m HO HV Hts Hm) as Hy.
    pose proof (orderly_reached e P D now L HO) as HR.
    pose proof (wait_worth e Henv now L now ts k _ _ HR Hts Hx Hy) as Hxy.
    destruct (orderly_good e Henv Hinj Hrent P HP D HDonate HDinit _ _ HO) as (_ & _ & HM & _).
    destruct (typed e P HP L k m HM (proj1 Hm) (proj2 Hm)) as [_ Hl].
    destruct (orderly_core e Henv Hinj Hrent P HP D HDonate HDinit _ _ _ _ HO HV) as [t HAf].
    assert (HO1 : orderly e P D ts L1).
    { destruct HO as (L0 & G & Hd & R0). exists L0. split; [assumption|]. split; [assumption|].
      eapply run_ext; eassumption. }
    destruct (ext_mining e _ _ _ _ X (proj1 Hm) Hl) as [Hm1 _].
    destruct (ext_pool e _ _ _ _ X (proj1 HV) (af_lam _ _ _ _ _ _ _ _ HAf)) as [Hw1 _].
    assert (HV' : pool_vault e L1 P V w) by (split; [assumption|]; apply HV).
    assert (Hm1' : mining_in e L1 P k m) by (split; [assumption|]; apply Hm).
    pose proof (worth_defined ts ts L1 V w k m HO1 HV' ltac:(lia) Hm1') as Hz.
    destruct (IH V w m _ HO1 HV' Hm1' Hz) as (x' & Hx' & Hle). exists x'. split; [assumption|lia].
Qed.
End pool.

(** ** In terms of the refresh every claim performs *)
Lemma worth_refresh e now ts L k m w m1 : env_ok e ->
  reached e now L -> is_mining e L k m -> m_type (wm m) = TYPE_MINING ->
  is_pool e L (m_pool (wm m)) w -> p_type (wp w) = TYPE_POOL -> refresh ts (wp_ci w) m = Ok m1 ->
  worth e ts L k (m_unclaimed (wm m1)).
Proof.
  intros Henv HR Hm Ht Hp Hpt R. destruct (reached_ok e Henv _ _ HR) as (HL & HA & Hn).
  pose proof (ok_mining e now L k m HL (proj1 Hm) (proj2 Hm)) as Wm.
  pose proof (ok_pool e now L _ w HL (proj1 Hp) (proj2 Hp)) as Wp.
  exists w, m. do 4 (split; [assumption|]).
  split; [apply refresh_iff; [apply (pool_wf_hist _ _ Wp)|assumption|exists m1; exact R]|].
  apply refresh_refreshed in R; [|apply (pool_wf_hist _ _ Wp)|apply mining_wf_min; assumption].
  apply refreshed_current in R as [_ R]. exact R.
Qed.
