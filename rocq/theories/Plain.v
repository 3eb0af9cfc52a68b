(** The conditions of SuccessSpec.v on an orderly pool come down to those of PlainSpec.v. *)
From stdpp Require Import gmap.
From Verif Require Import Base OMap State Spec EffectSpec ResLemmas TreeLemmas AccrualLemmas
  RefreshLemmas WfLemmas MapSum Core CoreInv CoreSteps CoreThms CoreLive EffectLemmas Ledger Program Clients
  LedgerLemmas LedgerSpec CodecLemmas History HistoryLemmas HistoryThms SuccessSpec SuccessLemmas SuccessMethods SuccessThms
  LedgerView LedgerCore LedgerCoreThms Leave PlainSpec.

Lemma at_date_pos k t : values (fun v => 0 <= v) t -> 0 <= at_date k t.
Proof.
  intros Hv. induction t as [|[a b] r IH]; cbn [at_date]; [lia|].
  assert (values (fun v => 0 <= v) r) by (intros ? ? ?; eapply Hv; right; eauto).
  pose proof (Hv a b (or_introl eq_refl)). cbv beta in *. destruct (a =? k); auto.
Qed.
(** what is recorded for a day after [b] is still to come *)
Lemma at_date_coming b k t : values (fun v => 0 <= v) t -> b < k -> at_date k t <= total t - due b t.
Proof.
  intros Hv Hb. induction t as [|[a x] r IH]; cbn [at_date due total]; [lia|].
  assert (Hr : values (fun v => 0 <= v) r) by (intros ? ? ?; eapply Hv; right; eauto).
  pose proof (Hv a x (or_introl eq_refl)). cbv beta in *. specialize (IH Hr).
  pose proof (due_bounds b r Hr). pose proof (at_date_pos k r Hr).
  destruct (Z.eqb_spec a k), (Z.leb_spec a b); lia.
Qed.
Lemma at_dates_coming b k k' t :
  values (fun v => 0 <= v) t -> b < k -> b < k' -> k <> k' -> at_date k t + at_date k' t <= total t - due b t.
Proof.
  intros Hv Hb Hb' Hne. induction t as [|[a x] r IH]; cbn [at_date due total]; [lia|].
  assert (Hr : values (fun v => 0 <= v) r) by (intros ? ? ?; eapply Hv; right; eauto).
  pose proof (Hv a x (or_introl eq_refl)). cbv beta in *. specialize (IH Hr).
  pose proof (at_date_coming b k r Hr Hb). pose proof (at_date_coming b k' r Hr Hb').
  destruct (Z.eqb_spec a k), (Z.eqb_spec a k'), (Z.leb_spec a b); lia.
Qed.

(** ** One pool *)
Section pool.
Context (s : Prop) (w : wpool) (M : gmap Z wmining) (v ts : Z) (HI : Inv s w M v ts).
Context (HW : forall k m, M !! k = Some m -> mining_wf m).

(** a delegate other than [k] *)
Definition among (k : pubkey) (d : option wmining) : Prop :=
  match d with None => True | Some x => exists kx, kx <> k /\ M !! kx = Some x end.

Lemma plain_net : 0 <= pool_net w (bod ts) <= p_total (wp w).
Proof.
  pose proof (i_gap _ _ _ _ _ HI (bod ts) (Z.le_refl _)) as Hg.
  pose proof (msum_nonneg (fun m => eff m (bod ts)) M
     (fun k m Hk => eff_nonneg _ _ _ (bod ts) (i_min _ _ _ _ _ HI k m Hk))) as H0.
  pose proof (due_bounds (bod ts) _ (i_pvals _ _ _ _ _ HI)) as Hd. unfold pool_net in *. lia.
Qed.

Lemma pool_date k : bod ts < k -> at_date k (wp_diffs w) <= pool_net w (bod ts).
Proof.
  intros Hk. set (far := Z.max k (fold_right Z.max 0 (map fst (wp_diffs w)))).
  assert (Hall : due far (wp_diffs w) = total (wp_diffs w)).
  { apply due_all. intros d x Hin. unfold far. clear -Hin. induction (wp_diffs w) as [|[a b] r IH]; [destruct Hin|].
    cbn [map fold_right fst]. destruct Hin as [E|Hin]; [injection E as -> ->; lia|]. specialize (IH Hin). lia. }
  pose proof (i_gap _ _ _ _ _ HI far ltac:(unfold far; lia)) as Hg.
  pose proof (msum_nonneg (fun m => eff m far) M
     (fun k m Hk => eff_nonneg _ _ _ far (i_min _ _ _ _ _ HI k m Hk))) as H0.
  unfold pool_net in *. rewrite Hall in Hg.
  pose proof (at_date_coming (bod ts) k _ (i_pvals _ _ _ _ _ HI) Hk). lia.
Qed.

Section mining.
Context (k : pubkey) (m : wmining) (Hk : M !! k = Some m).

Lemma plain_refresh : can_refresh ts (wp_ci w) m.
Proof.
  apply refresh_iff; [apply HI|exact (HW k m Hk)|]. exact (inv_refresh_succeeds _ _ _ _ _ _ _ HI Hk).
Qed.

Lemma share_at_net : 0 <= share_at ts m /\ share_at ts m + m_sfo (wm m) <= pool_net w (bod ts).
Proof.
  pose proof (inv_eff_le _ _ _ _ _ _ _ (bod ts) HI Hk (Z.le_refl _)) as He. unfold eff in He. unfold share_at.
  pose proof (i_min _ _ _ _ _ HI k m Hk) as Hm. pose proof (mo_sfo _ (mi_ok _ _ _ Hm)).
  pose proof (due_bounds (bod ts) _ (mo_vals _ (mi_ok _ _ _ Hm))). pose proof (mi_diffs _ _ _ Hm).
  rewrite bod_day_start in *. lia.
Qed.

Lemma two_shares x : among k (Some x) ->
  0 <= share_at ts x /\ share_at ts m + m_sfo (wm m) + (share_at ts x + m_sfo (wm x)) <= pool_net w (bod ts).
Proof.
  intros (kx & Hne & Hx). pose proof (i_min _ _ _ _ _ HI kx x Hx) as Hm.
  pose proof (due_bounds (bod ts) _ (mo_vals _ (mi_ok _ _ _ Hm))). pose proof (mi_diffs _ _ _ Hm).
  pose proof (i_gap _ _ _ _ _ HI (bod ts) (Z.le_refl _)) as Hg.
  rewrite (msum_delete _ M k m Hk) in Hg.
  assert (Hx' : delete k M !! kx = Some x) by (rewrite lookup_delete_ne; congruence).
  pose proof (msum_ge (fun m => eff m (bod ts)) (delete k M) kx x) as Hge. cbv beta in Hge.
  specialize (Hge (fun k' m' Hk' => eff_nonneg _ _ _ (bod ts) (i_min _ _ _ _ _ HI k' m'
    (proj2 (proj1 (lookup_delete_Some M k k' m') Hk')))) Hx').
  pose proof (Z.le_trans _ _ _ (proj1 (Z.add_le_mono_l _ _ (eff m (bod ts))) Hge) Hg) as Q. clear Hg Hge.
  unfold share_at, eff in *. rewrite bod_day_start in *. lia.
Qed.

Lemma mining_date d : bod ts < d -> 0 <= at_date d (wm_diffs m) <= share_at ts m.
Proof.
  intros Hd. pose proof (i_min _ _ _ _ _ HI k m Hk) as Hm.
  pose proof (at_date_coming (bod ts) d _ (mo_vals _ (mi_ok _ _ _ Hm)) Hd).
  pose proof (at_date_pos d _ (mo_vals _ (mi_ok _ _ _ Hm))).
  pose proof (mi_diffs _ _ _ Hm). unfold share_at. rewrite bod_day_start in *. lia.
Qed.
Lemma mining_dates d d' : bod ts < d -> bod ts < d' -> d <> d' ->
  at_date d (wm_diffs m) + at_date d' (wm_diffs m) <= share_at ts m.
Proof.
  intros Hd Hd' Hne. pose proof (i_min _ _ _ _ _ HI k m Hk) as Hm.
  pose proof (at_dates_coming (bod ts) d d' _ (mo_vals _ (mi_ok _ _ _ Hm)) Hd Hd' Hne).
  pose proof (mi_diffs _ _ _ Hm). unfold share_at. rewrite bod_day_start in *. lia.
Qed.
End mining.

Lemma leave_plain k a t d : among k d -> 0 <= a -> a <= t ->
  can_leave ts (wp_ci w) a t d <-> plain_leave a d.
Proof.
  intros Hd Ha Ht. destruct d as [x|]; cbn [can_leave plain_leave]; [|tauto].
  split; [intros [X _]; exact X|]. intros Hs. split; [exact Hs|]. split; [exact Ht|].
  destruct Hd as (kx & _ & Hx). pose proof (HW kx x Hx) as Hwf.
  destruct (dlg_sub_succeeds _ _ _ _ _ _ _ a HI Hx ltac:(lia)) as [r Hr].
  cbn [delegate_sub rbind] in Hr.
  apply rbind_ok in Hr as (f & Hf & Hr). apply safe_sub_ok in Hf as [_ ->].
  apply rbind_ok in Hr as (t' & _ & Hr). apply rbind_ok in Hr as (m' & R & _).
  change (with_delegated x (m_sfo (wm x) - a)) with (WMining (set_sfo (wm x) (m_sfo (wm x) - a)) (wm_diffs x)).
  apply refresh_iff; [apply HI| |].
  - apply sfo_wf; [exact Hwf|]. pose proof (mw_sfo _ Hwf). unfold is_u64 in *. lia.
  - eexists; exact R.
Qed.

Lemma join_plain k a t d : among k d -> 0 <= a -> fits (t + for_delegate d a) ->
  can_join ts (wp_ci w) a t d <-> plain_join ts (wp_ci w) a d.
Proof.
  intros Hd Ha Ht. destruct d as [x|]; cbn [can_join plain_join for_delegate] in *; [|tauto].
  destruct Hd as (kx & _ & Hx). pose proof (HW kx x Hx) as Hwf. pose proof (mw_share _ Hwf) as Hs.
  unfold is_u64 in Hs. split.
  - intros (_ & _ & [C1 _ _ _ C5]). cbn [wm with_delegated m_share m_sfo] in C1. split; [lia|exact C5].
  - intros [X1 X2]. split; [lia|]. split; [exact Ht|]. destruct (plain_refresh kx x Hx) as [_ C2 C3 C4 _].
    constructor; [cbn [wm with_delegated m_share m_sfo]; lia|exact C2|exact C3|exact C4|exact X2].
Qed.

Lemma deposit_plain k m a p d : M !! k = Some m -> among k d -> 0 <= a ->
  can_deposit ts w m a p d <-> plain_deposit ts w a p d.
Proof.
  intros Hk Hd Ha. unfold can_deposit, plain_deposit.
  pose proof (share_at_net k m Hk) as [S0 S1]. pose proof plain_net as Hn.
  pose proof (mw_sfo _ (HW k m Hk)) as Hf. unfold is_u64 in Hf.
  split.
  - intros (X1 & X2 & X3 & X4 & X5 & X6 & X7 & X8 & X9). split; [exact X1|]. split; [exact X6|].
    assert (F : fits (p_total (wp w) + a * weight_of p + for_delegate d a)).
    { destruct d; cbn [can_join for_delegate] in *; [apply X9|lia]. }
    split; [exact F|]. apply (join_plain k a (p_total (wp w) + a * weight_of p)); assumption.
  - intros (X1 & X2 & X3 & X4). pose proof (weight_pos p X1) as Hw. pose proof (expiry_later p ts X1) as Hl.
    rewrite <- bod_day_start in Hl. pose proof (pool_date _ Hl). pose proof (mining_date k m Hk _ Hl).
    assert (0 <= for_delegate d a) by (destruct d; cbn; lia). assert (0 <= a * weight_of p) by nia.
    rewrite Z.mul_sub_distr_l.
    split; [exact X1|]. split; [exact (plain_refresh k m Hk)|]. repeat (split; [first [exact X2|lia]|]).
    apply (join_plain k a); [assumption..|]. exact X4.
Qed.

Lemma withdraw_plain k m a d : M !! k = Some m -> among k d -> 0 <= a ->
  can_withdraw ts w m a d <-> plain_withdraw ts m a d.
Proof.
  intros Hk Hd Ha. unfold can_withdraw, plain_withdraw.
  pose proof (share_at_net k m Hk) as [S0 S1]. pose proof (mw_sfo _ (HW k m Hk)) as Hf. unfold is_u64 in Hf.
  unfold pool_net in S1. rewrite bod_day_start in S1.
  split.
  - intros (_ & X1 & X2 & X3). split; [exact X1|]. destruct d; [apply X3|exact I].
  - intros [X1 X2]. split; [exact (plain_refresh k m Hk)|]. split; [exact X1|]. split; [lia|].
    destruct d as [x|]; [|exact I]. pose proof (two_shares k m Hk x Hd) as [T0 T1].
    unfold pool_net in T1. rewrite bod_day_start in T1. cbn [plain_leave] in X2.
    apply (leave_plain k); [assumption|assumption|lia|exact X2].
Qed.

Lemma slash_plain k m n x dt : M !! k = Some m -> 0 <= x ->
  can_slash ts w m n x dt <-> plain_slash ts w m n x dt.
Proof.
  intros Hk Hx. unfold can_slash, plain_slash. rewrite (withdraw_plain k m x None Hk I Hx).
  unfold plain_withdraw. cbn [plain_leave]. tauto.
Qed.

(** in a pool whose total share is exact, the pool has recorded every bonus *)
Lemma pool_holds k m d : s -> M !! k = Some m -> bod ts < d -> at_date d (wm_diffs m) <= at_date d (wp_diffs w).
Proof.
  intros Hs Hk Hd.
  assert (Hstep : forall t, ascending t -> due d t - due (d - 1) t = at_date d t).
  { intros t. clear. induction t as [|[a b] r IH]; cbn [due at_date]; intros Ha; [lia|].
    destruct Ha as [H1 H2]. specialize (IH H2).
    destruct (Z.eqb_spec a d) as [->|Hne].
    - assert (Z0 : forall x, x <= d -> due x r = 0).
      { intros x Hx. apply due_nil_below. intros k' v' Hin. specialize (H1 _ _ Hin). cbv beta in *. lia. }
      rewrite !Z0 by lia. destruct (Z.leb_spec d d), (Z.leb_spec d (d - 1)); lia.
    - destruct (Z.leb_spec a d), (Z.leb_spec a (d - 1)); lia. }
  pose proof (i_eq _ _ _ _ _ HI Hs d ltac:(lia)) as E1. pose proof (i_eq _ _ _ _ _ HI Hs (d - 1) ltac:(lia)) as E2.
  unfold pool_net in *. rewrite <- (Hstep (wp_diffs w)) by apply HI.
  assert (E3 : msum (fun m => eff m (d - 1)) M = msum (fun m => eff m d) M + msum (fun m => at_date d (wm_diffs m)) M).
  { rewrite <- msum_plus. apply msum_ext. intros k' m' Hk'. unfold eff.
    rewrite <- (Hstep (wm_diffs m')) by apply (mo_asc _ (mi_ok _ _ _ (i_min _ _ _ _ _ HI k' m' Hk'))). lia. }
  pose proof (msum_ge (fun m => at_date d (wm_diffs m)) M k m) as Hge. cbv beta in Hge.
  specialize (Hge (fun k' m' Hk' => at_date_pos _ _ (mo_vals _ (mi_ok _ _ _ (i_min _ _ _ _ _ HI k' m' Hk')))) Hk). lia.
Qed.

Lemma unexpired_date op start : unexpired op start ts = true -> bod ts < expiry op start.
Proof.
  pose proof (bod_bounds ts). unfold unexpired. destruct op; intros H1; try discriminate; apply Z.ltb_lt in H1; lia.
Qed.

Lemma extend_plain k m op np start base extra d :
  M !! k = Some m -> among k d -> 0 <= base -> 0 <= extra ->
  can_extend ts w m op np start base extra d <-> plain_extend ts w m op np start base extra d.
Proof.
  intros Hk Hd Hb He. unfold can_extend, plain_extend. cbv zeta.
  pose proof (share_at_net k m Hk) as [S0 S1]. pose proof plain_net as Hn.
  pose proof (mw_sfo _ (HW k m Hk)) as Hf. unfold is_u64 in Hf.
  pose proof (i_total _ _ _ _ _ HI) as Htot. unfold U64 in Htot.
  set (cur := counted op start ts base). set (new := (base + extra) * weight_of np).
  split.
  - intros (X1 & X2 & X3 & X4 & X5 & X6 & X7 & X8 & X9 & X10 & X11 & X12 & X13 & X14 & X15 & X16).
    split; [exact X1|]. split; [exact X2|]. split; [exact X4|]. split; [exact X12|]. split; [exact X6|].
    split; [destruct d; [apply X15|exact I]|].
    split; [destruct d; cbn [for_delegate] in *; lia|].
    intros Hu. split; [apply X5; exact Hu|exact X13].
  - intros (X1 & X2 & X3 & X4 & X5 & X6 & X7 & X8).
    pose proof (weight_pos op X1) as Hwo. pose proof (weight_pos np X2) as Hwn.
    pose proof (expiry_later np ts X2) as Hl. rewrite <- bod_day_start in Hl.
    pose proof (pool_date _ Hl) as P1. pose proof (mining_date k m Hk _ Hl) as P2.
    pose proof (Z.mul_le_mono_nonneg_l 1 (weight_of op) base Hb ltac:(lia)) as Mo.
    pose proof (Z.mul_le_mono_nonneg_l 1 (weight_of np) (base + extra) ltac:(lia) ltac:(lia)) as Mn.
    assert (Hc : base <= cur) by (unfold cur, counted; destruct (unexpired _ _ _); lia).
    assert (Hnew : base + extra <= new) by (unfold new; lia).
    assert (Hbonus : (base + extra) * (weight_of np - 1) = new - (base + extra)) by (unfold new; lia).
    assert (Hleft : 0 <= p_total (wp w) - cur - for_delegate d base /\
                    share_at ts m - cur <= p_total (wp w) - cur - for_delegate d base).
    { destruct d as [x|]; cbn [for_delegate plain_leave] in *; [|lia].
      pose proof (two_shares k m Hk x Hd). lia. }
    assert (Hfd : 0 <= for_delegate d extra) by (destruct d; cbn; lia).
    assert (Hfb : 0 <= for_delegate d base) by (destruct d; cbn; lia).
    split; [exact X1|]. split; [exact X2|]. split; [exact (plain_refresh k m Hk)|]. split; [exact X3|].
    split. { intros Hu. split; [|apply X8; exact Hu]. unfold cur, counted in X5. rewrite Hu in X5. lia. }
    split; [exact X5|]. split; [lia|]. split; [lia|]. split; [lia|]. split; [lia|]. split; [lia|]. split; [exact X4|].
    rewrite Hbonus.
    split.
    { destruct (unexpired op start ts) eqn:Hu; [rewrite <- Hbonus; apply X8; reflexivity|].
      assert (cur = base) by (unfold cur, counted; rewrite Hu; reflexivity). lia. }
    split.
    { destruct (unexpired op start ts) eqn:Hu; cbn [andb].
      - assert (Ec : cur = base * weight_of op) by (unfold cur, counted; rewrite Hu; reflexivity).
        destruct (X8 eq_refl) as [[_ Hh] _]. pose proof (unexpired_date op start Hu) as Hd1.
        destruct (Z.eqb_spec (expiry op start) (expiry np ts)) as [E|E]; [rewrite <- E in *; lia|].
        pose proof (mining_dates k m Hk _ _ Hd1 Hl E). lia.
      - assert (cur = base) by (unfold cur, counted; rewrite Hu; reflexivity). lia. }
    split. { destruct d as [x|]; [|exact I]. apply (leave_plain k); [assumption|assumption|cbn [for_delegate] in *; lia|exact X6]. }
    destruct d as [x|]; [|exact I]. cbn [for_delegate plain_leave] in *. pose proof (two_shares k m Hk x Hd). lia.
Qed.

Lemma change_plain k a old new : among k old -> among k new -> 0 <= a ->
  forall m, M !! k = Some m ->
  can_change ts w m a old new <-> plain_change ts w a old new.
Proof.
  intros Ho Hn Ha m Hk. unfold can_change, plain_change. pose proof plain_net as Hp. pose proof (i_total _ _ _ _ _ HI) as Ht.
  unfold U64 in Ht.
  assert (Hl : plain_leave a old -> old <> None -> a <= p_total (wp w)).
  { destruct old as [x|]; [|congruence]. intros H _. cbn [plain_leave] in H. pose proof (two_shares k m Hk x Ho).
    pose proof (share_at_net k m Hk). pose proof (mw_sfo _ (HW k m Hk)) as Hf. unfold is_u64 in Hf. lia. }
  assert (E : can_leave ts (wp_ci w) a (p_total (wp w)) old <-> plain_leave a old).
  { destruct old as [x|]; [|cbn; tauto]. split; [intros [X _]; exact X|]. intros X.
    apply (leave_plain k); [exact Ho|exact Ha|apply Hl; [exact X|discriminate]|exact X]. }
  rewrite E. split.
  - intros (_ & X1 & X2). split; [exact X1|].
    assert (F : fits (p_total (wp w) - for_delegate old a + for_delegate new a)).
    { destruct new; cbn [can_join for_delegate] in *; [apply X2|]. destruct old; cbn [for_delegate]; lia. }
    split; [|exact F]. apply (join_plain k a (p_total (wp w) - for_delegate old a)); assumption.
  - intros (X1 & X2 & X3). split; [exact (plain_refresh k m Hk)|]. split; [exact X1|].
    apply (join_plain k); assumption.
Qed.

(** what a claim pays is in the vault *)
Lemma tokens_covered k m : M !! k = Some m -> 0 <= tokens_at ts (wp_ci w) m <= v.
Proof.
  intros Hk. destruct (inv_refresh_succeeds _ _ _ _ _ _ _ HI Hk) as [m' Hr].
  pose proof (inv_refresh _ _ _ _ _ _ _ _ HI Hk Hr) as HI1.
  pose proof (i_min _ _ _ _ _ HI1 k m' (lookup_insert _ _ _)) as Hm1.
  pose proof (refresh_refreshed _ _ _ _ (i_hist _ _ _ _ _ HI) (mi_ok _ _ _ (i_min _ _ _ _ _ HI k m Hk)) Hr) as R.
  assert (E : m_unclaimed (wm m') = tokens_at ts (wp_ci w) m) by apply R.
  rewrite <- E. split; [apply (mo_unclaimed _ (mi_ok _ _ _ Hm1))|].
  pose proof (i_solv _ _ _ _ _ HI1) as Hs. pose proof (i_avail _ _ _ _ _ HI1).
  pose proof (msum_ge (owed (wp_ci w)) (<[k := m']> M) k m') as Hge.
  assert (Hp : forall k0 m0, <[k := m']> M !! k0 = Some m0 -> 0 <= owed (wp_ci w) m0).
  { intros k0 m0 H0. pose proof (i_min _ _ _ _ _ HI1 k0 m0 H0) as Hm0.
    pose proof (owed_nonneg _ _ _ (i_hist _ _ _ _ _ HI) Hm0).
    pose proof (mo_unclaimed _ (mi_ok _ _ _ Hm0)). unfold PRECISION in *. lia. }
  specialize (Hge Hp (lookup_insert _ _ _)).
  pose proof (owed_nonneg _ _ _ (i_hist _ _ _ _ _ HI) Hm1). unfold PRECISION in *. lia.
Qed.
End pool.

(** ** Ledgers *)
Section env.
Context (e : env) (Henv : env_ok e) (Hinj : env_inj e) (Hrent : 0 < rent_min e MINING_LEN).
Context (P : pubkey) (HP : P <> 0) (D : Z -> op -> core -> Prop)
        (HDonate : forall ts n c, D ts (ODonate n) c)
        (HDinit : forall ts k p o b c, D ts (OInit k p o b) c)
        (HDis : forall ts o c, D ts o c -> disciplined ts o c).

Section ledger.
Context (now ts : Z) (L : ledger) (V : pubkey) (w : wpool).
Context (HO : orderly e P D now L) (HV : pool_vault e L P V w) (Hts : now <= ts).

Lemma view_inv : Inv False w (minings_of e P L) (balance L V) ts.
Proof.
  pose proof (orderly_reachable e Henv Hinj Hrent P HP D HDonate HDinit HDis _ _ _ _ HO HV) as HR.
  apply reachable_inv in HR. unfold cinv, core_of in HR. cbn [c_pool c_min c_vault c_now] in HR.
  rewrite (pool_of_is e P L w (proj1 HV)) in HR. apply (inv_time _ _ _ _ _ ts) in HR; assumption.
Qed.
Lemma view_ok : ledger_ok e now L.
Proof. destruct (orderly_good e Henv Hinj Hrent P HP D HDonate HDinit _ _ HO) as (_ & HL & _). exact HL. Qed.
Lemma view_wf k m : minings_of e P L !! k = Some m -> mining_wf m.
Proof. intros H. apply in_view in H as [[Ho Hd] _]. exact (ok_mining e now L k m view_ok Ho Hd). Qed.

Lemma view_delegate k dm wallet d :
  checked_delegate e L k dm P wallet d -> among (minings_of e P L) k d.
Proof.
  intros [[[-> ->]|(Hne & x & Hx & ->)] Hc]; [exact I|]. exists dm. split; [exact Hne|]. apply in_view.
  split; [exact Hx|].
  destruct (orderly_good e Henv Hinj Hrent P HP D HDonate HDinit _ _ HO) as (_ & _ & HM & HB & HA & _).
  destruct (HM dm x Hx) as [[Ht _]|[_ Hb]].
  - pose proof (HA dm x Hx Ht) as Hc'. destruct (ei_mining _ Hinj _ _ _ _ _ _ _ Hc Hc') as (_ & E & _). congruence.
  - pose proof (HB _ _ _ _ Hc (proj1 Hx)). lia.
Qed.

Lemma same_pool w' : is_pool e L P w' -> w' = w.
Proof. destruct HV as [[_ H] _]. intros [_ H']. congruence. Qed.

Ltac here A H :=
  match type of A with accounts_are ?ms ?l =>
    match type of H with account_at _ ?n P =>
      let x := eval cbv [nth] in (nth n l P) in
      let E := fresh "E" in
      assert (E : P = x) by (apply (at_same ms n); [apply (accounts_at ms l); [exact A|reflexivity]|exact H]);
      first [subst x|rewrite <- E in *; clear E x]
    end end.

Lemma distribute_plain : Z.of_nat (length (wp_ci w)) < 1095 -> can_distribute ts w <-> plain_distribute ts w.
Proof.
  intros Hlen. pose proof (plain_net _ _ _ _ _ view_inv) as Hn. unfold pool_net in Hn. rewrite bod_day_start in Hn. split.
  - intros (X1 & X2 & [X3|[X3 _]]); (split; [exact X1|]); [left; exact X3|right; lia].
  - intros (X1 & X2). split; [exact X1|]. split; [lia|]. destruct X2 as [X2|X2]; [left; exact X2|].
    pose proof (orderly_reachable e Henv Hinj Hrent P HP D HDonate HDinit HDis _ _ _ _ HO HV) as HR.
    assert (Ew : c_pool (core_of e P V now L) = w) by exact (pool_of_is e P L w (proj1 HV)).
    destruct (distribute_succeeds _ ts HR Hts) as [c' Hc]; [rewrite Ew; assumption..|].
    cbn [core_step] in Hc. rewrite Ew in Hc.
    apply rbind_ok in Hc as (r & E1 & Hc). apply rbind_ok in Hc as (w' & E2 & _).
    destruct HV as [[Ho Hd] _]. pose proof (ok_pool e now L P w view_ok Ho Hd) as Hp.
    assert (C : can_distribute ts w).
    { apply (distribute_iff now ts w Hp). exists w'. rewrite E1. cbn [rbind]. exact E2. }
    destruct C as (_ & _ & C). exact C.
Qed.

Lemma plain_iff ms i :
  ix_in_range i -> addressed e P w ms i L ->
  allowed e ts ms i L <-> plain e P V w ts ms i L.
Proof.
  intros Hr Ha. pose proof view_inv as HI. pose proof view_wf as HW.
  destruct (orderly_core e Henv Hinj Hrent P HP D HDonate HDinit _ _ _ _ HO HV) as [tv [_ _ Honly [Hvo Hvd] Hvm Hvow _]].
  pose proof HV as (Hw & Hty & HVk).
  assert (Hvault : forall mint b vault, cpa_vault e P mint b = Some vault -> owner_of L vault = spl_token_id e ->
    vault = V /\ mint = p_mint (wp w)).
  { intros mint b vault H1 H2. pose proof (Honly _ _ _ H1 H2) as ->. split; [reflexivity|].
    destruct (ei_vault _ Hinj _ _ _ _ _ _ _ H1 HVk) as (_ & E & _). exact E. }
  assert (Hbal : balance L V = t_amount tv) by (unfold balance; rewrite Hvd; reflexivity).
  assert (Hview : forall mining auth owner m, stake_accounts e ms L P mining auth owner w m ->
    minings_of e P L !! mining = Some m).
  { intros mining auth owner m S. apply in_view. split; [exact (sa_mining _ _ _ _ _ _ _ _ _ S)|exact (sa_of _ _ _ _ _ _ _ _ _ S)]. }
  assert (Hpool : forall mining auth owner w0 m, stake_accounts e ms L P mining auth owner w0 m -> w0 = w).
  { intros mining auth owner w0 m S. apply same_pool. exact (sa_pool _ _ _ _ _ _ _ _ _ S). }
  destruct i; cbn [allowed plain addressed ix_in_range] in *.
  - (* initialize pool *)
    split; [|tauto]. intros (pool & mint & vault & payer & auth & w0 & A & B & C & _).
    here A Ha. apply same_pool in B. subst w0. contradiction.
  - (* fill vault *)
    split.
    + intros (pool & mint & vault & auth & source & w0 & A & B & Hmo & Hvo' & Hso & Hf & Hs & Hne & Hc & X1 & X2 & X3 & X4 & X5).
      here A Ha. apply same_pool in B. subst w0. destruct (Hvault _ _ _ Hc Hvo') as [-> ->].
      destruct X5 as (s & d & S1 & S2 & S3 & S4 & S5 & S6). rewrite Hvd in S2. injection S2 as <-.
      exists auth, source, s. rewrite Hbal. repeat (split; [first [assumption|split; assumption|congruence]|]). exact S6.
    + intros (auth & source & s & A & Hmo & Hf & Hs & Hne & [Hso Hsd] & S3 & S4 & S5 & X1 & X2 & X3 & X4 & X5).
      exists P, (p_mint (wp w)), V, auth, source, w. repeat (split; [assumption|]).
      exists s, tv. rewrite Hbal in X5. repeat (split; [first [assumption|congruence]|]). exact X5.
  - (* initialize mining *)
    split.
    + intros (pool & mining & payer & A & B & C). here A Ha. eauto.
    + intros (mining & payer & A & B). exists P, mining, payer. split; [exact A|]. split; [apply Hw|exact B].
  - (* deposit *)
    destruct Hr as [[Hr _] _]. split.
    + intros (pool & mining & auth & dm & w0 & m & d & A & S & C & X). here A Ha. pose proof (Hpool _ _ _ _ _ S). subst w0.
      exists mining, auth, dm, m, d. repeat (split; [assumption|]).
      apply (deposit_plain False w _ _ ts HI HW mining m); [exact (Hview _ _ _ _ S)|exact (view_delegate _ _ _ _ C)|exact Hr|exact X].
    + intros (mining & auth & dm & m & d & A & S & C & X).
      exists P, mining, auth, dm, w, m, d. repeat (split; [assumption|]).
      apply (deposit_plain False w _ _ ts HI HW mining m); [exact (Hview _ _ _ _ S)|exact (view_delegate _ _ _ _ C)|exact Hr|exact X].
  - (* withdraw *)
    destruct Hr as [[Hr _] _]. split.
    + intros (pool & mining & auth & dm & w0 & m & d & A & S & C & X). here A Ha. pose proof (Hpool _ _ _ _ _ S). subst w0.
      exists mining, auth, dm, m, d. repeat (split; [assumption|]).
      apply (withdraw_plain False w _ _ ts HI HW mining m) in X; [exact X|exact (Hview _ _ _ _ S)|exact (view_delegate _ _ _ _ C)|exact Hr].
    + intros (mining & auth & dm & m & d & A & S & C & X).
      exists P, mining, auth, dm, w, m, d. repeat (split; [assumption|]).
      apply (withdraw_plain False w _ _ ts HI HW mining m); [exact (Hview _ _ _ _ S)|exact (view_delegate _ _ _ _ C)|exact Hr|exact X].
  - (* claim *)
    split.
    + intros (pool & mint & vault & mining & owner & auth & dest & w0 & m & t & A & B & Hm & Hmo & Hvo' & Hdo & Hdd & Ht & S1 & S2 & Ea & Eo & Ep & Hc & X1 & X2).
      revert Ep. here A Ha. intros Ep. apply same_pool in B. subst w0. destruct (Hvault _ _ _ Hc Hvo') as [-> ->].
      exists mining, owner, auth, dest, m, t. repeat (split; [first [assumption|split; assumption]|]).
      intros H0. destruct (X2 H0) as (s & d & C1 & C2 & C3 & C4 & C5 & C6). rewrite Hvd in C1. injection C1 as <-.
      rewrite Hdd in C2. injection C2 as <-. split; [congruence|]. intros H1. apply C6. congruence.
    + intros (mining & owner & auth & dest & m & t & A & [Hm Hmp] & Hmo & Eo & S1 & Ea & S2 & [Hdo Hdd] & Ht & X).
      exists P, (p_mint (wp w)), V, mining, owner, auth, dest, w, m, t.
      assert (Hk : minings_of e P L !! mining = Some m) by (apply in_view; split; assumption).
      repeat (split; [first [assumption|exact (plain_refresh False w _ _ ts HI HW mining m Hk)]|]).
      intros H0. destruct (X H0) as [X1 X2]. exists tv, t.
      pose proof (tokens_covered False w _ _ ts HI mining m Hk) as Hcov. rewrite Hbal in Hcov.
      repeat (split; [first [assumption|congruence|lia]|]). intros H1. apply X2. congruence.
  - (* extend *)
    destruct Hr as (_ & [Hr1 _] & [Hr2 _] & _). split.
    + intros (pool & mining & auth & dm & w0 & m & d & A & S & C & X). here A Ha. pose proof (Hpool _ _ _ _ _ S). subst w0.
      exists mining, auth, dm, m, d. repeat (split; [assumption|]).
      apply (extend_plain False w _ _ ts HI HW mining m) in X; [exact X|exact (Hview _ _ _ _ S)|exact (view_delegate _ _ _ _ C)|exact Hr1|exact Hr2].
    + intros (mining & auth & dm & m & d & A & S & C & X).
      exists P, mining, auth, dm, w, m, d. repeat (split; [assumption|]).
      apply (extend_plain False w _ _ ts HI HW mining m); [exact (Hview _ _ _ _ S)|exact (view_delegate _ _ _ _ C)|exact Hr1|exact Hr2|exact X].
  - (* distribute *)
    destruct Ha as [Ha Hlen]. split.
    + intros (pool & auth & w0 & A & B & X1 & X2 & X). here A Ha. apply same_pool in B. subst w0.
      exists auth. repeat (split; [assumption|]). apply distribute_plain; assumption.
    + intros (auth & A & X1 & X2 & X). exists P, auth, w. repeat (split; [assumption|]). apply distribute_plain; assumption.
  - (* close *)
    destruct Ha as [Ha Hof]. split.
    + intros (mining & owner & target & auth & pool & w0 & m & A & B & Hm & Ht & S1 & S2 & Ea & Eo & X1 & X2 & X3 & X4).
      here A Ha. apply same_pool in B. subst w0. exists mining, owner, target, auth, m. repeat (split; [assumption|]). assumption.
    + intros (mining & owner & target & auth & m & A & Hm & Ht & Eo & S1 & Ea & S2 & X2 & X3 & X4).
      exists mining, owner, target, auth, P, w, m.
      assert (Hk : minings_of e P L !! mining = Some m).
      { apply in_view. split; [assumption|]. apply (Hof mining); [|assumption]. eapply accounts_at; [exact A|reflexivity]. }
      repeat (split; [first [assumption|exact (plain_refresh False w _ _ ts HI HW mining m Hk)]|]). assumption.
  - (* change delegate *)
    destruct Ha as [Ha Hof]. destruct Hr as [[Hr _] _].
    assert (Hold : forall mining auth owner od nd old, accounts_are ms [P; mining; auth; owner; od; nd] ->
      delegate_part e L mining od old -> among (minings_of e P L) mining old).
    { intros mining auth owner od nd old A [[-> ->]|(Hne & x & Hx & ->)]; [exact I|]. exists od. split; [exact Hne|].
      apply in_view. split; [exact Hx|].
      eapply (Hof mining od); [eapply accounts_at; [exact A|reflexivity]|eapply accounts_at; [exact A|reflexivity]|exact Hne|exact Hx]. }
    split.
    + intros (pool & mining & auth & owner & od & nd & w0 & m & old & new & A & S & S1 & Hne & Ho & C & X). here A Ha.
      pose proof (Hpool _ _ _ _ _ S). subst w0. exists mining, auth, owner, od, nd, m, old, new. repeat (split; [assumption|]).
      apply (change_plain False w _ _ ts HI HW mining) in X; [exact X|exact (Hold _ _ _ _ _ _ A Ho)|exact (view_delegate _ _ _ _ C)|exact Hr|exact (Hview _ _ _ _ S)].
    + intros (mining & auth & owner & od & nd & m & old & new & A & S & S1 & Hne & Ho & C & X).
      exists P, mining, auth, owner, od, nd, w, m, old, new. repeat (split; [assumption|]).
      apply (change_plain False w _ _ ts HI HW mining); [exact (Hold _ _ _ _ _ _ A Ho)|exact (view_delegate _ _ _ _ C)|exact Hr|exact (Hview _ _ _ _ S)|exact X].
  - (* slash *)
    destruct Hr as (_ & _ & [Hr _] & _). split.
    + intros (auth & pool & mining & w0 & m & A & S & X). here A Ha. pose proof (Hpool _ _ _ _ _ S). subst w0.
      exists auth, mining, m. repeat (split; [assumption|]).
      apply (slash_plain False w _ _ ts HI HW mining m) in X; [exact X|exact (Hview _ _ _ _ S)|exact Hr].
    + intros (auth & mining & m & A & S & X). exists auth, P, mining, w, m. repeat (split; [assumption|]).
      apply (slash_plain False w _ _ ts HI HW mining m); [exact (Hview _ _ _ _ S)|exact Hr|exact X].
  - (* decrease *)
    split.
    + intros (auth & pool & mining & w0 & m & A & S & X). here A Ha. pose proof (Hpool _ _ _ _ _ S). subst w0. eauto 6.
    + intros (auth & mining & m & A & S & X). exists auth, P, mining, w, m. auto.
Qed.

Lemma plain_succeeds ms i :
  ix_in_range i -> addressed e P w ms i L ->
  (forall n k, In n (may_change i) -> account_at ms n k -> writable ms k) ->
  (exists x, exec e ts ms i L = Ok x) <-> plain e P V w ts ms i L.
Proof.
  intros Hr Ha Hwr. rewrite <- (plain_iff ms i Hr Ha).
  exact (succeeds_iff e Henv now ts ms i L (orderly_reached e P _ _ _ HO) Hts Hr Hwr).
Qed.
End ledger.
End env.

Section exact.
Context (e : env) (Henv : env_ok e) (Hinj : env_inj e) (Hrent : 0 < rent_min e MINING_LEN).

(** a pool whose share is exact has recorded every bonus its minings have *)
Lemma bonus_recorded P now ts L V w k m d x :
  P <> 0 -> orderly e P exact_disciplined now L -> pool_vault e L P V w -> now <= ts ->
  mining_in e L P k m -> day_start ts < d -> 0 < x -> holds_at d x (wm_diffs m) -> holds_at d x (wp_diffs w).
Proof.
  intros HP HO HV Hts Hm Hd Hx [_ Hh].
  destruct (orderly_core e Henv Hinj Hrent P HP _ (exact_donate) (exact_init) _ _ _ _ HO HV) as [t HA].
  pose proof (reachable_inv_exact _ (af_core _ _ _ _ _ _ _ _ HA)) as HI. unfold cinv, core_of in HI.
  cbn [c_pool c_min c_vault c_now] in HI. rewrite (pool_of_is e P L w (proj1 HV)) in HI.
  apply (inv_time _ _ _ _ _ ts) in HI; [|exact Hts]. rewrite <- bod_day_start in Hd.
  pose proof (pool_holds True w _ _ ts HI k m d I (proj1 (in_view e P L k m) Hm) Hd) as Hp.
  split; [|lia]. assert (H : at_date d (wp_diffs w) <> 0) by lia. clear -H.
  induction (wp_diffs w) as [|[a b] r IH]; cbn [at_date] in H; [congruence|].
  destruct (Z.eqb_spec a d) as [->|]; [exists b; left; reflexivity|].
  destruct (IH H) as [v Hv]. exists v. right. exact Hv.
Qed.
End exact.
