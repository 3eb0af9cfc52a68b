(** Statements about every ledger the program can reach. *)
From stdpp Require Import gmap.
From Verif Require Import Base OMap State Spec Ledger Program ResLemmas AccrualLemmas LedgerLemmas LedgerSpec
  FrameLemmas CodecLemmas WfLemmas History HistoryLemmas Changes AccessLemmas HistoryThms.

(** [L] is reached at time [now] from a chain on which the program was never used *)
Definition reached (e : env) (now : Z) (L : ledger) : Prop :=
  exists L0 evs, genesis e L0 /\ run e 0 L0 evs now L.

Section env.
Context (e : env) (Henv : env_ok e).

Lemma reached_ok now L : reached e now L -> ledger_ok e now L /\ addresses_ok e L /\ 0 <= now.
Proof.
  intros (L0 & evs & G & R).
  assert (H0 : ledger_ok e 0 L0) by (apply genesis_ok; [lia|assumption]).
  destruct (run_ok e Henv 0 L0 evs now L ltac:(lia) R H0) as [A B].
  split; [assumption|]. split; [|assumption].
  eapply run_addresses; [assumption|exact R|lia|assumption|]. apply genesis_addresses. assumption.
Qed.

Lemma reached_run now L evs now' L' : reached e now L -> run e now L evs now' L' -> reached e now' L'.
Proof.
  intros (L0 & evs0 & G & R) R'. exists L0, (evs0 ++ evs). split; [assumption|].
  clear G. induction R as [|now0 L0 ev L1 evs0 now1 L2 S R IH]; [assumption|].
  cbn. econstructor; [exact S|]. apply IH. assumption.
Qed.

(** a pool's configuration *)
Definition config (w : wpool) : list Z :=
  [p_deposit_auth (wp w); p_distribute_auth (wp w); p_fill_auth (wp w); p_mint (wp w); p_bump (wp w); p_type (wp w)].

Lemma pool_config now L evs now' L' k w :
  reached e now L -> run e now L evs now' L' ->
  is_pool e L k w -> p_type (wp w) = TYPE_POOL -> 0 < lamports_of L k ->
  exists w', is_pool e L' k w' /\ config w' = config w.
Proof.
  intros HL R Hw Ht Hl. destruct (reached_ok _ _ HL) as (A & _ & B).
  destruct (pool_persists e Henv _ _ _ _ _ _ _ R B A Hw Ht Hl) as (w' & P & (Q & _) & _).
  exists w'. split; [assumption|]. unfold config. destruct Q as (-> & -> & -> & -> & -> & ->). reflexivity.
Qed.

Lemma reinit_rejected ts ms f d L k w :
  account_at ms 0 k -> is_pool e L k w -> p_type (wp w) = TYPE_POOL ->
  exists err, exec e ts ms (InitializePool f d) L = Err err.
Proof.
  intros Ha [Ho Hd] Ht. destruct (exec e ts ms (InitializePool f d) L) as [[L' r]|err] eqn:E; [exfalso|eauto].
  apply exec_inv in E as [E _]. cbn [process] in E. apply no_ret_ok in E as [E _].
  apply init_pool_inv in E as (pool & mint & vault & payer & auth & bump & w0 & L1 & L2 & A & _ & _ & _ & _ & _ & Hd' & Hn & _).
  assert (k = pool) by (eapply at_fun; [eassumption|at_]). subst k. congruence.
Qed.

Lemma mining_created ts ms o L L' r :
  exec e ts ms (InitializeMining o) L = Ok (L', r) ->
  exists pool k bump, account_at ms 0 pool /\ account_at ms 1 k /\
    owner_of L pool = program_id e /\
    find_mining e o pool = (k, bump) /\ cpa_mining e o pool bump = Some k /\
    lamports_of L k = 0 /\ owner_of L k = system_id /\
    is_mining e L' k (WMining (Mining pool o 0 0 0 0 0 bump TYPE_MINING) []) /\
    lamports_of L' k = rent_min e 1776.
Proof.
  intros H. apply exec_inv in H as [H _]. cbn [process] in H. apply no_ret_ok in H as [H _].
  apply init_mining_inv in H as (pool & k & payer & bump & L1 & A & Hp & _ & _ & Hf & Hc & ->).
  apply create_account_inv in Hc as (_ & _ & _ & Hl & Ho & _ & _ & _ & Hne & _ & ->).
  exists pool, k, bump. split; [at_|]. split; [at_|]. split; [assumption|]. split; [assumption|].
  split; [apply (proj1 (eo_mining _ Henv _ _ _ _ Hf))|]. split; [assumption|]. split; [assumption|].
  unfold is_mining, owner_of, data_of, lamports_of, put_mining, put_data. rewrite !acc_insert. cbn.
  unfold mining_initialize. auto.
Qed.

Lemma mining_identity now L evs now' L' k m :
  reached e now L -> run e now L evs now' L' -> (forall ev, In ev evs -> ~ closes k ev) ->
  is_mining e L k m -> 0 < lamports_of L k ->
  exists m', is_mining e L' k m' /\ m_owner (wm m') = m_owner (wm m) /\ m_pool (wm m') = m_pool (wm m) /\
    m_bump (wm m') = m_bump (wm m) /\ m_type (wm m') = m_type (wm m).
Proof.
  intros HL R Hc Hm Hl. destruct (reached_ok _ _ HL) as (A & _ & B).
  destruct (mining_persists e Henv _ _ _ _ _ _ _ R B A Hc Hm Hl) as (m' & P & ((Q1 & Q2 & Q3 & Q4 & Q5) & _) & _).
  exists m'. auto.
Qed.

Lemma growing_app prev a b : growing prev (a ++ b) -> growing prev a /\ growing (last_from prev a) b.
Proof. revert prev. induction a as [|[k i] a IH]; cbn; intros prev H; [auto|]. destruct H as [H1 H2]. apply IH in H2. tauto. Qed.

Lemma pool_history now L evs now' L' k w :
  reached e now L -> run e now L evs now' L' ->
  is_pool e L k w -> p_type (wp w) = TYPE_POOL -> 0 < lamports_of L k ->
  exists w', is_pool e L' k w' /\ p_index (wp w) <= p_index (wp w') /\
    (exists more, wp_ci w' = wp_ci w ++ more /\ dates (fun d => day_start now <= d) more) /\
    ascending (wp_ci w') /\ growing 0 (wp_ci w') /\
    (forall d i, In (d, i) (wp_ci w') -> d mod 86400 = 0 /\ i <= p_index (wp w') /\ d <= now').
Proof.
  intros HL R Hw Ht Hl. destruct (reached_ok _ _ HL) as (A & _ & B).
  destruct (pool_persists e Henv _ _ _ _ _ _ _ R B A Hw Ht Hl) as (w' & P & (_ & Q & S) & _).
  exists w'. split; [assumption|]. split; [assumption|]. split; [assumption|].
  assert (HL' : reached e now' L') by (eapply reached_run; eassumption).
  destruct (reached_ok _ _ HL') as (A' & _ & B').
  pose proof (ok_pool e now' L' k w' A' (proj1 P) (proj2 P)) as W.
  split; [apply W|]. split; [apply W|]. intros d i Hin.
  split; [exact (pw_ci_days _ _ W _ _ Hin)|].
  pose proof (pw_ci_last _ _ W). pose proof (growing_in 0 _ _ _ (pw_ci_grow _ _ W) Hin).
  pose proof (pw_ci_dates _ _ W _ _ Hin) as D. cbn in D. rewrite <- bod_day_start in D.
  split; [lia|]. unfold bod, DAY in D. pose proof (Z.mod_pos_bound now' 86400). lia.
Qed.

Lemma mining_index now L evs now' L' k m :
  reached e now L -> run e now L evs now' L' -> (forall ev, In ev evs -> ~ closes k ev) ->
  is_mining e L k m -> 0 < lamports_of L k ->
  exists m', is_mining e L' k m' /\ m_index (wm m) <= m_index (wm m').
Proof.
  intros HL R Hc Hm Hl. destruct (reached_ok _ _ HL) as (A & _ & B).
  destruct (mining_persists e Henv _ _ _ _ _ _ _ R B A Hc Hm Hl) as (m' & P & (_ & Q) & _). eauto.
Qed.

(** ranges of the machine types *)
Definition pool_in_range (w : wpool) : Prop :=
  is_u128 (p_index (wp w)) /\ is_u64 (p_total (wp w)) /\ is_u64 (p_ends_at (wp w)) /\
  is_u64 (p_avail (wp w)) /\ is_u8 (p_bump (wp w)) /\
  (forall d v, In (d, v) (wp_diffs w) -> is_u64 d /\ is_u64 v) /\
  (forall d v, In (d, v) (wp_ci w) -> is_u64 d /\ is_u128 v) /\
  Z.of_nat (length (wp_diffs w)) <= 365 /\ Z.of_nat (length (wp_ci w)) <= 1095.
Definition mining_in_range (m : wmining) : Prop :=
  is_u128 (m_index (wm m)) /\ is_u64 (m_share (wm m)) /\ is_u64 (m_unclaimed (wm m)) /\
  is_u64 (m_sfo (wm m)) /\ is_u8 (m_bump (wm m)) /\
  (forall d v, In (d, v) (wm_diffs m) -> is_u64 d /\ is_u64 v) /\
  Z.of_nat (length (wm_diffs m)) <= 50.

Lemma run_now evs : forall now L now' L', run e now L evs now' L' -> is_u64 now -> is_u64 now'.
Proof.
  induction evs as [|ev evs IH]; intros now L now' L' R Hn; inversion R; subst; [assumption|].
  eapply IH; [eassumption|]. match goal with H : step _ _ _ _ _ |- _ => destruct H; assumption end.
Qed.

Lemma stored_in_range now L k :
  reached e now L ->
  is_u64 (lamports_of L k) /\
  (forall t, data_of L k = DToken t -> is_u64 (t_amount t)) /\
  (forall w, is_pool e L k w -> pool_in_range w) /\
  (forall m, is_mining e L k m -> mining_in_range m).
Proof.
  intros HL. destruct (reached_ok _ _ HL) as (A & _ & B).
  assert (Hnow : is_u64 now).
  { destruct HL as (L0 & evs & _ & R). eapply run_now; [exact R|]. unfold is_u64, U64. lia. }
  destruct (A k) as [[A1 A2] A3]. split; [exact A1|]. split.
  { intros t E. unfold data_of in E. rewrite E in A2. exact A2. }
  split.
  - intros w [Ho Hd]. pose proof (ok_pool e now L k w A Ho Hd) as W.
    repeat (split; [apply W|]). split.
    { intros d v Hin. split; [exact (proj1 (pw_diffs_dates _ _ W _ _ Hin))|exact (pw_diffs_vals _ _ W _ _ Hin)]. }
    split; [|split; apply W].
    intros d v Hin. split; [|exact (ci_values _ _ W _ _ Hin)].
    pose proof (pw_ci_dates _ _ W _ _ Hin) as D. cbn in D. rewrite <- bod_day_start in D.
    unfold bod, DAY, is_u64 in *. pose proof (Z.mod_pos_bound now 86400). lia.
  - intros m [Ho Hd]. pose proof (ok_mining e now L k m A Ho Hd) as W.
    repeat (split; [apply W|]). split; [|apply W].
    intros d v Hin. split; [exact (proj1 (mw_dates _ W _ _ Hin))|exact (mw_vals _ W _ _ Hin)].
Qed.

Lemma stored_dates now L k :
  reached e now L ->
  (forall w, is_pool e L k w ->
     p_ends_at (wp w) mod 86400 = 0 /\
     (forall d v, In (d, v) (wp_diffs w) -> d mod 86400 = 0) /\
     (forall d v, In (d, v) (wp_ci w) -> d mod 86400 = 0 /\ d <= now)) /\
  (forall m, is_mining e L k m -> forall d v, In (d, v) (wm_diffs m) -> d mod 86400 = 0).
Proof.
  intros HL. destruct (reached_ok _ _ HL) as (A & _ & _). split.
  - intros w [Ho Hd]. pose proof (ok_pool e now L k w A Ho Hd) as W. split; [apply W|]. split.
    + intros d v Hin. exact (proj2 (pw_diffs_dates _ _ W _ _ Hin)).
    + intros d v Hin. split; [exact (pw_ci_days _ _ W _ _ Hin)|].
      pose proof (pw_ci_dates _ _ W _ _ Hin) as D. cbn in D. rewrite <- bod_day_start in D.
      unfold bod, DAY in *. pose proof (Z.mod_pos_bound now 86400). lia.
  - intros m [Ho Hd] d v Hin. exact (proj2 (mw_dates _ (ok_mining e now L k m A Ho Hd) _ _ Hin)).
Qed.

Lemma other_minings (Hinj : env_inj e) now ts ms i L L' r P k m :
  reached e now L -> exec e ts ms i L = Ok (L', r) -> account_at ms (pool_position i) P ->
  is_mining e L k m -> m_type (wm m) = TYPE_MINING -> m_pool (wm m) <> P -> ~ hole ms i k ->
  acc L' k = acc L k.
Proof.
  intros HL. destruct (reached_ok _ _ HL) as (_ & A & _).
  apply (isolation_mining e Henv Hinj); assumption.
Qed.
End env.
