(** Consequences of the effects: distributions over time, full histories, stale expiries,
    retroactive removal, comparison of minings. *)
From stdpp Require Import gmap.
From Verif Require Import Base OMap State Spec EffectSpec Ledger Program ResLemmas TreeLemmas AccrualLemmas
  RefreshLemmas FrameLemmas WfLemmas LedgerLemmas LedgerSpec CodecLemmas History HistoryLemmas Changes AccessLemmas
  HistoryThms ReachThms CoreSteps CoreLive EffectLemmas EffectMethods EffectThms.

Lemma daily_part_spec b x ts :
  0 <= b ->
  0 <= daily_part b x ts <= b /\
  (x < ts + 86400 -> daily_part b x ts = b) /\
  (forall n, whole_days_left x ts n -> 1 <= n ->
     n * daily_part b x ts <= b < n * (daily_part b x ts + 1)).
Proof.
  intros Hb. split; [apply daily_part_bounds; assumption|]. unfold daily_part, whole_days_left. split.
  - intros H. assert (Z.max 0 (x - ts) / 86400 = 0) as -> by (apply Z.div_small; lia). reflexivity.
  - intros n [Hn H] H1. assert (Z.max 0 (x - ts) / 86400 = n) as ->.
    { rewrite Z.max_r by nia. symmetry. apply Z.div_unique with (r := x - ts - n * 86400); lia. }
    rewrite (proj2 (Z.eqb_neq n 0)) by lia.
    pose proof (Z.div_mod b n). pose proof (Z.mod_pos_bound b n). lia.
Qed.

Section env.
Context (e : env) (Henv : env_ok e).

Lemma reached_exec now ts ms i L L' r :
  reached e now L -> now <= ts -> is_u64 ts -> ix_in_range i -> exec e ts ms i L = Ok (L', r) -> reached e ts L'.
Proof.
  intros HL Hts H64 Hi H. apply (reached_run e now L [EvIx ts ms i] ts L' HL).
  econstructor; [|apply run_nil]. apply (step_ix e now L ts ms i L' r); assumption.
Qed.

(** the pool account survives a distribution *)
Lemma distribute_keeps ts ms L L' r P :
  exec e ts ms DistributeRewards L = Ok (L', r) -> account_at ms 0 P -> lamports_of L' P = lamports_of L P.
Proof.
  intros H HP. apply exec_inv in H as [H _]. cbn [process] in H. apply no_ret_ok in H as [H _].
  apply distribute_inv in H as (pool & auth & w0 & amt & w1 & Hms & HoP & _ & Hd & _ & _ & He & ->).
  apply lamports_put.
Qed.

Lemma pool_fun L k a b : is_pool e L k a -> is_pool e L k b -> a = b.
Proof. intros [_ H] [_ H']. congruence. Qed.
Lemma mining_fun L k a b : is_mining e L k a -> is_mining e L k b -> a = b.
Proof. intros [_ H] [_ H']. congruence. Qed.

(** ** C10 *)
Lemma second_distribution now ts ms L L' r P w :
  reached e now L -> now <= ts -> account_at ms 0 P -> is_pool e L P w -> has_date (day_start ts) (wp_ci w) ->
  exec e ts ms DistributeRewards L = Ok (L', r) ->
  exists w', is_pool e L' P w' /\
    wp_ci w' = wp_ci w /\ p_index (wp w') = p_index (wp w) /\ p_avail (wp w') = p_avail (wp w).
Proof.
  intros HL Hts HP Hw Hd H. apply (distribute_on_ledger e Henv now) in H as (P0 & w0 & w' & A1 & A2 & A3 & A4); [|assumption..].
  assert (P0 = P) by (eapply at_fun; eassumption). subst P0.
  assert (w0 = w) by (eapply pool_fun; eassumption). subst w0.
  exists w'. split; [assumption|]. cbv zeta in A4. apply A4. assumption.
Qed.

Lemma distribution_recorded now ts ms L L' r P w :
  reached e now L -> now <= ts -> account_at ms 0 P -> is_pool e L P w -> Z.of_nat (length (wp_ci w)) < 1095 ->
  exec e ts ms DistributeRewards L = Ok (L', r) ->
  exists w', is_pool e L' P w' /\ has_date (day_start ts) (wp_ci w').
Proof.
  intros HL Hts HP Hw Hl H. apply (distribute_on_ledger e Henv now) in H as (P0 & w0 & w' & A1 & A2 & A3 & A4); [|assumption..].
  assert (P0 = P) by (eapply at_fun; eassumption). subst P0.
  assert (w0 = w) by (eapply pool_fun; eassumption). subst w0.
  exists w'. split; [assumption|]. cbv zeta in A4. destruct A4 as (_ & _ & _ & _ & A & B).
  assert (Hdec : has_date (day_start ts) (wp_ci w) \/ ~ has_date (day_start ts) (wp_ci w)).
  { destruct (reached_ok e Henv _ _ HL) as (O & _). destruct Hw as [Ho Hd].
    pose proof (ok_pool e now L P w O Ho Hd) as W. rewrite (has_date_oget _ _ (pw_ci_asc _ _ W)).
    destruct (oget (day_start ts) (wp_ci w)); [left; discriminate|right; intros X; apply X; reflexivity]. }
  destruct Hdec as [Hd|Hd].
  - destruct (A Hd) as (-> & _). assumption.
  - destruct (B Hd) as (_ & _ & _ & ->). rewrite (proj2 (Z.ltb_lt _ _) Hl).
    exists (p_index (wp w')). apply in_app_iff. right. left. reflexivity.
Qed.

(** whatever happens in between, a second distribution on the day has no effect *)
Lemma one_distribution_per_day now ts ms L L1 r evs now' L2 ts' ms' L3 r' P w :
  reached e now L -> now <= ts -> is_u64 ts -> account_at ms 0 P -> account_at ms' 0 P ->
  is_pool e L P w -> p_type (wp w) = TYPE_POOL -> 0 < lamports_of L P ->
  Z.of_nat (length (wp_ci w)) < 1095 ->
  exec e ts ms DistributeRewards L = Ok (L1, r) ->
  run e ts L1 evs now' L2 -> now' <= ts' -> day_start ts' = day_start ts ->
  exec e ts' ms' DistributeRewards L2 = Ok (L3, r') ->
  exists w2 w3, is_pool e L2 P w2 /\ is_pool e L3 P w3 /\
    wp_ci w3 = wp_ci w2 /\ p_index (wp w3) = p_index (wp w2) /\ p_avail (wp w3) = p_avail (wp w2).
Proof.
  intros HL Hts H64 HP HP' Hw Ht Hlam Hl H R Hn Hday H2.
  pose proof (distribute_keeps _ _ _ _ _ _ H HP) as Hlam1.
  destruct (distribution_recorded _ _ _ _ _ _ _ _ HL Hts HP Hw Hl H) as (w1 & Hw1 & v & Hin).
  assert (HL1 : reached e ts L1) by (eapply (reached_exec now ts ms DistributeRewards); [exact HL|assumption..|exact I|eassumption]).
  assert (Ht1 : p_type (wp w1) = TYPE_POOL).
  { apply (distribute_on_ledger e Henv now) in H as (P0 & w0 & w' & A1 & A2 & A3 & A4); [|assumption..].
    assert (P0 = P) by (eapply at_fun; eassumption). subst P0.
    assert (w0 = w) by (eapply pool_fun; eassumption). subst w0.
    assert (w' = w1) by (eapply pool_fun; eassumption). subst w'.
    cbv zeta in A4. destruct A4 as ((_ & _ & _ & _ & _ & _ & X) & _). congruence. }
  destruct (pool_history e Henv _ _ _ _ _ _ _ HL1 R Hw1 Ht1 ltac:(lia)) as (w2 & Hw2 & _ & (more & Hmore & _) & _).
  assert (HL2 : reached e now' L2) by (eapply reached_run; eassumption).
  destruct (second_distribution now' ts' ms' L2 L3 r' P w2 HL2 Hn HP' Hw2) as (w3 & A); [|assumption|exists w2, w3; auto].
  rewrite Hday, Hmore. exists v. apply in_app_iff. left. assumption.
Qed.

(** ** C11 *)
Lemma full_forever now L evs now' L' P w :
  reached e now L -> run e now L evs now' L' ->
  is_pool e L P w -> p_type (wp w) = TYPE_POOL -> 0 < lamports_of L P ->
  Z.of_nat (length (wp_ci w)) = 1095 ->
  exists w', is_pool e L' P w' /\ wp_ci w' = wp_ci w.
Proof.
  intros HL R Hw Ht Hl Hf.
  destruct (pool_history e Henv _ _ _ _ _ _ _ HL R Hw Ht Hl) as (w' & Hw' & _ & (more & Hm & _) & _).
  exists w'. split; [assumption|].
  assert (HL' : reached e now' L') by (eapply reached_run; eassumption).
  destruct (reached_ok e Henv _ _ HL') as (O & _). destruct Hw' as [Ho Hd].
  pose proof (ok_pool e now' L' P w' O Ho Hd) as W. pose proof (pw_ci_len _ _ W) as Hlen.
  rewrite Hm, app_length in Hlen. destruct more; [rewrite Hm; apply app_nil_r|cbn in Hlen; lia].
Qed.

Lemma full_distribution now ts ms L L' r P w :
  reached e now L -> now <= ts -> account_at ms 0 P -> is_pool e L P w ->
  Z.of_nat (length (wp_ci w)) = 1095 -> ~ has_date (day_start ts) (wp_ci w) ->
  exec e ts ms DistributeRewards L = Ok (L', r) ->
  exists w', is_pool e L' P w' /\
    let part := daily_part (p_avail (wp w)) (p_ends_at (wp w)) ts in
    p_avail (wp w') = p_avail (wp w) - part /\
    p_index (wp w') = p_index (wp w) + 10000000000000000 * part / p_total (wp w') /\
    wp_ci w' = wp_ci w /\ ~ has_date (day_start ts) (wp_ci w').
Proof.
  intros HL Hts HP Hw Hl Hd H. apply (distribute_on_ledger e Henv now) in H as (P0 & w0 & w' & A1 & A2 & A3 & A4); [|assumption..].
  assert (P0 = P) by (eapply at_fun; eassumption). subst P0.
  assert (w0 = w) by (eapply pool_fun; eassumption). subst w0.
  exists w'. split; [assumption|]. cbv zeta in A4. destruct A4 as (_ & _ & _ & _ & _ & B).
  destruct (B Hd) as (_ & B0 & B1 & B2). rewrite Hl, Z.ltb_irrefl in B2. rewrite B2. cbv zeta. auto.
Qed.

(** the distribution changes no claim *)
Lemma full_pays_nobody now ts ms L L' r P w k m ts' m1 m2 :
  reached e now L -> now <= ts -> account_at ms 0 P -> is_pool e L P w ->
  Z.of_nat (length (wp_ci w)) = 1095 -> ~ has_date (day_start ts) (wp_ci w) ->
  exec e ts ms DistributeRewards L = Ok (L', r) ->
  is_mining e L k m ->
  exists w', is_pool e L' P w' /\ is_mining e L' k m /\
    (refreshed ts' (wp_ci w) m m1 -> refreshed ts' (wp_ci w') m m2 -> m1 = m2).
Proof.
  intros HL Hts HP Hw Hl Hd H Hm.
  destruct (full_distribution _ _ _ _ _ _ _ _ HL Hts HP Hw Hl Hd H) as (w' & Hw' & _ & _ & Hc & _).
  exists w'. split; [assumption|]. split.
  - apply exec_inv in H as [H _]. cbn [process] in H. apply no_ret_ok in H as [H _].
    apply distribute_inv in H as (pool & auth & w0 & amt & w1 & Hms & HoP & _ & Hdd & _ & _ & He & ->).
    destruct Hm as [M1 M2]. assert (pool <> k) by (intros ->; congruence).
    unfold is_mining, owner_of, data_of, put_pool. rewrite acc_put_data_ne by assumption. split; assumption.
  - rewrite Hc. apply refreshed_unique.
Qed.

(** ** C13 *)
(** [spread P n L b L']: on each of [n] days, with n, n-1, .., 1 whole days left, a
    distribution took effect on the pool [P]; in between anything happened that left the
    budget and the end date alone.  [b] lists the tokens of each. *)
Inductive spread (P : pubkey) : Z -> Z -> ledger -> list Z -> ledger -> Prop :=
| spread_nil now L : spread P 0 now L [] L
| spread_cons n now L ts ms r w L1 w1 evs now' L2 w2 parts L3 :
    now <= ts -> is_u64 ts -> account_at ms 0 P ->
    is_pool e L P w -> ~ has_date (day_start ts) (wp_ci w) ->
    whole_days_left (p_ends_at (wp w)) ts (n + 1) ->
    exec e ts ms DistributeRewards L = Ok (L1, r) -> is_pool e L1 P w1 ->
    run e ts L1 evs now' L2 -> is_pool e L2 P w2 ->
    p_avail (wp w2) = p_avail (wp w1) -> p_ends_at (wp w2) = p_ends_at (wp w1) ->
    spread P n now' L2 parts L3 ->
    spread P (n + 1) now L ((p_avail (wp w) - p_avail (wp w1)) :: parts) L3.

Fixpoint sum (l : list Z) : Z := match l with [] => 0 | x :: r => x + sum r end.

Lemma spread_even q P n now L parts L' :
  spread P n now L parts L' -> forall w, reached e now L -> is_pool e L P w ->
  q * n <= p_avail (wp w) <= (q + 1) * n ->
  Forall (fun x => q <= x <= q + 1) parts /\ sum parts = p_avail (wp w) /\
  exists w', is_pool e L' P w' /\ p_avail (wp w') = 0.
Proof.
  intros H. induction H as [now L|n now L ts ms r w L1 w1 evs now' L2 w2 parts L3 Hts H64 HP Hw Hno Hleft H Hw1 R Hw2 Ea Ex S IH];
    intros w0 HL Hw0 Hq.
  - split; [constructor|]. split; [cbn; lia|]. exists w0. split; [assumption|]. lia.
  - assert (w0 = w) by (eapply pool_fun; eassumption). subst w0.
    assert (HL1 : reached e ts L1) by (eapply (reached_exec now ts ms DistributeRewards); [exact HL|assumption..|exact I|eassumption]).
    assert (HL2 : reached e now' L2) by (eapply reached_run; eassumption).
    assert (Hn : 0 <= n). { clear -S. inversion S; [lia|]. match goal with H : whole_days_left _ _ _ |- _ => destruct H; lia end. }
    assert (Havail : 0 <= p_avail (wp w)).
    { destruct (reached_ok e Henv _ _ HL) as (O & _). destruct Hw as [Ho Hd].
      pose proof (ok_pool e now L P w O Ho Hd) as W. pose proof (pw_avail _ _ W) as A. unfold is_u64 in A. lia. }
    apply (distribute_on_ledger e Henv now) in H as (P0 & v & v' & A1 & A2 & A3 & A4); [|assumption..].
    assert (P0 = P) by (eapply at_fun; eassumption). subst P0.
    assert (v = w) by (eapply pool_fun; eassumption). subst v.
    assert (v' = w1) by (eapply pool_fun; eassumption). subst v'.
    cbv zeta in A4. destruct A4 as (_ & _ & _ & _ & _ & B). destruct (B Hno) as (_ & _ & Hav & _).
    destruct (daily_part_spec (p_avail (wp w)) (p_ends_at (wp w)) ts Havail) as (_ & _ & D).
    specialize (D (n + 1) Hleft ltac:(lia)).
    set (part := daily_part (p_avail (wp w)) (p_ends_at (wp w)) ts) in *.
    assert (Hpart : q <= part <= q + 1) by nia.
    destruct (IH w2 HL2 Hw2) as (F & E & X).
    { rewrite Ea, Hav. destruct (Z.eq_dec part q) as [->|]; nia. }
    split; [constructor; [lia|assumption]|]. split; [cbn [sum]; lia|assumption].
Qed.

Lemma spread_exhausts P n now L parts L' w :
  spread P n now L parts L' -> reached e now L -> is_pool e L P w -> 1 <= n ->
  let q := p_avail (wp w) / n in
  Forall (fun x => q <= x <= q + 1) parts /\ sum parts = p_avail (wp w) /\
  exists w', is_pool e L' P w' /\ p_avail (wp w') = 0.
Proof.
  intros S HL Hw Hn q. apply (spread_even q P n now L parts L' S w HL Hw). subst q.
  pose proof (Z.div_mod (p_avail (wp w)) n). pose proof (Z.mod_pos_bound (p_avail (wp w)) n). lia.
Qed.

Lemma last_distribution now ts ms L L' r P w :
  reached e now L -> now <= ts -> account_at ms 0 P -> is_pool e L P w -> ~ has_date (day_start ts) (wp_ci w) ->
  p_ends_at (wp w) < ts + 2 * 86400 ->
  exec e ts ms DistributeRewards L = Ok (L', r) ->
  exists w', is_pool e L' P w' /\ p_avail (wp w') = 0.
Proof.
  intros HL Hts HP Hw Hno Hend H.
  assert (Havail : 0 <= p_avail (wp w)).
  { destruct (reached_ok e Henv _ _ HL) as (O & _). destruct Hw as [Ho Hd].
    pose proof (ok_pool e now L P w O Ho Hd) as W. pose proof (pw_avail _ _ W) as A. unfold is_u64 in A. lia. }
  apply (distribute_on_ledger e Henv now) in H as (P0 & v & w1 & A1 & A2 & A3 & A4); [|assumption..].
  assert (P0 = P) by (eapply at_fun; eassumption). subst P0.
  assert (v = w) by (eapply pool_fun; eassumption). subst v.
  cbv zeta in A4. destruct A4 as (_ & _ & _ & _ & _ & B). destruct (B Hno) as (_ & _ & Hav & _).
  exists w1. split; [assumption|].
  destruct (daily_part_spec (p_avail (wp w)) (p_ends_at (wp w)) ts Havail) as (_ & D0 & D).
  destruct (Z_lt_le_dec (p_ends_at (wp w)) (ts + 86400)) as [Hlt|Hge]; [rewrite D0 in Hav by assumption; lia|].
  specialize (D 1 ltac:(unfold whole_days_left; lia) ltac:(lia)). lia.
Qed.

(** ** C31: a pool whose due expiries exceed its total share is stuck *)
Definition uses_total (i : ix) : Prop :=
  match i with DistributeRewards | WithdrawMining _ _ _ | Slash _ _ _ _ => True | _ => False end.

Lemma stuck now ts ms i L P w :
  reached e now L -> now <= ts -> is_u64 ts -> ix_in_range i -> uses_total i ->
  account_at ms (pool_position i) P -> is_pool e L P w ->
  p_total (wp w) < due (day_start ts) (wp_diffs w) ->
  exists er, exec e ts ms i L = Err er.
Proof.
  intros HL Hts H64 Hi Hu HP Hw Hlt. destruct (exec e ts ms i L) as [[L' r]|er] eqn:E; [exfalso|eauto].
  pose proof (reached_exec now ts ms i L L' r HL Hts H64 Hi E) as HL'.
  assert (Hpos : forall w', is_pool e L' P w' -> 0 <= p_total (wp w')).
  { intros w' [Ho Hd]. destruct (reached_ok e Henv _ _ HL') as (O & _).
    pose proof (ok_pool e ts L' P w' O Ho Hd) as W. pose proof (pw_total _ _ W) as A. unfold is_u64 in A. lia. }
  destruct i; try contradiction; cbn [pool_position] in HP.
  - apply (withdraw_on_ledger e Henv now) in E as (P0 & k & D & w0 & m & m1 & w' & m' & A1 & _ & _ & A4 & _ & A6 & _ & _ & _ & Hle & _ & _ & _ & HT & _);
      [|assumption|assumption|apply Hi].
    assert (P0 = P) by (eapply at_fun; eassumption). subst P0.
    assert (w0 = w) by (eapply pool_fun; eassumption). subst w0.
    specialize (Hpos _ A6). unfold if_other in HT. destruct Hi as [[Ha _] _]. destruct (D =? k); lia.
  - apply (distribute_on_ledger e Henv now) in E as (P0 & w0 & w' & A1 & A2 & A3 & A4); [|assumption..].
    assert (P0 = P) by (eapply at_fun; eassumption). subst P0.
    assert (w0 = w) by (eapply pool_fun; eassumption). subst w0.
    specialize (Hpos _ A3). cbv zeta in A4. lia.
  - destruct Hi as (Hk & Hn & Hwt & Hdt).
    apply (slash_on_ledger e Henv now) in E as (P0 & k & w0 & m & m1 & w' & m' & A1 & _ & A4 & _ & A6 & _ & _ & _ & _ & Hle & _ & HT & _);
      [|assumption|assumption|assumption|assumption].
    assert (P0 = P) by (eapply at_fun; eassumption). subst P0.
    assert (w0 = w) by (eapply pool_fun; eassumption). subst w0.
    specialize (Hpos _ A6). unfold is_u64 in Hwt. lia.
Qed.

(** an early extension keeps every scheduled drop of the pool *)
Lemma extend_keeps_drops now ts ms op np st b a o d L L' r :
  reached e now L -> now <= ts -> is_u64 b -> is_u64 a -> exec e ts ms (ExtendStake op np st b a o d) L = Ok (L', r) ->
  exists P w w', account_at ms 0 P /\ is_pool e L P w /\ is_pool e L' P w' /\
    forall x, at_date x (wp_diffs w) <= at_date x (wp_diffs w').
Proof.
  intros HL Hts Hb Ha H. apply (extend_on_ledger e Henv now) in H; [|assumption..]. cbv zeta in H.
  destruct H as (P & k & D & w & m & m1 & t & w' & m' & A1 & _ & _ & A4 & _ & A6 & _ & _ & Hnp & _ & _ & _ & _ & _ & _ & _ & _ & [S1 S2] & _).
  exists P, w, w'. do 3 (split; [assumption|]). intros x.
  assert (Hwt : 0 <= (b + a) * (weight_of np - 1)).
  { unfold is_u64 in *. assert (1 <= weight_of np) by (destruct np; cbn; congruence || lia). nia. }
  destruct (Z.leb_spec 365 (Z.of_nat (length (wp_diffs w)))) as [Hcap|Hcap].
  - destruct (reached_ok e Henv _ _ HL) as (O & _). destruct A4 as [Ho Hd].
    pose proof (ok_pool e now L P w O Ho Hd) as W.
    destruct (oget (expiry np ts) (wp_diffs w)) eqn:E.
    + destruct S1 as [S1 _]; [left; rewrite has_date_oget by apply W; congruence|]. rewrite S1. destruct (x =? _); lia.
    + rewrite S2; [lia| |assumption]. rewrite has_date_oget by apply W. congruence.
  - destruct S1 as [S1 _]; [right; assumption|]. rewrite S1. destruct (x =? _); lia.
Qed.

(** ** C32, C29, C30: rejections *)
Lemma same_delegates ts ms a nd L k : account_at ms 4 k -> account_at ms 5 k ->
  exists er, exec e ts ms (ChangeDelegate a nd) L = Err er.
Proof.
  intros H4 H5. destruct (exec e ts ms (ChangeDelegate a nd) L) as [[L' r]|er] eqn:E; [exfalso|eauto].
  apply exec_inv in E as [E _]. cbn [process] in E. apply no_ret_ok in E as [E _].
  apply change_inv in E as (P & k0 & auth & ow & O & N & w & m & w' & m' & od' & nd' & Hms & _ & _ & _ & _ & _ & HON & _).
  assert (k = O) by (eapply at_fun; [exact H4|at_]). assert (k = N) by (eapply at_fun; [exact H5|at_]). congruence.
Qed.

Lemma slash_unscheduled now ts ms o n wt x L P w k m :
  reached e now L -> now <= ts -> is_u64 n -> is_u64 wt ->
  account_at ms 1 P -> account_at ms 2 k -> is_pool e L P w -> is_mining e L k m ->
  ~ has_date (day_start x) (after (day_start ts) (wp_diffs w)) \/
  ~ has_date (day_start x) (after (day_start ts) (wm_diffs m)) ->
  exists er, exec e ts ms (Slash o n wt (Some x)) L = Err er.
Proof.
  intros HL Hts Hn Hwt H1 H2 Hw Hm Hno. destruct (exec e ts ms _ L) as [[L' r]|er] eqn:E; [exfalso|eauto].
  apply (slash_on_ledger e Henv now) in E as (P0 & k0 & w0 & m0 & m1 & w' & m' & A1 & A2 & A3 & A4 & _ & _ & R & _ & _ & _ & _ & _ & _ & [X1 _] & [X2 _] & _); [|assumption..].
  assert (P0 = P) by (eapply at_fun; eassumption). subst P0.
  assert (k0 = k) by (eapply at_fun; eassumption). subst k0.
  assert (w0 = w) by (eapply pool_fun; eassumption). subst w0.
  assert (m0 = m) by (eapply mining_fun; eassumption). subst m0.
  rewrite (rf_diffs _ _ _ _ R) in X1. destruct Hno; contradiction.
Qed.

Lemma decrease_rejected ts ms o n L P w k m :
  account_at ms 1 P -> account_at ms 2 k -> is_pool e L P w -> is_mining e L k m ->
  0 <= m_share (wm m) < n -> exists er, exec e ts ms (DecreaseRewards o n) L = Err er.
Proof.
  intros H1 H2 Hw Hm Hn. destruct (exec e ts ms _ L) as [[L' r]|er] eqn:E; [exfalso|eauto].
  apply exec_inv in E as [E _]. cbn [process] in E. apply no_ret_ok in E as [E _].
  apply decrease_inv in E as (auth & P0 & k0 & w0 & m0 & m' & Hms & Hc & He & ->).
  assert (k = k0) by (eapply at_fun; [exact H2|at_]). subst k0.
  assert (m0 = m) by (destruct Hc, Hm; congruence). subst m0.
  destruct (decrease_too_big n m Hn) as [er X]. congruence.
Qed.

(** ** C33 *)
Lemma close_on_ledger now ts ms L L' r :
  reached e now L -> exec e ts ms CloseMining L = Ok (L', r) ->
  exists k owner target P w m m1,
    account_at ms 0 k /\ account_at ms 1 owner /\ account_at ms 2 target /\ account_at ms 4 P /\
    is_pool e L P w /\ is_mining e L k m /\ m_owner (wm m) = owner /\ signed ms owner /\
    refreshed ts (wp_ci w) m m1 /\ m_sfo (wm m) = 0 /\ m_unclaimed (wm m1) = 0 /\
    acc L' k = Account 0 (program_id e) (DMining zero_wmining) /\
    lamports_of L' target = lamports_of L target + lamports_of L k /\
    owner_of L' target = owner_of L target /\ data_of L' target = data_of L target /\
    (forall q, q <> k -> q <> target -> acc L' q = acc L q) /\
    (forall q t, data_of L q = DToken t -> data_of L' q = DToken t) /\
    (forall q v, is_pool e L q v -> acc L' q = acc L q).
Proof.
  intros HL H. destruct (reached_ok e Henv _ _ HL) as (A & _ & B).
  apply exec_inv in H as [H _]. cbn [process] in H. apply no_ret_ok in H as [H _].
  apply close_inv in H as (k & owner & target & auth & P & w & m & m1 & Hms & Hok & Hot & HoP & Hso & _ & Hd & _ & Hne & Hdm & Hmo & Hr & Hsf & Hu & _ & ->).
  pose proof (ok_pool e now L P w A HoP Hd) as Wp. pose proof (ok_mining e now L k m A Hok Hdm) as Wm.
  pose proof (refresh_refreshed ts (wp_ci w) m m1 (pool_wf_hist _ _ Wp) (mining_wf_min _ Wm) Hr) as R.
  assert (Hkt : k <> target). { intros ->. pose proof (eo_sys _ Henv). congruence. }
  assert (Hother : forall q, q <> k -> q <> target ->
    acc (<[k:=Account 0 (owner_of L k) (DMining zero_wmining)]> (put_lamports L target (a_lamports (acc L target) + a_lamports (acc L k)))) q = acc L q).
  { intros q H1 H2. unfold put_lamports. rewrite acc_insert_ne, acc_insert_ne by congruence. reflexivity. }
  assert (Htgt : acc (<[k:=Account 0 (owner_of L k) (DMining zero_wmining)]> (put_lamports L target (a_lamports (acc L target) + a_lamports (acc L k)))) target
    = Account (a_lamports (acc L target) + a_lamports (acc L k)) (a_owner (acc L target)) (a_data (acc L target))).
  { unfold put_lamports. rewrite acc_insert_ne by congruence. apply acc_insert. }
  exists k, owner, target, P, w, m, m1. do 4 (split; [at_|]). do 2 (split; [split; assumption|]).
  do 3 (split; [assumption|]).
  split. { rewrite (rf_sfo _ _ _ _ R) in Hsf. pose proof (mw_sfo _ Wm) as X. unfold is_u64 in X. lia. }
  split; [assumption|]. split; [rewrite acc_insert; rewrite Hok; reflexivity|].
  unfold lamports_of, owner_of, data_of in *. rewrite Htgt. cbn [a_lamports a_owner a_data].
  do 3 (split; [reflexivity|]). split; [assumption|]. split.
  - intros q t Hq. destruct (Z.eq_dec q target) as [->|]; [rewrite Htgt; assumption|].
    rewrite Hother; [assumption| |assumption]. intros ->. congruence.
  - intros q v [Hq1 Hq2]. unfold owner_of, data_of in *. apply Hother.
    + intros ->. congruence.
    + intros ->. pose proof (eo_sys _ Henv). congruence.
Qed.

End env.

(** ** C34 *)
Lemma expiry_facts p ts : p <> LNone ->
  expiry p ts mod 86400 = 0 /\ ts + 4 * 86400 < expiry p ts <= ts + 365 * 86400 /\
  expiry p ts = day_start ts + 86400 * days_of p.
Proof.
  intros Hp. unfold expiry, day_start. pose proof (Z.div_mod ts 86400). pose proof (Z.mod_pos_bound ts 86400).
  split; [|split; [|reflexivity]].
  - rewrite <- (Z.mod_mul (ts / 86400 + days_of p) 86400) by discriminate. f_equal. lia.
  - destruct p; cbn [days_of]; try congruence; lia.
Qed.

(** what the three methods of [LockupPeriod] return *)
Lemma lockup_methods p ts : 0 <= ts -> ts + 366 * 86400 < 2 ^ 64 ->
  (p = LNone -> end_timestamp p ts = Err InvalidLockupPeriod /\ lockup_days p = Err InvalidLockupPeriod /\ multiplier p = 0) /\
  (p <> LNone -> end_timestamp p ts = Ok (expiry p ts) /\ lockup_days p = Ok (days_of p) /\ multiplier p = weight_of p).
Proof.
  intros H0 H1. split; intros Hp; [subst; repeat split|]. split; [apply expiry_at; assumption|].
  destruct p; try congruence; split; reflexivity.
Qed.

Lemma deposit_none_rejected e ts ms a o d L : exists er, exec e ts ms (DepositMining a LNone o d) L = Err er.
Proof.
  destruct (exec e ts ms (DepositMining a LNone o d) L) as [[L' r]|er] eqn:E; [exfalso|eauto].
  apply exec_inv in E as [E _]. cbn [process] in E. apply no_ret_ok in E as [E _].
  apply deposit_inv in E as (P & k & auth & D & w & m & w' & m' & d' & Hms & Hc & Hd & Ho & He & ->).
  unfold deposit in He. inv. match goal with H : end_timestamp LNone _ = Ok _ |- _ => discriminate H end.
Qed.
Lemma extend_none_rejected e ts ms op np st b a o d L : op = LNone \/ np = LNone ->
  exists er, exec e ts ms (ExtendStake op np st b a o d) L = Err er.
Proof.
  intros Hp. destruct (exec e ts ms _ L) as [[L' r]|er] eqn:E; [exfalso|eauto].
  apply exec_inv in E as [E _]. cbn [process] in E. apply no_ret_ok in E as [E _].
  apply extend_inv in E as (P & k & auth & D & w & m & w' & m' & d' & Hms & Hc & Hd & Ho & He & ->).
  unfold extend in He.
  destruct (refresh ts (wp_ci w) m) as [m1|] eqn:E1; cbn [rbind] in He; [|discriminate].
  destruct Hp as [->| ->].
  - cbn in He. discriminate.
  - destruct (if lockup_eqb op LFlex then _ else _) as [oe|]; cbn [rbind] in He; [|discriminate].
    destruct (safe_mul64 b _) as [fl|]; cbn [rbind] in He; [|discriminate].
    match type of He with rbind ?x _ = _ => destruct x as [[m2 t]|] end; cbn [rbind] in He; [|discriminate].
    destruct (safe_add64 b a) as [am|]; cbn [rbind] in He; [|discriminate].
    destruct (delegate_sub _ _ _ _ _) as [[t' d1]|]; cbn [rbind] in He; [|discriminate].
    unfold deposit in He. inv. match goal with H : end_timestamp LNone _ = Ok _ |- _ => discriminate H end.
Qed.
