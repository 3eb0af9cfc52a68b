(** C93: the unit in which stakes are counted makes no difference but for rounding. *)
From stdpp Require Import gmap.
From Verif Require Import Base OMap State Spec EffectSpec SuccessSpec Ledger Program Clients LedgerLemmas LedgerSpec
  CodecLemmas History Scenario Attacks HistoryThms ReachThms FreezeSpec PropsFreeze CapSpec IncomeSpec DiarySpec Diary PropsDiary LogSpec Log PropsLog
  CompareSpec Compare PropsCompare LongerSpec Longer PropsLonger OwnSpec Own PropsOwn PartsSpec Parts PropsParts WfLemmas ScaleSpec Scale.

(** Two histories in which the same is done at the same times, in the second with [c] times the stake
    everywhere.  Then budgets and dates stay the same and all stakes [c] times as large, and what the
    mining was paid and credited in the second is never more than in the first, and less at most by the
    rests of the index, which are below [c] for every distribution, and the rounding of the credits. *)
Theorem C93_units : forall e1 e2, env_ok e1 -> env_ok e2 -> forall c P1 P2 k1 k2 now1 L1 now1' L1' now2 L2 now2' L2' b d x y v w v' w' m n m' n' s t,
  1 <= c -> reached e1 now1 L1 -> reached e2 now2 L2 ->
  full_log e1 P1 k1 now1 L1 now1' L1' b x -> full_log e2 P2 k2 now2 L2 now2' L2' d y -> Forall2 (scaled c) b d ->
  always e1 P1 k1 now1 L1 b (fun m => m_share (wm m) <= s /\ m_sfo (wm m) <= t) ->
  is_pool e1 L1 P1 v -> is_pool e2 L2 P2 w -> pool_times c v w ->
  is_mining e1 L1 k1 m -> is_mining e2 L2 k2 n -> mining_times c m n -> same_place v w m n -> m_unclaimed (wm m) = m_unclaimed (wm n) ->
  is_pool e1 L1' P1 v' -> is_pool e2 L2' P2 w' -> is_mining e1 L1' k1 m' -> is_mining e2 L2' k2 n' ->
  pool_times c v' w' /\ mining_times c m' n' /\ same_place v' w' m' n' /\
  let coarse := x + m_unclaimed (wm m') in let fine := y + m_unclaimed (wm n') in
  fine <= coarse /\
  10000000000000000 * (coarse - fine) <=
    (s + t) * ((c - 1) * Z.of_nat (length (wp_ci v'))) +
    (10000000000000000 - 1) * (how_many works b + how_many plans b + Z.of_nat (length (wm_diffs m))).
Proof. exact other_unit. Qed.
Print Assumptions C93_units.

(** Pools and minings without stake and without distributions are a start. *)
Theorem C93_start : forall c v w m n,
  p_total (wp v) = 0 -> p_total (wp w) = 0 -> wp_diffs v = [] -> wp_diffs w = [] -> wp_ci v = [] -> wp_ci w = [] ->
  p_avail (wp v) = p_avail (wp w) -> p_ends_at (wp v) = p_ends_at (wp w) ->
  m_share (wm m) = 0 -> m_share (wm n) = 0 -> m_sfo (wm m) = 0 -> m_sfo (wm n) = 0 -> wm_diffs m = [] -> wm_diffs n = [] ->
  m_index (wm m) = 0 -> m_index (wm n) = 0 -> pool_times c v w /\ mining_times c m n /\ same_place v w m n.
Proof.
  intros c v w m n T1 T2 D1 D2 C1 C2 A E S1 S2 F1 F2 G1 G2 I1 I2. split; [|split].
  - constructor; [congruence| |exact A|exact E|rewrite C1, C2; exact I]. intros d. unfold all. rewrite T1, T2, D1, D2. cbn. lia.
  - constructor; [congruence| |lia]. intros d. unfold own. rewrite S1, S2, G1, G2. cbn. lia.
  - exists 0%nat. rewrite C1, C2. cbn. auto with lia.
Qed.
Print Assumptions C93_start.

(** ** ALICE and BOB stake, BOB's stake is delegated to ALICE; everything [c] times *)
Definition a_term (c : Z) : list call :=
  let k := mining_of ALICE POOL in let j := mining_of BOB POOL in
  [(at_noon 101, b_deposit POOL k AUTH k (20000000 * c) L3M ALICE ALICE);
   (at_noon 101, b_deposit POOL j AUTH k (5000000 * c) L6M BOB ALICE);
   (at_noon 102, b_fill_vault env0 POOL MINT (vault_of POOL) FILLER SOURCE 1000 (at_noon 106));
   (at_noon 103, b_distribute POOL DISTR);
   (at_noon 103, b_claim env0 POOL MINT (vault_of POOL) k ALICE AUTH ALICE_T);
   (at_noon 104, b_extend POOL k AUTH k L3M L1Y (at_noon 101) (20000000 * c) (77 * c) ALICE ALICE);
   (at_noon 104, b_distribute POOL DISTR);
   (at_noon 105, b_slash AUTH POOL j BOB (10 * c) (40 * c) (Some (at_noon 281)));
   (at_noon 105, b_withdraw POOL j AUTH k (100 * c) BOB ALICE);
   (at_noon 105, b_distribute POOL DISTR);
   (at_noon 105, b_decrease AUTH POOL k ALICE (30 * c));
   (at_noon 106, b_distribute POOL DISTR);
   (at_noon 107, b_claim env0 POOL MINT (vault_of POOL) k ALICE AUTH ALICE_T)].
Definition term (c : Z) := write_log POOL (mining_of ALICE POOL) (at_noon 100) (ledger_after two_pools) (a_term c).

(** the states of a mining after each call, where every call has an entry *)
Definition mark (P k : pubkey) (now : Z) (L : ledger) (cs : list call) (b : list full_entry) (Q : wmining -> Prop) (n : nat) : Prop :=
  match write_log P k now L (firstn n cs) with
  | Some (_, L1, c, _) => c = firstn n b /\ match mining_at L1 k with Some m => Q m | None => False end
  | None => False
  end.
Definition marks (P k : pubkey) (now : Z) (L : ledger) (cs : list call) (b : list full_entry) (Q : wmining -> Prop) : Prop :=
  fold_right (fun n r => mark P k now L cs b Q n /\ r) True (seq 0 (S (length b))).
Lemma marks_in P k now L cs b Q l n : In n l -> fold_right (fun n r => mark P k now L cs b Q n /\ r) True l -> mark P k now L cs b Q n.
Proof. induction l as [|i l IH]; cbn; [tauto|]. intros [->|I] [H R]; [exact H|exact (IH I R)]. Qed.
Lemma marks_always P k now L cs b (Q : wmining -> Prop) : reached env0 now L ->
  (forall m n, alike m n -> Q m -> Q n) -> marks P k now L cs b Q -> always env0 P k now L b Q.
Proof.
  intros R C S b1 b2 now1 L1 x m E F Hm.
  assert (I : In (length b1) (seq 0 (Datatypes.S (length b)))) by (apply in_seq; rewrite E, app_length; lia).
  apply (marks_in _ _ _ _ _ _ _ _ _ I) in S. unfold mark in S.
  assert (T : firstn (length b1) b = b1) by (rewrite E, take_app; reflexivity).
  rewrite T in S. destruct (write_log P k now L (firstn (length b1) cs)) as [[[[n1 L2] c] y]|] eqn:W; [|contradiction].
  destruct S as [-> S]. apply write_log_ok in W.
  destruct (full_log_running _ _ _ _ _ _ _ _ _ F) as [(w0 & Hw0 & _) (m0 & Hm0 & _)].
  destruct (full_log_end_pool _ _ _ _ _ _ _ _ _ W) as (v & Hv & _). destruct (full_log_end _ _ _ _ _ _ _ _ _ W) as (u & Hu & _).
  destruct (full_log_end_pool _ _ _ _ _ _ _ _ _ F) as (w & Hw & _).
  unfold mining_at in S. rewrite (proj2 Hu) in S.
  destruct (same_full_log env0 env0 env0_ok env0_ok _ _ _ _ _ _ _ _ _ _ _ _ _ _ _ _ _ _ _ _ _ _ _ R R W F Hw0 Hw0 ltac:(unfold pools_alike; tauto) Hm0 Hm0 ltac:(unfold alike; tauto) Hv Hw Hu Hm) as (_ & A & B).
  exact (C _ _ B S).
Qed.

Lemma terms : Forall2 (scaled 3) (entries (term 1)) (entries (term 3)).
Proof. written (entries (term 1)). written (entries (term 3)). repeat (constructor; [vm_compute; repeat split; reflexivity|]). constructor. Qed.
Lemma term_marks : marks POOL (mining_of ALICE POOL) (at_noon 100) (ledger_after two_pools) (a_term 1) (entries (term 1)) (fun m => m_share (wm m) <= 120000500 /\ m_sfo (wm m) <= 5000000).
Proof. vm_compute. compare. Qed.
Lemma two_reached : reached env0 (at_noon 100) (ledger_after two_pools).
Proof. apply plays_reached. vm_compute. reflexivity. Qed.
Lemma term_always : always env0 POOL (mining_of ALICE POOL) (at_noon 100) (ledger_after two_pools) (entries (term 1)) (fun m => m_share (wm m) <= 120000500 /\ m_sfo (wm m) <= 5000000).
Proof.
  apply (marks_always _ _ _ _ (a_term 1)); [exact two_reached| |exact term_marks]. intros m n (_ & A & _ & B & _). rewrite A, B. auto.
Qed.
Example C93_example :
  Forall2 (scaled 3) (entries (term 1)) (entries (term 3)) /\ how_many works (entries (term 1)) = 7 /\ how_many plans (entries (term 1)) = 3 /\
  always env0 POOL (mining_of ALICE POOL) (at_noon 100) (ledger_after two_pools) (entries (term 1)) (fun m => m_share (wm m) <= 120000500 /\ m_sfo (wm m) <= 5000000) /\
  match term 1, term 3 with
  | Some (_, L, b, x), Some (_, L', d, y) =>
      x = 777 /\ y = 777 /\
      match pool_at L POOL, pool_at L' POOL, mining_at L (mining_of ALICE POOL), mining_at L' (mining_of ALICE POOL) with
      | Some v, Some w, Some m, Some n =>
          length (wp_ci v) = 4%nat /\ p_total (wp v) = 145000222 /\ p_total (wp w) = 3 * 145000222 /\ m_index (wm m) = 3 * m_index (wm n) + 1 /\
          m_unclaimed (wm m) = 0 /\ m_unclaimed (wm n) = 0
      | _, _, _, _ => False end
  | _, _ => False end.
Proof. split; [exact terms|]. split; [vm_compute; reflexivity|]. split; [vm_compute; reflexivity|]. split; [exact term_always|]. vm_compute. repeat split. Qed.

(** ** What does not hold *)
(** The payments need not be the same: ALICE alone stakes 100 and gets the 10 tokens there are, or
    stakes 300 and gets 9. *)
Definition a_unit (c : Z) : list call :=
  let k := mining_of ALICE POOL in
  [(at_noon 101, b_deposit POOL k AUTH k (100 * c) LFlex ALICE ALICE);
   (at_noon 102, b_fill_vault env0 POOL MINT (vault_of POOL) FILLER SOURCE 10 (at_noon 103));
   (at_noon 103, b_distribute POOL DISTR);
   (at_noon 105, b_claim env0 POOL MINT (vault_of POOL) k ALICE AUTH ALICE_T)].
Definition unit_log (c : Z) := write_log POOL (mining_of ALICE POOL) (at_noon 100) (ledger_after two_pools) (a_unit c).
Lemma units : match unit_log 1, unit_log 3 with
  | Some (n1, L1, d, x), Some (n2, L2, c, y) =>
      Forall2 (scaled 3) d c /\ x = 10 /\ y = 9 /\
      match mining_at L1 (mining_of ALICE POOL), mining_at L2 (mining_of ALICE POOL) with
      | Some m, Some n => m_unclaimed (wm m) = 0 /\ m_unclaimed (wm n) = 0 | _, _ => False end
  | _, _ => False end.
Proof. vm_compute. compare. Qed.
Theorem C93_exact_refuted : exists e P k now L now1 L1 now2 L2 b d x y m n,
  env_ok e /\ reached e now L /\ full_log e P k now L now1 L1 b x /\ full_log e P k now L now2 L2 d y /\ Forall2 (scaled 3) b d /\
  is_mining e L1 k m /\ is_mining e L2 k n /\ x + m_unclaimed (wm m) = 10 /\ y + m_unclaimed (wm n) = 9.
Proof.
  pose proof units as H. unfold unit_log in H. pose proof two_reached as R.
  set (L0 := ledger_after two_pools) in *. set (k := mining_of ALICE POOL) in *. set (t0 := at_noon 100) in *. clearbody L0 t0.
  destruct (write_log POOL k t0 L0 (a_unit 1)) as [[[[n1 L1] d] x]|] eqn:E1; [|contradiction].
  destruct (write_log POOL k t0 L0 (a_unit 3)) as [[[[n2 L2] c] y]|] eqn:E2; [|contradiction].
  clearbody k. apply write_log_ok in E1, E2. destruct H as (B & -> & -> & H).
  destruct (full_log_end _ _ _ _ _ _ _ _ _ E1) as (m & Hm & _). destruct (full_log_end _ _ _ _ _ _ _ _ _ E2) as (n & Hn & _).
  unfold mining_at in H. rewrite (proj2 Hm), (proj2 Hn) in H. destruct H as [Um Un].
  exists env0, POOL, k, t0, L0, n1, L1, n2, L2, d, c, 10, 9, m, n.
  split; [exact env0_ok|]. repeat (split; [eassumption|]). rewrite Um, Un. split; reflexivity.
Qed.
Print Assumptions C93_exact_refuted.
