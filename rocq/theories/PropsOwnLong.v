(** C89: longer lockups of one's own, among the same calls of others, never cost more than rounding. *)
From stdpp Require Import gmap.
From Verif Require Import Base OMap State Spec EffectSpec Ledger Program Clients LedgerLemmas LedgerSpec
  CodecLemmas History Scenario Attacks HistoryThms ReachThms FreezeSpec PropsFreeze CapSpec IncomeSpec DiarySpec Diary PropsDiary LogSpec Log PropsLog
  CompareSpec Compare PropsCompare LongerSpec Longer PropsLonger OwnSpec Own PropsOwn OwnLongSpec OwnLong.

(** As C88, but the staker's own stake may be locked for longer in the first history as well as be more,
    and the schedules may begin with any dates.  The second mining needs places for its dates. *)
Theorem C89_own_longer : forall e1 e2, env_ok e1 -> env_ok e2 ->
  forall P1 P2 k1 k2 now1 L1 now1' L1' now2 L2 now2' L2' b c x y v w v' w' m n m' n' s,
  reached e1 now1 L1 -> reached e2 now2 L2 ->
  full_log e1 P1 k1 now1 L1 now1' L1' b x -> full_log e2 P2 k2 now2 L2 now2' L2' c y -> Forall2 staking_longer b c ->
  0 <= s -> whenever e1 P1 k1 now1 L1 b (fun ts _ m => 0 <= eff m (day_start ts) <= s) ->
  whenever e2 P2 k2 now2 L2 c (fun ts w n => eff n (day_start ts) <= all w (day_start ts)) ->
  is_pool e1 L1 P1 v -> is_pool e2 L2 P2 w -> is_mining e1 L1 k1 m -> is_mining e2 L2 k2 n -> holds_more (day_start now1) v w m n ->
  Z.of_nat (length (wp_diffs v)) + how_many dates_pool b <= 365 -> Z.of_nat (length (wm_diffs n)) + how_many opens c <= 50 ->
  is_pool e1 L1' P1 v' -> is_pool e2 L2' P2 w' -> is_mining e1 L1' k1 m' -> is_mining e2 L2' k2 n' ->
  10000000000000000 * y + owed (wp_ci w') n' <= 10000000000000000 * x + owed (wp_ci v') m' +
    9999999999999999 * (how_many works b + how_many opens b + Z.of_nat (length (wm_diffs m))) + s * how_many distributes b /\
  forall d, eff n' d <= eff m' d.
Proof. exact own_longer_stake. Qed.
Print Assumptions C89_own_longer.
(** The beginnings may be the same. *)
Theorem C89_same_start : forall t w m, m_index (wm m) <= last_from 0 (wp_ci w) -> holds_more t w w m m.
Proof. exact holds_same. Qed.
Print Assumptions C89_same_start.

(** ** ALICE stakes [mine] for [p] and 90 more, withdraws 10, and has 20 locked for [q]; BOB stakes 50
    for six months *)
Definition a_summer (p q : lockup) (mine : Z) : list call :=
  let k := mining_of ALICE POOL in let j := mining_of BOB POOL in
  [(at_noon 101, b_deposit POOL k AUTH k mine p ALICE ALICE);
   (at_noon 101, b_deposit POOL k AUTH k 90 L3M ALICE ALICE);
   (at_noon 101, b_deposit POOL j AUTH j 50 L6M BOB BOB);
   (at_noon 102, b_fill_vault env0 POOL MINT (vault_of POOL) FILLER SOURCE 1000 (at_noon 104));
   (at_noon 103, b_distribute POOL DISTR);
   (at_noon 103, b_withdraw POOL k AUTH k 10 ALICE ALICE);
   (at_noon 104, b_distribute POOL DISTR);
   (at_noon 104, b_claim env0 POOL MINT (vault_of POOL) k ALICE AUTH ALICE_T);
   (at_noon 150, b_extend POOL k AUTH k L3M q (at_noon 101) 20 5 ALICE ALICE);
   (at_noon 299, b_fill_vault env0 POOL MINT (vault_of POOL) FILLER SOURCE 700 (at_noon 301));
   (at_noon 300, b_distribute POOL DISTR);
   (at_noon 301, b_claim env0 POOL MINT (vault_of POOL) k ALICE AUTH ALICE_T)].
Definition summer (p q : lockup) (mine : Z) := write_log POOL (mining_of ALICE POOL) (at_noon 100) (ledger_after two_pools) (a_summer p q mine).
Lemma summers : Forall2 staking_longer (entries (summer L1Y L1Y 120)) (entries (summer L3M L6M 100)).
Proof.
  written (entries (summer L1Y L1Y 120)). written (entries (summer L3M L6M 100)).
  repeat (constructor; [split; [reflexivity|split; [reflexivity|split; [reflexivity|vm_compute; repeat split; intuition discriminate]]]|]). constructor.
Qed.
Example C89_example :
  Forall2 staking_longer (entries (summer L1Y L1Y 120)) (entries (summer L3M L6M 100)) /\
  match summer L1Y L1Y 120, summer L3M L6M 100 with
  | Some (_, L, d, x), Some (_, L', c, y) =>
      length d = 12%nat /\ how_many works d = 6 /\ how_many opens d = 3 /\ how_many opens c = 3 /\ how_many distributes d = 3 /\ how_many dates_pool d = 4 /\
      0 < y < x /\
      spots POOL (mining_of ALICE POOL) (at_noon 100) (ledger_after two_pools) (a_summer L1Y L1Y 120) d (fun ts _ m => 0 <= eff m (day_start ts) <= 1200) /\
      spots POOL (mining_of ALICE POOL) (at_noon 100) (ledger_after two_pools) (a_summer L3M L6M 100) c (fun ts w n => eff n (day_start ts) <= all w (day_start ts))
  | _, _ => False end.
Proof. split; [exact summers|]. vm_compute. compare. Qed.
(** the hypotheses about the distributions are met *)
Lemma C89_example_met :
  whenever env0 POOL (mining_of ALICE POOL) (at_noon 100) (ledger_after two_pools) (entries (summer L1Y L1Y 120)) (fun ts _ m => 0 <= eff m (day_start ts) <= 1200) /\
  whenever env0 POOL (mining_of ALICE POOL) (at_noon 100) (ledger_after two_pools) (entries (summer L3M L6M 100)) (fun ts w n => eff n (day_start ts) <= all w (day_start ts)).
Proof.
  destruct C89_example as [_ H]. unfold entries.
  set (r := summer L1Y L1Y 120) in *. set (r' := summer L3M L6M 100) in *. clearbody r r'.
  destruct r as [[[[? ?] d] ?]|]; [|contradiction]. destruct r' as [[[[? ?] c] ?]|]; [|contradiction].
  destruct H as (_ & _ & _ & _ & _ & _ & _ & S1 & S2).
  assert (R : reached env0 (at_noon 100) (ledger_after two_pools)) by (apply plays_reached; vm_compute; reflexivity).
  split; eapply spots_whenever; try eassumption; intros ts v w m n A B; rewrite (eff_alike _ _ _ B), ?(all_alike _ _ _ A); tauto.
Qed.

(** ** What does not hold *)
(** Without a place for the dates the shorter lockup may be the better one: 50 deposits fill the mining's
    schedule; 1000 more for six months end on a day that is there, but for three months on one that is
    not, and so the bonus of three months never ends. *)
Definition a_crowd (p : lockup) : list call :=
  let k := mining_of ALICE POOL in let j := mining_of BOB POOL in
  map (fun d => (at_noon (101 + Z.of_nat d), b_deposit POOL k AUTH k 1 L1Y ALICE ALICE)) (seq 0 50) ++
  [(at_noon 286, b_deposit POOL k AUTH k 1000 p ALICE ALICE);
   (at_noon 286, b_deposit POOL j AUTH j 5000 LFlex BOB BOB);
   (at_noon 599, b_fill_vault env0 POOL MINT (vault_of POOL) FILLER SOURCE 1000 (at_noon 601));
   (at_noon 600, b_distribute POOL DISTR);
   (at_noon 602, b_claim env0 POOL MINT (vault_of POOL) k ALICE AUTH ALICE_T)].
Definition crowd (p : lockup) := write_log POOL (mining_of ALICE POOL) (at_noon 100) (ledger_after two_pools) (a_crowd p).
Lemma crowds_longer : Forall2 staking_longer (entries (crowd L6M)) (entries (crowd L3M)).
Proof.
  written (entries (crowd L6M)). written (entries (crowd L3M)).
  repeat (constructor; [split; [reflexivity|split; [reflexivity|split; [reflexivity|vm_compute; repeat split; intuition discriminate]]]|]). constructor.
Qed.
Lemma crowds : match crowd L6M, crowd L3M with
  | Some (n1, L1, d, x), Some (n2, L2, c, y) =>
      x = 173 /\ y = 338 /\ how_many works d = 52 /\ how_many opens d = 51 /\ how_many opens c = 51 /\ how_many distributes d = 1 /\ how_many dates_pool d = 52 /\
      match mining_at L1 (mining_of ALICE POOL), mining_at L2 (mining_of ALICE POOL), pool_at L1 POOL, pool_at L2 POOL with
      | Some m, Some n, Some v, Some w => owed (wp_ci w) n = 0 /\ owed (wp_ci v) m = 0 | _, _, _, _ => False end /\
      spots POOL (mining_of ALICE POOL) (at_noon 100) (ledger_after two_pools) (a_crowd L6M) d (fun ts _ m => 0 <= eff m (day_start ts) <= 2000) /\
      spots POOL (mining_of ALICE POOL) (at_noon 100) (ledger_after two_pools) (a_crowd L3M) c (fun ts w n => eff n (day_start ts) <= all w (day_start ts))
  | _, _ => False end.
Proof. vm_compute. compare. Qed.
Lemma crowd_start : match pool_at (ledger_after two_pools) POOL, mining_at (ledger_after two_pools) (mining_of ALICE POOL) with
  | Some v, Some m => m_index (wm m) <= last_from 0 (wp_ci v) /\ wp_diffs v = [] /\ wm_diffs m = [] | _, _ => False end.
Proof. vm_compute. compare. Qed.
(** all but the place for the dates is as in the theorem, and 165 tokens are missing, not 104 *)
Theorem C89_room_refuted : exists e P k now L now1 L1 now2 L2 b c x y v m v' w' m' n' s,
  env_ok e /\ reached e now L /\ full_log e P k now L now1 L1 b x /\ full_log e P k now L now2 L2 c y /\ Forall2 staking_longer b c /\
  0 <= s /\ whenever e P k now L b (fun ts _ m => 0 <= eff m (day_start ts) <= s) /\
  whenever e P k now L c (fun ts w n => eff n (day_start ts) <= all w (day_start ts)) /\
  is_pool e L P v /\ is_mining e L k m /\ holds_more (day_start now) v v m m /\
  Z.of_nat (length (wp_diffs v)) + how_many dates_pool b <= 365 /\ Z.of_nat (length (wm_diffs m)) + how_many opens c = 51 /\
  is_pool e L1 P v' /\ is_pool e L2 P w' /\ is_mining e L1 k m' /\ is_mining e L2 k n' /\
  10000000000000000 * x + owed (wp_ci v') m' + 9999999999999999 * (how_many works b + how_many opens b + Z.of_nat (length (wm_diffs m))) + s * how_many distributes b
    < 10000000000000000 * y + owed (wp_ci w') n'.
Proof.
  pose proof crowds as H. pose proof crowds_longer as F. pose proof crowd_start as S. unfold crowd in H, F. unfold entries in F.
  assert (R : reached env0 (at_noon 100) (ledger_after two_pools)) by (apply plays_reached; vm_compute; reflexivity).
  set (p := a_crowd L6M) in *. set (q := a_crowd L3M) in *. set (L0 := ledger_after two_pools) in *. set (k := mining_of ALICE POOL) in *. set (t0 := at_noon 100) in *. clearbody p q L0 k t0.
  destruct (write_log POOL k t0 L0 p) as [[[[n1 L1] d] x]|] eqn:E1; [|contradiction].
  destruct (write_log POOL k t0 L0 q) as [[[[n2 L2] c] y]|] eqn:E2; [|contradiction].
  apply write_log_ok in E1, E2. destruct H as (-> & -> & W & O & O' & D & T & H & S1 & S2).
  assert (Q1 : whenever env0 POOL k t0 L0 d (fun ts _ m => 0 <= eff m (day_start ts) <= 2000)).
  { eapply spots_whenever; try eassumption; intros ts v w m n A B; rewrite (eff_alike _ _ _ B); tauto. }
  assert (Q2 : whenever env0 POOL k t0 L0 c (fun ts w n => eff n (day_start ts) <= all w (day_start ts))).
  { eapply spots_whenever; try eassumption; intros ts v w m n A B; rewrite (eff_alike _ _ _ B), ?(all_alike _ _ _ A); tauto. }
  destruct (full_log_running _ _ _ _ _ _ _ _ _ E1) as [(v0 & Hv0 & _) (m0 & Hm0 & _)].
  destruct (full_log_end_pool _ _ _ _ _ _ _ _ _ E1) as (v & Hv & _). destruct (full_log_end_pool _ _ _ _ _ _ _ _ _ E2) as (w & Hw & _).
  destruct (full_log_end _ _ _ _ _ _ _ _ _ E1) as (m & Hm & _). destruct (full_log_end _ _ _ _ _ _ _ _ _ E2) as (n & Hn & _).
  unfold mining_at, pool_at in H, S. rewrite (proj2 Hm), (proj2 Hn), (proj2 Hv), (proj2 Hw) in H. rewrite (proj2 Hv0), (proj2 Hm0) in S.
  destruct S as (Si & Sp & Sm). destruct H as [Z2 Z1].
  exists env0, POOL, k, t0, L0, n1, L1, n2, L2, d, c, 173, 338, v0, m0, v, w, m, n, 2000.
  split; [exact env0_ok|]. split; [exact R|]. split; [exact E1|]. split; [exact E2|]. split; [exact F|]. split; [lia|]. split; [exact Q1|]. split; [exact Q2|].
  split; [exact Hv0|]. split; [exact Hm0|]. split; [apply holds_same; exact Si|]. rewrite Sp, Sm, W, O, O', D, T, Z1, Z2. cbn [length].
  split; [lia|]. split; [lia|]. split; [exact Hv|]. split; [exact Hw|]. split; [exact Hm|]. split; [exact Hn|]. lia.
Qed.
Print Assumptions C89_room_refuted.
