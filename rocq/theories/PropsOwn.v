(** C88: more stake of one's own, among the same calls of others, never costs more than rounding. *)
From stdpp Require Import gmap.
From Verif Require Import Base OMap State Spec EffectSpec Ledger Program Clients LedgerLemmas LedgerSpec
  CodecLemmas History Scenario Attacks HistoryThms ReachThms FreezeSpec PropsFreeze CapSpec IncomeSpec DiarySpec Diary PropsDiary LogSpec Log PropsLog
  CompareSpec Compare PropsCompare LongerSpec Longer PropsLonger OwnSpec Own.

(** Two histories, and a mining in each: the calls come at the same times, those of others are the same,
    and the staker's own bring no less stake in the first, whose pool therefore has more.  At every
    distribution at most [s] of stake counts for the first mining, and no more than its pool's for the
    second; the first pool has places for its dates.  Then what the first mining is paid and is owed is
    less by at most the rounding: less than one token for every call on the mining and every date that
    passes, and 10^-16 of a token for every unit of its stake in every distribution. *)
Theorem C88_own_stake : forall e1 e2, env_ok e1 -> env_ok e2 ->
  forall P1 P2 k1 k2 now1 L1 now1' L1' now2 L2 now2' L2' b c x y v w v' w' m n m' n' s,
  reached e1 now1 L1 -> reached e2 now2 L2 ->
  full_log e1 P1 k1 now1 L1 now1' L1' b x -> full_log e2 P2 k2 now2 L2 now2' L2' c y -> Forall2 staking_more b c ->
  0 <= s -> whenever e1 P1 k1 now1 L1 b (fun ts _ m => 0 <= eff m (day_start ts) <= s) ->
  whenever e2 P2 k2 now2 L2 c (fun ts w n => eff n (day_start ts) <= all w (day_start ts)) ->
  is_pool e1 L1 P1 v -> is_pool e2 L2 P2 w -> is_mining e1 L1 k1 m -> is_mining e2 L2 k2 n -> stakes_more (day_start now1) v w m n ->
  Z.of_nat (length (wp_diffs v)) + how_many dates_pool b <= 365 ->
  is_pool e1 L1' P1 v' -> is_pool e2 L2' P2 w' -> is_mining e1 L1' k1 m' -> is_mining e2 L2' k2 n' ->
  10000000000000000 * y + owed (wp_ci w') n' <= 10000000000000000 * x + owed (wp_ci v') m' +
    9999999999999999 * (how_many works b + how_many opens b + Z.of_nat (length (wm_diffs m))) + s * how_many distributes b /\
  forall d, eff n' d <= eff m' d.
Proof. exact own_stake. Qed.
Print Assumptions C88_own_stake.
(** The beginnings may be the same. *)
Theorem C88_same_start : forall t w m, m_index (wm m) <= last_from 0 (wp_ci w) -> stakes_more t w w m m.
Proof. exact stakes_same. Qed.
Print Assumptions C88_same_start.

(** ** ALICE stakes [mine] for three months and 90 more, withdraws [back], and has 20 locked for six months
    with [add] on top; BOB stakes 50 for six months *)
Definition a_spring (mine back add : Z) : list call :=
  let k := mining_of ALICE POOL in let j := mining_of BOB POOL in
  [(at_noon 101, b_deposit POOL k AUTH k mine L3M ALICE ALICE);
   (at_noon 101, b_deposit POOL k AUTH k 90 LFlex ALICE ALICE);
   (at_noon 101, b_deposit POOL j AUTH j 50 L6M BOB BOB);
   (at_noon 102, b_fill_vault env0 POOL MINT (vault_of POOL) FILLER SOURCE 1000 (at_noon 104));
   (at_noon 103, b_distribute POOL DISTR);
   (at_noon 103, b_withdraw POOL k AUTH k back ALICE ALICE);
   (at_noon 104, b_distribute POOL DISTR);
   (at_noon 104, b_claim env0 POOL MINT (vault_of POOL) k ALICE AUTH ALICE_T);
   (at_noon 150, b_extend POOL k AUTH k L3M L6M (at_noon 101) 20 add ALICE ALICE);
   (at_noon 199, b_fill_vault env0 POOL MINT (vault_of POOL) FILLER SOURCE 700 (at_noon 201));
   (at_noon 200, b_distribute POOL DISTR);
   (at_noon 201, b_claim env0 POOL MINT (vault_of POOL) k ALICE AUTH ALICE_T)].
Definition spring (mine back add : Z) := write_log POOL (mining_of ALICE POOL) (at_noon 100) (ledger_after two_pools) (a_spring mine back add).

(** the states before the distributions of a log that can be written, one entry for each call *)
Definition spot (P k : pubkey) (now : Z) (L : ledger) (cs : list call) (b : list full_entry) (Q : Z -> wpool -> wmining -> Prop) (n : nat) : Prop :=
  match nth_error b n with
  | Some (ts, DistributeRewards, _, _) =>
      match write_log P k now L (firstn n cs) with
      | Some (_, L1, b1, _) => b1 = firstn n b /\ match pool_at L1 P, mining_at L1 k with Some w, Some m => Q ts w m | _, _ => False end
      | None => False
      end
  | _ => True
  end.
Definition spots (P k : pubkey) (now : Z) (L : ledger) (cs : list call) (b : list full_entry) (Q : Z -> wpool -> wmining -> Prop) : Prop :=
  fold_right (fun n r => spot P k now L cs b Q n /\ r) True (seq 0 (length b)).
Lemma spots_in P k now L cs b Q l n : In n l -> fold_right (fun n r => spot P k now L cs b Q n /\ r) True l -> spot P k now L cs b Q n.
Proof. induction l as [|i l IH]; cbn; [tauto|]. intros [->|I] [H R]; [exact H|exact (IH I R)]. Qed.
Lemma spots_whenever P k now L cs b (Q : Z -> wpool -> wmining -> Prop) : reached env0 now L ->
  (forall ts v w m n, pools_alike v w -> alike m n -> Q ts v m -> Q ts w n) -> spots P k now L cs b Q -> whenever env0 P k now L b Q.
Proof.
  intros R C S b1 ts bs l b2 now1 L1 x w m E F Hw Hm.
  assert (I : In (length b1) (seq 0 (length b))) by (apply in_seq; rewrite E, app_length; cbn; lia).
  apply (spots_in _ _ _ _ _ _ _ _ _ I) in S. unfold spot in S.
  assert (N : nth_error b (length b1) = Some (ts, DistributeRewards, bs, l)) by (rewrite E, nth_error_app2, Nat.sub_diag by lia; reflexivity).
  assert (T : firstn (length b1) b = b1) by (rewrite E, take_app; reflexivity).
  rewrite N, T in S. destruct (write_log P k now L (firstn (length b1) cs)) as [[[[n1 L2] c] y]|] eqn:W; [|contradiction].
  destruct S as [-> S]. apply write_log_ok in W.
  destruct (full_log_running _ _ _ _ _ _ _ _ _ F) as [(w0 & Hw0 & _) (m0 & Hm0 & _)].
  destruct (full_log_end_pool _ _ _ _ _ _ _ _ _ W) as (v & Hv & _). destruct (full_log_end _ _ _ _ _ _ _ _ _ W) as (u & Hu & _).
  unfold pool_at, mining_at in S. rewrite (proj2 Hv), (proj2 Hu) in S.
  destruct (same_full_log env0 env0 env0_ok env0_ok _ _ _ _ _ _ _ _ _ _ _ _ _ _ _ _ _ _ _ _ _ _ _ R R W F Hw0 Hw0 ltac:(unfold pools_alike; tauto) Hm0 Hm0 ltac:(unfold alike; tauto) Hv Hw Hu Hm) as (_ & A & B).
  exact (C _ _ _ _ _ A B S).
Qed.
Lemma eff_alike m n d : alike m n -> eff m d = eff n d.
Proof. intros (_ & A & _ & B & C). unfold eff. rewrite A, B, C. reflexivity. Qed.
Lemma all_alike v w d : pools_alike v w -> all v d = all w d.
Proof. intros (_ & A & _ & _ & B & _). unfold all. rewrite A, B. reflexivity. Qed.

Definition entries (r : option (Z * ledger * list full_entry * Z)) : list full_entry := match r with Some (_, _, d, _) => d | None => [] end.
Ltac written t := let d := eval vm_compute in t in replace t with d by (vm_compute; reflexivity).
Lemma springs : Forall2 staking_more (entries (spring 120 10 15)) (entries (spring 100 30 5)).
Proof.
  written (entries (spring 120 10 15)). written (entries (spring 100 30 5)).
  repeat (constructor; [split; [reflexivity|split; [reflexivity|split; [reflexivity|vm_compute; repeat split; intuition discriminate]]]|]). constructor.
Qed.
Example C88_example :
  Forall2 staking_more (entries (spring 120 10 15)) (entries (spring 100 30 5)) /\
  match spring 120 10 15, spring 100 30 5 with
  | Some (_, L, d, x), Some (_, L', c, y) =>
      length d = 12%nat /\ how_many works d = 6 /\ how_many opens d = 3 /\ how_many distributes d = 3 /\ how_many dates_pool d = 4 /\
      0 < y < x /\
      spots POOL (mining_of ALICE POOL) (at_noon 100) (ledger_after two_pools) (a_spring 120 10 15) d (fun ts _ m => 0 <= eff m (day_start ts) <= 400) /\
      spots POOL (mining_of ALICE POOL) (at_noon 100) (ledger_after two_pools) (a_spring 100 30 5) c (fun ts w n => eff n (day_start ts) <= all w (day_start ts))
  | _, _ => False end.
Proof. split; [exact springs|]. vm_compute. compare. Qed.
(** the hypotheses about the distributions are met *)
Lemma C88_example_met :
  whenever env0 POOL (mining_of ALICE POOL) (at_noon 100) (ledger_after two_pools) (entries (spring 120 10 15)) (fun ts _ m => 0 <= eff m (day_start ts) <= 400) /\
  whenever env0 POOL (mining_of ALICE POOL) (at_noon 100) (ledger_after two_pools) (entries (spring 100 30 5)) (fun ts w n => eff n (day_start ts) <= all w (day_start ts)).
Proof.
  destruct C88_example as [_ H]. unfold entries.
  set (r := spring 120 10 15) in *. set (r' := spring 100 30 5) in *. clearbody r r'.
  destruct r as [[[[? ?] d] ?]|]; [|contradiction]. destruct r' as [[[[? ?] c] ?]|]; [|contradiction].
  destruct H as (_ & _ & _ & _ & _ & _ & S1 & S2).
  assert (R : reached env0 (at_noon 100) (ledger_after two_pools)) by (apply plays_reached; vm_compute; reflexivity).
  split; eapply spots_whenever; try eassumption; intros ts v w m n A B; rewrite (eff_alike _ _ _ B), ?(all_alike _ _ _ A); tauto.
Qed.

(** ** What does not hold *)
(** In the first second of a day, a deposit after that day's distribution takes part in it, at a price
    that earlier deposits have lowered: here the 800 more staked before cost thousands of tokens. *)
Definition a_midnight (mine : Z) : list call :=
  let k := mining_of ALICE POOL in let j := mining_of BOB POOL in
  [(at_noon 101, b_deposit POOL k AUTH k mine LFlex ALICE ALICE);
   (at_noon 101, b_deposit POOL j AUTH j 100 LFlex BOB BOB);
   (at_noon 102, b_fill_vault env0 POOL MINT (vault_of POOL) FILLER SOURCE 1000 (at_noon 103));
   (103 * 86400, b_distribute POOL DISTR);
   (103 * 86400, b_deposit POOL k AUTH k 1000 LFlex ALICE ALICE)].
Definition midnight (mine : Z) := write_log POOL (mining_of ALICE POOL) (at_noon 100) (ledger_after two_pools) (a_midnight mine).
Lemma midnights : match midnight 900, midnight 100 with
  | Some (n1, L1, d, x), Some (n2, L2, c, y) =>
      Forall2 staking_more_anytime d c /\ tl d = tl c /\ length d = 5%nat /\ x = 0 /\ y = 0 /\
      match mining_at L1 (mining_of ALICE POOL), mining_at L2 (mining_of ALICE POOL), pool_at L1 POOL, pool_at L2 POOL with
      | Some m, Some n, Some v, Some w => owed (wp_ci w) n = owed (wp_ci v) m + 3600 * 10000000000000000 | _, _, _, _ => False end
  | _, _ => False end.
Proof. vm_compute. compare; intuition discriminate. Qed.
Theorem C88_midnight_refuted : exists e P k now L now1 L1 now2 L2 b c x y v w m n,
  env_ok e /\ reached e now L /\ full_log e P k now L now1 L1 b x /\ full_log e P k now L now2 L2 c y /\
  Forall2 staking_more_anytime b c /\ tl b = tl c /\ length b = 5%nat /\
  is_pool e L1 P v /\ is_pool e L2 P w /\ is_mining e L1 k m /\ is_mining e L2 k n /\
  10000000000000000 * (x + 3600) + owed (wp_ci v) m <= 10000000000000000 * y + owed (wp_ci w) n.
Proof.
  pose proof midnights as H. unfold midnight in H.
  destruct (write_log _ _ _ _ (a_midnight 900)) as [[[[n1 L1] d] x]|] eqn:E1; [|contradiction].
  destruct (write_log _ _ _ _ (a_midnight 100)) as [[[[n2 L2] c] y]|] eqn:E2; [|contradiction].
  apply write_log_ok in E1, E2. destruct H as (B & T & N & -> & -> & H).
  destruct (full_log_end_pool _ _ _ _ _ _ _ _ _ E1) as (v & Hv & _). destruct (full_log_end_pool _ _ _ _ _ _ _ _ _ E2) as (w & Hw & _).
  destruct (full_log_end _ _ _ _ _ _ _ _ _ E1) as (m & Hm & _). destruct (full_log_end _ _ _ _ _ _ _ _ _ E2) as (n & Hn & _).
  unfold mining_at, pool_at in H. rewrite (proj2 Hm), (proj2 Hn), (proj2 Hv), (proj2 Hw) in H.
  exists env0, POOL, (mining_of ALICE POOL), (at_noon 100), (ledger_after two_pools), n1, L1, n2, L2, d, c, 0, 0, v, w, m, n.
  split; [exact env0_ok|]. split; [apply plays_reached; vm_compute; reflexivity|]. split; [exact E1|]. split; [exact E2|].
  split; [exact B|]. split; [exact T|]. split; [exact N|]. split; [exact Hv|]. split; [exact Hw|]. split; [exact Hm|]. split; [exact Hn|]. lia.
Qed.
Print Assumptions C88_midnight_refuted.

(** Stake that is also delegated counts twice in the pool and once for the staker: ALICE has nine tenths of
    the pool, and the 899 more, delegated to BOB, leave ALICE little more than half. *)
Definition a_favour (mine : Z) : list call :=
  let k := mining_of ALICE POOL in let j := mining_of BOB POOL in
  [(at_noon 101, b_deposit POOL k AUTH k 100 LFlex ALICE ALICE);
   (at_noon 101, b_deposit POOL j AUTH j 10 LFlex BOB BOB);
   (at_noon 101, b_deposit POOL k AUTH j mine LFlex ALICE BOB);
   (at_noon 102, b_fill_vault env0 POOL MINT (vault_of POOL) FILLER SOURCE 1000 (at_noon 103));
   (at_noon 103, b_distribute POOL DISTR);
   (at_noon 104, b_claim env0 POOL MINT (vault_of POOL) k ALICE AUTH ALICE_T)].
Definition favour (mine : Z) := write_log POOL (mining_of ALICE POOL) (at_noon 100) (ledger_after two_pools) (a_favour mine).
Lemma favours_more : Forall2 staking_more_delegated (entries (favour 900)) (entries (favour 1)).
Proof.
  written (entries (favour 900)). written (entries (favour 1)).
  repeat (constructor; [split; [reflexivity|split; [reflexivity|split; [reflexivity|vm_compute; repeat split; intuition discriminate]]]|]). constructor.
Qed.
Lemma favours : match favour 900, favour 1 with
  | Some (n1, L1, d, x), Some (n2, L2, c, y) =>
      length d = 6%nat /\ x = 523 /\ y = 901 /\
      match mining_at L1 (mining_of ALICE POOL), mining_at L2 (mining_of ALICE POOL), pool_at L1 POOL, pool_at L2 POOL with
      | Some m, Some n, Some v, Some w => owed (wp_ci w) n = 0 /\ owed (wp_ci v) m = 0 | _, _, _, _ => False end
  | _, _ => False end.
Proof. vm_compute. compare. Qed.
Theorem C88_delegate_refuted : exists e P k now L now1 L1 now2 L2 b c x y v w m n,
  env_ok e /\ reached e now L /\ full_log e P k now L now1 L1 b x /\ full_log e P k now L now2 L2 c y /\
  Forall2 staking_more_delegated b c /\ length b = 6%nat /\
  is_pool e L1 P v /\ is_pool e L2 P w /\ is_mining e L1 k m /\ is_mining e L2 k n /\
  10000000000000000 * (x + 378) + owed (wp_ci v) m <= 10000000000000000 * y + owed (wp_ci w) n.
Proof.
  pose proof favours as H. pose proof favours_more as F. unfold favour in H, F. unfold entries in F.
  assert (R : reached env0 (at_noon 100) (ledger_after two_pools)) by (apply plays_reached; vm_compute; reflexivity).
  set (p := a_favour 900) in *. set (q := a_favour 1) in *. set (L0 := ledger_after two_pools) in *. set (k := mining_of ALICE POOL) in *. set (t0 := at_noon 100) in *. clearbody p q L0 k t0.
  destruct (write_log POOL k t0 L0 p) as [[[[n1 L1] d] x]|] eqn:E1; [|contradiction].
  destruct (write_log POOL k t0 L0 q) as [[[[n2 L2] c] y]|] eqn:E2; [|contradiction].
  apply write_log_ok in E1, E2. destruct H as (N & -> & -> & H).
  destruct (full_log_end_pool _ _ _ _ _ _ _ _ _ E1) as (v & Hv & _). destruct (full_log_end_pool _ _ _ _ _ _ _ _ _ E2) as (w & Hw & _).
  destruct (full_log_end _ _ _ _ _ _ _ _ _ E1) as (m & Hm & _). destruct (full_log_end _ _ _ _ _ _ _ _ _ E2) as (n & Hn & _).
  unfold mining_at, pool_at in H. rewrite (proj2 Hm), (proj2 Hn), (proj2 Hv), (proj2 Hw) in H. destruct H as [Z1 Z2].
  exists env0, POOL, k, t0, L0, n1, L1, n2, L2, d, c, 523, 901, v, w, m, n.
  split; [exact env0_ok|]. split; [exact R|]. split; [exact E1|]. split; [exact E2|].
  split; [exact F|]. split; [exact N|]. split; [exact Hv|]. split; [exact Hw|]. split; [exact Hm|]. split; [exact Hn|]. lia.
Qed.
Print Assumptions C88_delegate_refuted.
