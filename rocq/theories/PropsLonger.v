(** C87: for the same distributions, a longer lockup never earns less, but for rounding. *)
From stdpp Require Import gmap.
From Verif Require Import Base OMap State Spec EffectSpec Ledger Program Clients LedgerLemmas LedgerSpec
  CodecLemmas History Scenario Attacks HistoryThms ReachThms FreezeSpec PropsFreeze CapSpec IncomeSpec DiarySpec Diary PropsDiary LogSpec Log PropsLog
  CompareSpec Compare PropsCompare LongerSpec Longer.

(** Two histories, and a mining in each: the calls on it come at the same times, and bring no less stake
    for no less time in the first.  The pools' indices end up the same, and the second mining has
    places for its dates.  Then no less stake counts in the first at any date, and what it is paid and
    left to claim is less by at most the rounding: less than one token for every call on the mining
    and every date that passes. *)
Theorem C87_longer : forall e1 e2, env_ok e1 -> env_ok e2 -> forall P1 P2 k1 k2 now1 L1 now1' L1' now2 L2 now2' L2' b c x y v w v' w' m n m' n',
  reached e1 now1 L1 -> reached e2 now2 L2 ->
  full_log e1 P1 k1 now1 L1 now1' L1' b x -> full_log e2 P2 k2 now2 L2 now2' L2' c y -> Forall2 longer b c ->
  is_pool e1 L1 P1 v -> is_pool e2 L2 P2 w -> map fst (wp_ci v) = map fst (wp_ci w) ->
  is_mining e1 L1 k1 m -> is_mining e2 L2 k2 n -> no_less m n ->
  Z.of_nat (length (wm_diffs n)) + how_many opens c <= 50 ->
  is_pool e1 L1' P1 v' -> is_pool e2 L2' P2 w' -> wp_ci v' = wp_ci w' ->
  is_mining e1 L1' k1 m' -> is_mining e2 L2' k2 n' ->
  10000000000000000 * (y + m_unclaimed (wm n')) <=
    10000000000000000 * (x + m_unclaimed (wm m')) +
    9999999999999999 * (how_many works b + how_many opens b + Z.of_nat (length (wm_diffs m))) /\
  forall d, eff n' d <= eff m' d.
Proof. exact longer_lockup. Qed.
Print Assumptions C87_longer.

(** ** ALICE stakes 10 for [p] and 5 for three months, and has the 5 locked for [q]; BOB stakes [a], later
    [z] more *)
Definition a_year (p q : lockup) (a z : Z) : list call :=
  let k := mining_of ALICE POOL in let j := mining_of BOB POOL in
  [(at_noon 101, b_deposit POOL k AUTH k 10 p ALICE ALICE);
   (at_noon 101, b_deposit POOL k AUTH k 5 L3M ALICE ALICE);
   (at_noon 101, b_deposit POOL j AUTH j a LFlex BOB BOB);
   (at_noon 102, b_extend POOL k AUTH k L3M q (at_noon 101) 5 0 ALICE ALICE);
   (at_noon 102, b_fill_vault env0 POOL MINT (vault_of POOL) FILLER SOURCE 1000 (at_noon 104));
   (at_noon 103, b_distribute POOL DISTR);
   (at_noon 104, b_claim env0 POOL MINT (vault_of POOL) k ALICE AUTH ALICE_T);
   (at_noon 299, b_deposit POOL j AUTH j z LFlex BOB BOB);
   (at_noon 299, b_fill_vault env0 POOL MINT (vault_of POOL) FILLER SOURCE 1000 (at_noon 301));
   (at_noon 300, b_distribute POOL DISTR);
   (at_noon 302, b_claim env0 POOL MINT (vault_of POOL) k ALICE AUTH ALICE_T)].
Definition year (p q : lockup) (a z : Z) := write_log POOL (mining_of ALICE POOL) (at_noon 100) (ledger_after two_pools) (a_year p q a z).
(** The totals are the same on the days of distributions, so the index is; the longer lockups earn
    more. *)
Example C87_example :
  match year L1Y L1Y 10 5, year L3M L6M 60 30 with
  | Some (_, L, d, x), Some (_, L', c, y) =>
      Forall2 longer d c /\ length d = 11%nat /\ how_many works d = 5 /\ how_many opens d = 3 /\ how_many opens c = 3 /\ 0 < y < x /\
      (match pool_at L POOL, pool_at L' POOL with Some v, Some w => wp_ci v = wp_ci w /\ length (wp_ci v) = 2%nat | _, _ => False end)
  | _, _ => False end.
Proof. vm_compute. compare. Qed.

(** ** What does not hold *)
(** The rounding matters: what is earned before and after a date is rounded down separately, so the one
    token of the shorter lockup is lost by the longer one. *)
Definition a_half (p : lockup) (a z : Z) : list call :=
  let k := mining_of ALICE POOL in let j := mining_of BOB POOL in
  [(at_noon 101, b_deposit POOL k AUTH k 1 p ALICE ALICE);
   (at_noon 101, b_deposit POOL j AUTH j a LFlex BOB BOB);
   (at_noon 270, b_fill_vault env0 POOL MINT (vault_of POOL) FILLER SOURCE 2 (at_noon 271));
   (at_noon 271, b_distribute POOL DISTR);
   (at_noon 285, b_deposit POOL j AUTH j z LFlex BOB BOB);
   (at_noon 290, b_fill_vault env0 POOL MINT (vault_of POOL) FILLER SOURCE 9 (at_noon 291));
   (at_noon 291, b_distribute POOL DISTR);
   (at_noon 293, b_claim env0 POOL MINT (vault_of POOL) k ALICE AUTH ALICE_T)].
Definition half (p : lockup) (a z : Z) := write_log POOL (mining_of ALICE POOL) (at_noon 100) (ledger_after two_pools) (a_half p a z).
Lemma halves : match half L6M 6 4, half L3M 9 1 with
  | Some (n1, L1, d, x), Some (n2, L2, c, y) =>
      Forall2 longer d c /\ x = 0 /\ y = 1 /\
      match mining_at L1 (mining_of ALICE POOL), mining_at L2 (mining_of ALICE POOL) with
      | Some m, Some n => m_unclaimed (wm m) = 0 /\ m_unclaimed (wm n) = 0 | _, _ => False end /\
      match pool_at L1 POOL, pool_at L2 POOL with Some v, Some w => wp_ci v = wp_ci w | _, _ => False end
  | _, _ => False end.
Proof. vm_compute. compare. Qed.
Lemma full_log_end_pool e P k now L now' L' b x : full_log e P k now L now' L' b x -> running e P L'.
Proof. induction 1; assumption. Qed.
Theorem C87_exact_refuted : exists e P k now L now1 L1 now2 L2 b c x y m n v w,
  env_ok e /\ reached e now L /\ full_log e P k now L now1 L1 b x /\ full_log e P k now L now2 L2 c y /\ Forall2 longer b c /\
  is_pool e L1 P v /\ is_pool e L2 P w /\ wp_ci v = wp_ci w /\
  is_mining e L1 k m /\ is_mining e L2 k n /\ x + m_unclaimed (wm m) < y + m_unclaimed (wm n).
Proof.
  pose proof halves as H. unfold half in H.
  destruct (write_log _ _ _ _ (a_half L6M 6 4)) as [[[[n1 L1] d] x]|] eqn:E1; [|contradiction].
  destruct (write_log _ _ _ _ (a_half L3M 9 1)) as [[[[n2 L2] c] y]|] eqn:E2; [|contradiction].
  apply write_log_ok in E1, E2. destruct H as (B & -> & -> & H & I).
  destruct (full_log_end_pool _ _ _ _ _ _ _ _ _ E1) as (v & Hv & _). destruct (full_log_end_pool _ _ _ _ _ _ _ _ _ E2) as (w & Hw & _).
  destruct (full_log_end _ _ _ _ _ _ _ _ _ E1) as (m & Hm & _). destruct (full_log_end _ _ _ _ _ _ _ _ _ E2) as (n & Hn & _).
  unfold mining_at in H. rewrite (proj2 Hm), (proj2 Hn) in H. destruct H as [Um Un].
  unfold pool_at in I. rewrite (proj2 Hv), (proj2 Hw) in I.
  exists env0, POOL, (mining_of ALICE POOL), (at_noon 100), (ledger_after two_pools), n1, L1, n2, L2, d, c, 0, 1, m, n, v, w.
  split; [exact env0_ok|]. split; [apply plays_reached; vm_compute; reflexivity|]. split; [exact E1|]. split; [exact E2|].
  split; [exact B|]. split; [exact Hv|]. split; [exact Hw|]. split; [exact I|]. split; [exact Hm|]. split; [exact Hn|]. rewrite Um, Un. reflexivity.
Qed.
Print Assumptions C87_exact_refuted.
