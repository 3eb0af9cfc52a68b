(** C88 and C89 in orderly histories: nothing is asked about the states at the distributions. *)
From stdpp Require Import gmap.
From Verif Require Import Base OMap State Spec Core EffectSpec Ledger Program Clients LedgerLemmas LedgerSpec
  CodecLemmas History Scenario Attacks HistoryThms ReachThms CoreRun LedgerView LedgerOrderly FreezeSpec PropsFreeze CapSpec IncomeSpec DiarySpec Diary PropsDiary LogSpec Log PropsLog
  CompareSpec Compare PropsCompare LongerSpec Longer PropsLonger OwnSpec Own PropsOwn OwnLongSpec OwnLong PropsOwnLong OrderLogSpec OrderLog.

(** C88 for histories that respect the conditions of C19: a mining's stake is then never more than its
    pool's, so [s] only bounds the stake of the first mining, and the largest number of 64 bits always does. *)
Theorem C88_orderly : forall e1 e2, env_ok e1 -> env_ok e2 -> env_inj e1 -> env_inj e2 -> 0 < rent_min e1 MINING_LEN -> 0 < rent_min e2 MINING_LEN ->
  forall P1 P2 k1 k2 now1 L1 now1' L1' now2 L2 now2' L2' b c x y v w v' w' m n m' n' s, P1 <> 0 -> P2 <> 0 ->
  orderly e1 P1 disciplined now1 L1 -> orderly e2 P2 disciplined now2 L2 ->
  orderly_log e1 P1 k1 disciplined now1 L1 now1' L1' b x -> orderly_log e2 P2 k2 disciplined now2 L2 now2' L2' c y -> Forall2 staking_more b c ->
  0 <= s -> s = 18446744073709551615 \/ whenever e1 P1 k1 now1 L1 b (fun ts _ m => eff m (day_start ts) <= s) ->
  is_pool e1 L1 P1 v -> is_pool e2 L2 P2 w -> mining_in e1 L1 P1 k1 m -> mining_in e2 L2 P2 k2 n -> stakes_more (day_start now1) v w m n ->
  Z.of_nat (length (wp_diffs v)) + how_many dates_pool b <= 365 ->
  is_pool e1 L1' P1 v' -> is_pool e2 L2' P2 w' -> is_mining e1 L1' k1 m' -> is_mining e2 L2' k2 n' ->
  10000000000000000 * y + owed (wp_ci w') n' <= 10000000000000000 * x + owed (wp_ci v') m' +
    9999999999999999 * (how_many works b + how_many opens b + Z.of_nat (length (wm_diffs m))) + s * how_many distributes b /\
  forall d, eff n' d <= eff m' d.
Proof. exact orderly_own. Qed.
Print Assumptions C88_orderly.
(** the same for C89 *)
Theorem C89_orderly : forall e1 e2, env_ok e1 -> env_ok e2 -> env_inj e1 -> env_inj e2 -> 0 < rent_min e1 MINING_LEN -> 0 < rent_min e2 MINING_LEN ->
  forall P1 P2 k1 k2 now1 L1 now1' L1' now2 L2 now2' L2' b c x y v w v' w' m n m' n' s, P1 <> 0 -> P2 <> 0 ->
  orderly e1 P1 disciplined now1 L1 -> orderly e2 P2 disciplined now2 L2 ->
  orderly_log e1 P1 k1 disciplined now1 L1 now1' L1' b x -> orderly_log e2 P2 k2 disciplined now2 L2 now2' L2' c y -> Forall2 staking_longer b c ->
  0 <= s -> s = 18446744073709551615 \/ whenever e1 P1 k1 now1 L1 b (fun ts _ m => eff m (day_start ts) <= s) ->
  is_pool e1 L1 P1 v -> is_pool e2 L2 P2 w -> mining_in e1 L1 P1 k1 m -> mining_in e2 L2 P2 k2 n -> holds_more (day_start now1) v w m n ->
  Z.of_nat (length (wp_diffs v)) + how_many dates_pool b <= 365 -> Z.of_nat (length (wm_diffs n)) + how_many opens c <= 50 ->
  is_pool e1 L1' P1 v' -> is_pool e2 L2' P2 w' -> is_mining e1 L1' k1 m' -> is_mining e2 L2' k2 n' ->
  10000000000000000 * y + owed (wp_ci w') n' <= 10000000000000000 * x + owed (wp_ci v') m' +
    9999999999999999 * (how_many works b + how_many opens b + Z.of_nat (length (wm_diffs m))) + s * how_many distributes b /\
  forall d, eff n' d <= eff m' d.
Proof. exact orderly_own_longer. Qed.
Print Assumptions C89_orderly.

(** ** ALICE stakes [mine] for [p] and 90 without a lockup, withdraws 10 and has 20 locked for [q]; BOB
    stakes 50 for six months *)
Definition an_autumn (p q : lockup) (mine : Z) : list call :=
  let k := mining_of ALICE POOL in let j := mining_of BOB POOL in
  [(at_noon 101, b_deposit POOL k AUTH k mine p ALICE ALICE);
   (at_noon 101, b_deposit POOL k AUTH k 90 LFlex ALICE ALICE);
   (at_noon 101, b_deposit POOL j AUTH j 50 L6M BOB BOB);
   (at_noon 102, b_fill_vault env0 POOL MINT (vault_of POOL) FILLER SOURCE 1000 (at_noon 104));
   (at_noon 103, b_distribute POOL DISTR);
   (at_noon 103, b_withdraw POOL k AUTH k 10 ALICE ALICE);
   (at_noon 104, b_distribute POOL DISTR);
   (at_noon 104, b_claim env0 POOL MINT (vault_of POOL) k ALICE AUTH ALICE_T);
   (at_noon 150, b_extend POOL k AUTH k LFlex q (at_noon 101) 20 5 ALICE ALICE);
   (at_noon 299, b_fill_vault env0 POOL MINT (vault_of POOL) FILLER SOURCE 700 (at_noon 301));
   (at_noon 300, b_distribute POOL DISTR);
   (at_noon 301, b_claim env0 POOL MINT (vault_of POOL) k ALICE AUTH ALICE_T)].
Definition autumn (p q : lockup) (mine : Z) := write_log POOL (mining_of ALICE POOL) (at_noon 100) (ledger_after two_pools) (an_autumn p q mine).
Lemma write_orderly P k l : forall now L now' L' d x, write_log P k now L l = Some (now', L', d, x) -> orderly_b P disciplined_b now L l = true ->
  orderly_log env0 P k disciplined now L now' L' d x.
Proof.
  induction l as [|[ts [ms i]] r IH]; cbn [write_log orderly_b]; intros now L now' L' d x H OB;
    (destruct (_ && _) eqn:W in H; [apply andb_true_iff in W as [W1 W2]; apply running_b_ok in W1; apply mining_b_ok in W2|discriminate]).
  - injection H as <- <- <- <-. constructor; assumption.
  - destruct (_ && _ && _ && _) eqn:G in H; [|discriminate]. apply andb_true_iff in G as [G G5]. apply andb_true_iff in G as [G G3]. apply andb_true_iff in G as [G1 G2].
    apply Z.leb_le in G1. unfold u64_b in G2. apply andb_true_iff in G2 as [G2 G4]. apply Z.leb_le in G2. apply Z.ltb_lt in G4.
    apply andb_true_iff in OB as [OB1 OB2]. destruct (exec _ _ _ _ _) as [[L1 a]|] eqn:X; [|discriminate].
    destruct (write_log P k ts L1 r) as [[[[n L2] d2] x2]|] eqn:K; [|discriminate]. injection H as <- <- <- <-.
    eapply ol_ix; [exact W1|exact W2|exact G1|split; assumption|apply range_b_ok; exact G3|exact X|exact (orderly_ix_ok _ _ _ _ _ _ _ _ disciplined_b_ok OB1)| |].
    + unfold home_b in G5. destruct (places k ms i); auto.
    + apply IH; [exact K|exact OB2].
Qed.
Lemma autumns_longer : Forall2 staking_longer (entries (autumn L1Y L1Y 120)) (entries (autumn L3M L6M 100)).
Proof.
  written (entries (autumn L1Y L1Y 120)). written (entries (autumn L3M L6M 100)).
  repeat (constructor; [split; [reflexivity|split; [reflexivity|split; [reflexivity|vm_compute; repeat split; intuition discriminate]]]|]). constructor.
Qed.
Lemma autumns : match autumn L1Y L1Y 120, autumn L3M L6M 100 with
  | Some (_, L, d, x), Some (_, L', c, y) =>
      how_many works d = 6 /\ how_many opens d = 3 /\ how_many opens c = 3 /\ how_many distributes d = 3 /\ how_many dates_pool d = 4 /\ 0 < y < x
  | _, _ => False end.
Proof. vm_compute. compare. Qed.
Lemma autumns_orderly :
  orderly_b POOL disciplined_b (at_noon 100) (ledger_after two_pools) (an_autumn L1Y L1Y 120) = true /\
  orderly_b POOL disciplined_b (at_noon 100) (ledger_after two_pools) (an_autumn L3M L6M 100) = true.
Proof. split; vm_compute; reflexivity. Qed.
Lemma autumn_start : match pool_at (ledger_after two_pools) POOL, mining_at (ledger_after two_pools) (mining_of ALICE POOL) with
  | Some v, Some m => m_index (wm m) <= last_from 0 (wp_ci v) /\ wp_diffs v = [] /\ wm_diffs m = [] /\ m_pool (wm m) = POOL | _, _ => False end.
Proof. vm_compute. compare. Qed.
(** all the hypotheses of [C89_orderly] are met by these histories *)
Lemma C89_orderly_met : exists now1 L1 now2 L2 b c x y v m,
  orderly env0 POOL disciplined (at_noon 100) (ledger_after two_pools) /\
  orderly_log env0 POOL (mining_of ALICE POOL) disciplined (at_noon 100) (ledger_after two_pools) now1 L1 b x /\
  orderly_log env0 POOL (mining_of ALICE POOL) disciplined (at_noon 100) (ledger_after two_pools) now2 L2 c y /\
  Forall2 staking_longer b c /\ how_many distributes b = 3 /\ 0 < y < x /\
  is_pool env0 (ledger_after two_pools) POOL v /\ mining_in env0 (ledger_after two_pools) POOL (mining_of ALICE POOL) m /\ holds_more (day_start (at_noon 100)) v v m m /\
  Z.of_nat (length (wp_diffs v)) + how_many dates_pool b <= 365 /\ Z.of_nat (length (wm_diffs m)) + how_many opens c <= 50.
Proof.
  pose proof autumns as H. pose proof autumns_longer as F. pose proof autumn_start as S. pose proof autumns_orderly as [B1 B2]. unfold autumn in H, F. unfold entries in F.
  assert (R : orderly env0 POOL disciplined (at_noon 100) (ledger_after two_pools)) by (apply (orderly_play_ok _ _ _ _ _ disciplined_b_ok); vm_compute; reflexivity).
  set (p := an_autumn L1Y L1Y 120) in *. set (q := an_autumn L3M L6M 100) in *. set (L0 := ledger_after two_pools) in *. set (k := mining_of ALICE POOL) in *. set (t0 := at_noon 100) in *. clearbody p q L0 k t0.
  destruct (write_log POOL k t0 L0 p) as [[[[n1 L1] d] x]|] eqn:E1; [|contradiction].
  destruct (write_log POOL k t0 L0 q) as [[[[n2 L2] c] y]|] eqn:E2; [|contradiction].
  apply write_orderly in E1; [|exact B1]. apply write_orderly in E2; [|exact B2].
  destruct H as (W & O & O' & D & T & XY).
  destruct (full_log_running _ _ _ _ _ _ _ _ _ (orderly_log_full _ _ _ _ _ _ _ _ _ _ E1)) as [(v & Hv & _) (m & Hm & _)].
  unfold mining_at, pool_at in S. rewrite (proj2 Hv), (proj2 Hm) in S. destruct S as (Si & Sp & Sm & Mp).
  exists n1, L1, n2, L2, d, c, x, y, v, m. rewrite Sp, Sm, O', T, D. cbn [length].
  split; [exact R|]. split; [exact E1|]. split; [exact E2|]. split; [exact F|]. split; [reflexivity|]. split; [exact XY|]. split; [exact Hv|]. split; [split; [exact Hm|exact Mp]|].
  split; [apply holds_same; exact Si|]. split; lia.
Qed.
Lemma autumns_more : Forall2 staking_more (entries (autumn L3M L6M 120)) (entries (autumn L3M L6M 100)).
Proof.
  written (entries (autumn L3M L6M 120)). written (entries (autumn L3M L6M 100)).
  repeat (constructor; [split; [reflexivity|split; [reflexivity|split; [reflexivity|vm_compute; repeat split; intuition discriminate]]]|]). constructor.
Qed.
Lemma autumns_figures : match autumn L3M L6M 120, autumn L3M L6M 100 with
  | Some (_, L, d, x), Some (_, L', c, y) =>
      how_many works d = 6 /\ how_many opens d = 3 /\ how_many opens c = 3 /\ how_many distributes d = 3 /\ how_many dates_pool d = 4 /\ 0 < y < x
  | _, _ => False end.
Proof. vm_compute. compare. Qed.
Lemma autumns_orderly_more :
  orderly_b POOL disciplined_b (at_noon 100) (ledger_after two_pools) (an_autumn L3M L6M 120) = true /\
  orderly_b POOL disciplined_b (at_noon 100) (ledger_after two_pools) (an_autumn L3M L6M 100) = true.
Proof. split; vm_compute; reflexivity. Qed.
(** all the hypotheses of [C88_orderly] are met by the histories with 120 and 100 for the same lockups *)
Lemma C88_orderly_met : exists now1 L1 now2 L2 b c x y v m,
  orderly env0 POOL disciplined (at_noon 100) (ledger_after two_pools) /\
  orderly_log env0 POOL (mining_of ALICE POOL) disciplined (at_noon 100) (ledger_after two_pools) now1 L1 b x /\
  orderly_log env0 POOL (mining_of ALICE POOL) disciplined (at_noon 100) (ledger_after two_pools) now2 L2 c y /\
  Forall2 staking_more b c /\ how_many distributes b = 3 /\ 0 < y < x /\
  is_pool env0 (ledger_after two_pools) POOL v /\ mining_in env0 (ledger_after two_pools) POOL (mining_of ALICE POOL) m /\ stakes_more (day_start (at_noon 100)) v v m m /\
  Z.of_nat (length (wp_diffs v)) + how_many dates_pool b <= 365.
Proof.
  pose proof autumns_figures as H. pose proof autumns_more as F. pose proof autumn_start as S. pose proof autumns_orderly_more as [B1 B2]. unfold autumn in H, F. unfold entries in F.
  assert (R : orderly env0 POOL disciplined (at_noon 100) (ledger_after two_pools)) by (apply (orderly_play_ok _ _ _ _ _ disciplined_b_ok); vm_compute; reflexivity).
  set (p := an_autumn L3M L6M 120) in *. set (q := an_autumn L3M L6M 100) in *. set (L0 := ledger_after two_pools) in *. set (k := mining_of ALICE POOL) in *. set (t0 := at_noon 100) in *. clearbody p q L0 k t0.
  destruct (write_log POOL k t0 L0 p) as [[[[n1 L1] d] x]|] eqn:E1; [|contradiction].
  destruct (write_log POOL k t0 L0 q) as [[[[n2 L2] c] y]|] eqn:E2; [|contradiction].
  apply write_orderly in E1; [|exact B1]. apply write_orderly in E2; [|exact B2].
  destruct H as (W & O & O' & D & T & XY).
  destruct (full_log_running _ _ _ _ _ _ _ _ _ (orderly_log_full _ _ _ _ _ _ _ _ _ _ E1)) as [(v & Hv & _) (m & Hm & _)].
  unfold mining_at, pool_at in S. rewrite (proj2 Hv), (proj2 Hm) in S. destruct S as (Si & Sp & Sm & Mp).
  exists n1, L1, n2, L2, d, c, x, y, v, m. rewrite Sp, T, D. cbn [length].
  split; [exact R|]. split; [exact E1|]. split; [exact E2|]. split; [exact F|]. split; [reflexivity|]. split; [exact XY|]. split; [exact Hv|]. split; [split; [exact Hm|exact Mp]|].
  split; [apply stakes_same; exact Si|]. lia.
Qed.
