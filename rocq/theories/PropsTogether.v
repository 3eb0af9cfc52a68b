(** C96: the rewards of two histories together give the payments of both together but for rounding. *)
From stdpp Require Import gmap.
From Verif Require Import Base OMap State Spec EffectSpec SuccessSpec Ledger Program Clients LedgerLemmas LedgerSpec
  CodecLemmas History Scenario Attacks HistoryThms ReachThms FreezeSpec PropsFreeze CapSpec IncomeSpec DiarySpec Diary PropsDiary LogSpec Log PropsLog
  CompareSpec Compare PropsCompare LongerSpec Longer PropsLonger OwnSpec Own PropsOwn PartsSpec Parts PropsParts WfLemmas ScaleSpec Scale PropsScale RichSpec Rich PropsRich TogetherSpec Together.

(** Three histories, from some time on at which the mining has been credited all that was distributed so far,
    be it nothing.  From then on the same is done at the same times, except that each fill of the third brings in what those of the first and the second do together.  Then the stakes
    stay the same.  The third budget is never more than the other two together, and less by no more than the
    number of distributions.  What the mining was paid and credited in the third is what it was in the
    first and the second together, up to these rests of the budget, as far as its part [(s + t) / T] of the
    stake goes, and the rounding of index and credits. *)
Theorem C96_together : forall e1 e2 e3, env_ok e1 -> env_ok e2 -> env_ok e3 ->
  forall P1 P2 P3 k1 k2 k3 now1 L1 now1' L1' now2 L2 now2' L2' now3 L3 now3' L3' b d f x y z v w u v' w' u' m n o m' n' o' s t T,
  0 <= T -> reached e1 now1 L1 -> reached e2 now2 L2 -> reached e3 now3 L3 ->
  full_log e1 P1 k1 now1 L1 now1' L1' b x -> full_log e2 P2 k2 now2 L2 now2' L2' d y -> full_log e3 P3 k3 now3 L3 now3' L3' f z -> Forall3 together b d f ->
  throughout e1 P1 k1 now1 L1 b (fun w m => m_share (wm m) <= s /\ m_sfo (wm m) <= t /\ T <= p_total (wp w)) ->
  is_pool e1 L1 P1 v -> is_pool e2 L2 P2 w -> is_pool e3 L3 P3 u -> same_stakes v w -> same_stakes v u ->
  p_avail (wp u) = p_avail (wp v) + p_avail (wp w) ->
  is_mining e1 L1 k1 m -> is_mining e2 L2 k2 n -> is_mining e3 L3 k3 o -> mining_times 1 m n -> mining_times 1 m o ->
  credited v m -> credited w n -> credited u o -> m_unclaimed (wm o) = m_unclaimed (wm m) + m_unclaimed (wm n) ->
  is_pool e1 L1' P1 v' -> is_pool e2 L2' P2 w' -> is_pool e3 L3' P3 u' -> is_mining e1 L1' k1 m' -> is_mining e2 L2' k2 n' -> is_mining e3 L3' k3 o' ->
  let N := how_many hands_out b in let K := how_many works b + how_many plans b + Z.of_nat (length (wm_diffs m)) in
  (same_stakes v' w' /\ same_stakes v' u' /\ mining_times 1 m' n' /\ mining_times 1 m' o') /\
  0 <= p_avail (wp v') + p_avail (wp w') - p_avail (wp u') <= N /\
  let apart := x + m_unclaimed (wm m') + (y + m_unclaimed (wm n')) in let whole := z + m_unclaimed (wm o') in
  T * (10000000000000000 * (whole - apart)) <=
    (s + t) * (10000000000000000 * N + 2 * T * N) + T * (2 * (10000000000000000 - 1) * K) /\
  T * (10000000000000000 * (apart - whole)) <=
    (s + t) * (10000000000000000 * N + T * N) + T * ((10000000000000000 - 1) * K).
Proof. exact rewards_together. Qed.
Print Assumptions C96_together.

(** ** ALICE and BOB stake, BOB's stake is delegated to ALICE; then rewards come, [r] and later [q] *)
Definition a_gathering (r q : Z) : list call :=
  let k := mining_of ALICE POOL in let j := mining_of BOB POOL in
  [(at_noon 102, b_fill_vault env0 POOL MINT (vault_of POOL) FILLER SOURCE r (at_noon 108));
   (at_noon 103, b_distribute POOL DISTR);
   (at_noon 103, b_claim env0 POOL MINT (vault_of POOL) k ALICE AUTH ALICE_T);
   (at_noon 104, b_extend POOL k AUTH k L3M L1Y (at_noon 101) 20000000 77 ALICE ALICE);
   (at_noon 104, b_distribute POOL DISTR);
   (at_noon 105, b_slash AUTH POOL j BOB 10 40 (Some (at_noon 281)));
   (at_noon 105, b_withdraw POOL j AUTH k 100 BOB ALICE);
   (at_noon 105, b_fill_vault env0 POOL MINT (vault_of POOL) FILLER SOURCE q (at_noon 110));
   (at_noon 105, b_distribute POOL DISTR);
   (at_noon 105, b_decrease AUTH POOL k ALICE 30);
   (at_noon 106, b_claim env0 POOL MINT (vault_of POOL) k ALICE AUTH ALICE_T)].
Definition gathering (r q : Z) := write_log POOL (mining_of ALICE POOL) (at_noon 101) (ledger_after all_in) (a_gathering r q).
Lemma gatherings : Forall3 together (entries (gathering 1001 500)) (entries (gathering 47 3333)) (entries (gathering 1048 3833)).
Proof.
  written (entries (gathering 1001 500)). written (entries (gathering 47 3333)). written (entries (gathering 1048 3833)).
  repeat (constructor; [vm_compute; repeat split; reflexivity|]). constructor.
Qed.
Lemma gathering_sights : sights POOL (mining_of ALICE POOL) (at_noon 101) (ledger_after all_in) (a_gathering 1001 500) (entries (gathering 1001 500))
  (fun w m => m_share (wm m) <= 120000500 /\ m_sfo (wm m) <= 5000000 /\ 65000000 <= p_total (wp w)).
Proof. vm_compute. compare. Qed.
Lemma gathering_throughout : throughout env0 POOL (mining_of ALICE POOL) (at_noon 101) (ledger_after all_in) (entries (gathering 1001 500))
  (fun w m => m_share (wm m) <= 120000500 /\ m_sfo (wm m) <= 5000000 /\ 65000000 <= p_total (wp w)).
Proof.
  apply (sights_throughout _ _ _ _ (a_gathering 1001 500)); [exact all_in_reached| |exact gathering_sights].
  intros v w m n (_ & T & _) (_ & A & _ & B & _). rewrite A, B, T. auto.
Qed.
Example C96_example :
  Forall3 together (entries (gathering 1001 500)) (entries (gathering 47 3333)) (entries (gathering 1048 3833)) /\
  throughout env0 POOL (mining_of ALICE POOL) (at_noon 101) (ledger_after all_in) (entries (gathering 1001 500))
    (fun w m => m_share (wm m) <= 120000500 /\ m_sfo (wm m) <= 5000000 /\ 65000000 <= p_total (wp w)) /\
  match pool_at (ledger_after all_in) POOL, mining_at (ledger_after all_in) (mining_of ALICE POOL) with
  | Some v, Some m => p_avail (wp v) = 0 /\ credited v m /\ m_index (wm m) = 119538461538 /\ m_unclaimed (wm m) = 0 | _, _ => False end /\
  how_many hands_out (entries (gathering 1001 500)) = 3 /\
  tells (gathering 1001 500) = Some (603, 0, 751, 145000222) /\ tells (gathering 47 3333) = Some (740, 0, 2518, 145000222) /\ tells (gathering 1048 3833) = Some (1344, 0, 3268, 145000222).
Proof.
  split; [exact gatherings|]. split; [exact gathering_throughout|]. split; [vm_compute; repeat split|].
  split; [vm_compute; reflexivity|]. split; [vm_compute; reflexivity|]. split; vm_compute; reflexivity.
Qed.

(** ** What does not hold *)
(** The sum need not be exact: of 29 tokens for two days 14 are handed out on the first, of one none, of thirty 15. *)
Lemma drips : match drop_log 29, drop_log 1, drop_log 30 with
  | Some (n1, L1, d, x), Some (n2, L2, c, y), Some (n3, L3, f, z) =>
      Forall3 together d c f /\ x = 9 /\ y = 0 /\ z = 10 /\
      match mining_at L1 (mining_of ALICE POOL), mining_at L2 (mining_of ALICE POOL), mining_at L3 (mining_of ALICE POOL) with
      | Some m, Some n, Some o => m_unclaimed (wm m) = 0 /\ m_unclaimed (wm n) = 0 /\ m_unclaimed (wm o) = 0 | _, _, _ => False end
  | _, _, _ => False end.
Proof. vm_compute. split; [repeat (constructor; [compare|]); constructor|compare]. Qed.
Theorem C96_exact_refuted : exists e P k now L now1 L1 now2 L2 now3 L3 b d f x y z m n o,
  env_ok e /\ reached e now L /\ full_log e P k now L now1 L1 b x /\ full_log e P k now L now2 L2 d y /\ full_log e P k now L now3 L3 f z /\ Forall3 together b d f /\
  is_mining e L1 k m /\ is_mining e L2 k n /\ is_mining e L3 k o /\ x + m_unclaimed (wm m) = 9 /\ y + m_unclaimed (wm n) = 0 /\ z + m_unclaimed (wm o) = 10.
Proof.
  pose proof drips as H. unfold drop_log in H. pose proof all_in_reached as R.
  set (L0 := ledger_after all_in) in *. set (k := mining_of ALICE POOL) in *. set (t0 := at_noon 101) in *. clearbody L0 t0.
  destruct (write_log POOL k t0 L0 (a_drop 29)) as [[[[n1 L1] d] x]|] eqn:E1; [|contradiction].
  destruct (write_log POOL k t0 L0 (a_drop 1)) as [[[[n2 L2] c] y]|] eqn:E2; [|contradiction].
  destruct (write_log POOL k t0 L0 (a_drop 30)) as [[[[n3 L3] f] z]|] eqn:E3; [|contradiction].
  clearbody k. apply write_log_ok in E1, E2, E3. destruct H as (B & -> & -> & -> & H).
  destruct (full_log_end _ _ _ _ _ _ _ _ _ E1) as (m & Hm & _). destruct (full_log_end _ _ _ _ _ _ _ _ _ E2) as (n & Hn & _). destruct (full_log_end _ _ _ _ _ _ _ _ _ E3) as (o & Ho & _).
  unfold mining_at in H. rewrite (proj2 Hm), (proj2 Hn), (proj2 Ho) in H. destruct H as (Um & Un & Uo).
  exists env0, POOL, k, t0, L0, n1, L1, n2, L2, n3, L3, d, c, f, 9, 0, 10, m, n, o.
  split; [exact env0_ok|]. repeat (split; [eassumption|]). rewrite ?Um, ?Un, Uo. repeat split; reflexivity.
Qed.
Print Assumptions C96_exact_refuted.
