(** C94: payments are in proportion to the rewards but for rounding. *)
From stdpp Require Import gmap.
From Verif Require Import Base OMap State Spec EffectSpec SuccessSpec Ledger Program Clients LedgerLemmas LedgerSpec
  CodecLemmas History Scenario Attacks HistoryThms ReachThms FreezeSpec PropsFreeze CapSpec IncomeSpec DiarySpec Diary PropsDiary LogSpec Log PropsLog
  CompareSpec Compare PropsCompare LongerSpec Longer PropsLonger OwnSpec Own PropsOwn PartsSpec Parts PropsParts WfLemmas ScaleSpec Scale PropsScale RichSpec Rich.

(** Two histories, from some time on at which the mining has been credited all that was distributed so far,
    be it nothing.  From then on the same is done at the same times, in the second with [c] times the rewards.  Then the stakes stay the same.  The second budget is never more
    than [c] times the first, and less by less than [c] for every distribution.  What the mining was paid and
    credited in the second is [c] times that in the first up to these rests of the budget, as far as
    its part [(s + t) / T] of the stake goes, and the rounding of index and credits. *)
Theorem C94_rewards : forall e1 e2, env_ok e1 -> env_ok e2 -> forall c P1 P2 k1 k2 now1 L1 now1' L1' now2 L2 now2' L2' b d x y v w v' w' m n m' n' s t T,
  1 <= c -> 0 <= T -> reached e1 now1 L1 -> reached e2 now2 L2 ->
  full_log e1 P1 k1 now1 L1 now1' L1' b x -> full_log e2 P2 k2 now2 L2 now2' L2' d y -> Forall2 (enriched c) b d ->
  throughout e1 P1 k1 now1 L1 b (fun w m => m_share (wm m) <= s /\ m_sfo (wm m) <= t /\ T <= p_total (wp w)) ->
  is_pool e1 L1 P1 v -> is_pool e2 L2 P2 w -> same_stakes v w -> p_avail (wp w) = c * p_avail (wp v) ->
  is_mining e1 L1 k1 m -> is_mining e2 L2 k2 n -> mining_times 1 m n -> credited v m -> credited w n -> m_unclaimed (wm n) = c * m_unclaimed (wm m) ->
  is_pool e1 L1' P1 v' -> is_pool e2 L2' P2 w' -> is_mining e1 L1' k1 m' -> is_mining e2 L2' k2 n' ->
  let N := how_many hands_out b in let K := how_many works b + how_many plans b + Z.of_nat (length (wm_diffs m)) in
  same_stakes v' w' /\ mining_times 1 m' n' /\ 0 <= c * p_avail (wp v') - p_avail (wp w') <= (c - 1) * N /\
  let once := x + m_unclaimed (wm m') in let often := y + m_unclaimed (wm n') in
  T * (10000000000000000 * (often - c * once)) <=
    (s + t) * (10000000000000000 * ((c - 1) * N) + c * T * N) + T * (c * (10000000000000000 - 1) * K) /\
  T * (10000000000000000 * (c * once - often)) <=
    (s + t) * (10000000000000000 * ((c - 1) * N) + T * N) + T * ((10000000000000000 - 1) * K).
Proof. exact other_rewards. Qed.
Print Assumptions C94_rewards.

(** ** ALICE and BOB stake, BOB's stake is delegated to ALICE; after a first reward, which ALICE claims, others come,
    [c] times as many *)
Definition staked : list call :=
  let k := mining_of ALICE POOL in let j := mining_of BOB POOL in
  two_pools ++ [(at_noon 101, b_deposit POOL k AUTH k 20000000 L3M ALICE ALICE); (at_noon 101, b_deposit POOL j AUTH k 5000000 L6M BOB ALICE);
    (at_noon 101, b_fill_vault env0 POOL MINT (vault_of POOL) FILLER SOURCE 777 (at_noon 101)); (at_noon 101, b_distribute POOL DISTR)].
Definition all_in : list call :=
  staked ++ [(at_noon 101, b_claim env0 POOL MINT (vault_of POOL) (mining_of ALICE POOL) ALICE AUTH ALICE_T)].
Definition a_harvest (c : Z) : list call :=
  let k := mining_of ALICE POOL in let j := mining_of BOB POOL in
  [(at_noon 102, b_fill_vault env0 POOL MINT (vault_of POOL) FILLER SOURCE (1001 * c) (at_noon 108));
   (at_noon 103, b_distribute POOL DISTR);
   (at_noon 103, b_claim env0 POOL MINT (vault_of POOL) k ALICE AUTH ALICE_T);
   (at_noon 104, b_extend POOL k AUTH k L3M L1Y (at_noon 101) 20000000 77 ALICE ALICE);
   (at_noon 104, b_distribute POOL DISTR);
   (at_noon 105, b_slash AUTH POOL j BOB 10 40 (Some (at_noon 281)));
   (at_noon 105, b_withdraw POOL j AUTH k 100 BOB ALICE);
   (at_noon 105, b_fill_vault env0 POOL MINT (vault_of POOL) FILLER SOURCE (500 * c) (at_noon 110));
   (at_noon 105, b_distribute POOL DISTR);
   (at_noon 105, b_decrease AUTH POOL k ALICE 30);
   (at_noon 106, b_claim env0 POOL MINT (vault_of POOL) k ALICE AUTH ALICE_T)].
Definition harvest (c : Z) := write_log POOL (mining_of ALICE POOL) (at_noon 101) (ledger_after all_in) (a_harvest c).

(** the states of pool and mining after each call, where every call has an entry *)
Definition sight (P k : pubkey) (now : Z) (L : ledger) (cs : list call) (b : list full_entry) (Q : wpool -> wmining -> Prop) (n : nat) : Prop :=
  match write_log P k now L (firstn n cs) with
  | Some (_, L1, c, _) => c = firstn n b /\ match pool_at L1 P, mining_at L1 k with Some w, Some m => Q w m | _, _ => False end
  | None => False
  end.
Definition sights (P k : pubkey) (now : Z) (L : ledger) (cs : list call) (b : list full_entry) (Q : wpool -> wmining -> Prop) : Prop :=
  fold_right (fun n r => sight P k now L cs b Q n /\ r) True (seq 0 (S (length b))).
Lemma sights_in P k now L cs b Q l n : In n l -> fold_right (fun n r => sight P k now L cs b Q n /\ r) True l -> sight P k now L cs b Q n.
Proof. induction l as [|i l IH]; cbn; [tauto|]. intros [->|I] [H R]; [exact H|exact (IH I R)]. Qed.
Lemma sights_throughout P k now L cs b (Q : wpool -> wmining -> Prop) : reached env0 now L ->
  (forall v w m n, pools_alike v w -> alike m n -> Q v m -> Q w n) -> sights P k now L cs b Q -> throughout env0 P k now L b Q.
Proof.
  intros R C S b1 b2 now1 L1 x w m E F Hw Hm.
  assert (I : In (length b1) (seq 0 (Datatypes.S (length b)))) by (apply in_seq; rewrite E, app_length; lia).
  apply (sights_in _ _ _ _ _ _ _ _ _ I) in S. unfold sight in S.
  assert (T : firstn (length b1) b = b1) by (rewrite E, take_app; reflexivity).
  rewrite T in S. destruct (write_log P k now L (firstn (length b1) cs)) as [[[[n1 L2] c] y]|] eqn:W; [|contradiction].
  destruct S as [-> S]. apply write_log_ok in W.
  destruct (full_log_running _ _ _ _ _ _ _ _ _ F) as [(w0 & Hw0 & _) (m0 & Hm0 & _)].
  destruct (full_log_end_pool _ _ _ _ _ _ _ _ _ W) as (v & Hv & _). destruct (full_log_end _ _ _ _ _ _ _ _ _ W) as (u & Hu & _).
  unfold mining_at, pool_at in S. rewrite (proj2 Hu), (proj2 Hv) in S.
  destruct (same_full_log env0 env0 env0_ok env0_ok _ _ _ _ _ _ _ _ _ _ _ _ _ _ _ _ _ _ _ _ _ _ _ R R W F Hw0 Hw0 ltac:(unfold pools_alike; tauto) Hm0 Hm0 ltac:(unfold alike; tauto) Hv Hw Hu Hm) as (_ & A & B).
  exact (C _ _ _ _ A B S).
Qed.

Lemma harvests : Forall2 (enriched 3) (entries (harvest 1)) (entries (harvest 3)).
Proof. written (entries (harvest 1)). written (entries (harvest 3)). repeat (constructor; [vm_compute; repeat split; reflexivity|]). constructor. Qed.
Lemma harvest_sights : sights POOL (mining_of ALICE POOL) (at_noon 101) (ledger_after all_in) (a_harvest 1) (entries (harvest 1))
  (fun w m => m_share (wm m) <= 120000500 /\ m_sfo (wm m) <= 5000000 /\ 65000000 <= p_total (wp w)).
Proof. vm_compute. compare. Qed.
Lemma all_in_reached : reached env0 (at_noon 101) (ledger_after all_in).
Proof. apply plays_reached. vm_compute. reflexivity. Qed.
Lemma harvest_throughout : throughout env0 POOL (mining_of ALICE POOL) (at_noon 101) (ledger_after all_in) (entries (harvest 1))
  (fun w m => m_share (wm m) <= 120000500 /\ m_sfo (wm m) <= 5000000 /\ 65000000 <= p_total (wp w)).
Proof.
  apply (sights_throughout _ _ _ _ (a_harvest 1)); [exact all_in_reached| |exact harvest_sights].
  intros v w m n (_ & T & _) (_ & A & _ & B & _). rewrite A, B, T. auto.
Qed.
Definition tells (h : option (Z * ledger * list full_entry * Z)) : option (Z * Z * Z * Z) :=
  match h with
  | Some (_, L, b, x) =>
      match pool_at L POOL, mining_at L (mining_of ALICE POOL) with
      | Some v, Some m => Some (x, m_unclaimed (wm m), p_avail (wp v), p_total (wp v)) | _, _ => None end
  | None => None end.
Example C94_example :
  Forall2 (enriched 3) (entries (harvest 1)) (entries (harvest 3)) /\
  throughout env0 POOL (mining_of ALICE POOL) (at_noon 101) (ledger_after all_in) (entries (harvest 1))
    (fun w m => m_share (wm m) <= 120000500 /\ m_sfo (wm m) <= 5000000 /\ 65000000 <= p_total (wp w)) /\
  match pool_at (ledger_after all_in) POOL, mining_at (ledger_after all_in) (mining_of ALICE POOL) with
  | Some v, Some m => p_avail (wp v) = 0 /\ credited v m /\ m_index (wm m) = 119538461538 /\ m_unclaimed (wm m) = 0 | _, _ => False end /\
  how_many hands_out (entries (harvest 1)) = 3 /\ how_many works (entries (harvest 1)) = 5 /\ how_many plans (entries (harvest 1)) = 1 /\
  tells (harvest 1) = Some (603, 0, 751, 145000222) /\ tells (harvest 3) = Some (1812, 0, 2252, 145000222).
Proof.
  split; [exact harvests|]. split; [exact harvest_throughout|]. split; [vm_compute; repeat split|].
  split; [vm_compute; reflexivity|]. split; [vm_compute; reflexivity|]. split; [vm_compute; reflexivity|]. split; vm_compute; reflexivity.
Qed.

(** ** What does not hold *)
(** The payments need not be in proportion: one token for two days is not handed out on the first of them,
    of thirty tokens 15 are, and ALICE gets 10. *)
Definition a_drop (c : Z) : list call :=
  [(at_noon 102, b_fill_vault env0 POOL MINT (vault_of POOL) FILLER SOURCE (1 * c) (at_noon 105));
   (at_noon 102, b_distribute POOL DISTR);
   (at_noon 103, b_claim env0 POOL MINT (vault_of POOL) (mining_of ALICE POOL) ALICE AUTH ALICE_T)].
Definition drop_log (c : Z) := write_log POOL (mining_of ALICE POOL) (at_noon 101) (ledger_after all_in) (a_drop c).
Lemma drops : match drop_log 1, drop_log 30 with
  | Some (n1, L1, d, x), Some (n2, L2, c, y) =>
      Forall2 (enriched 30) d c /\ x = 0 /\ y = 10 /\
      match mining_at L1 (mining_of ALICE POOL), mining_at L2 (mining_of ALICE POOL) with
      | Some m, Some n => m_unclaimed (wm m) = 0 /\ m_unclaimed (wm n) = 0 | _, _ => False end
  | _, _ => False end.
Proof. vm_compute. compare. Qed.
Theorem C94_exact_refuted : exists e P k now L now1 L1 now2 L2 b d x y m n,
  env_ok e /\ reached e now L /\ full_log e P k now L now1 L1 b x /\ full_log e P k now L now2 L2 d y /\ Forall2 (enriched 30) b d /\
  is_mining e L1 k m /\ is_mining e L2 k n /\ x + m_unclaimed (wm m) = 0 /\ y + m_unclaimed (wm n) = 10.
Proof.
  pose proof drops as H. unfold drop_log in H. pose proof all_in_reached as R.
  set (L0 := ledger_after all_in) in *. set (k := mining_of ALICE POOL) in *. set (t0 := at_noon 101) in *. clearbody L0 t0.
  destruct (write_log POOL k t0 L0 (a_drop 1)) as [[[[n1 L1] d] x]|] eqn:E1; [|contradiction].
  destruct (write_log POOL k t0 L0 (a_drop 30)) as [[[[n2 L2] c] y]|] eqn:E2; [|contradiction].
  clearbody k. apply write_log_ok in E1, E2. destruct H as (B & -> & -> & H).
  destruct (full_log_end _ _ _ _ _ _ _ _ _ E1) as (m & Hm & _). destruct (full_log_end _ _ _ _ _ _ _ _ _ E2) as (n & Hn & _).
  unfold mining_at in H. rewrite (proj2 Hm), (proj2 Hn) in H. destruct H as [Um Un].
  exists env0, POOL, k, t0, L0, n1, L1, n2, L2, d, c, 0, 10, m, n.
  split; [exact env0_ok|]. repeat (split; [eassumption|]). rewrite ?Um, Un. reflexivity.
Qed.
Print Assumptions C94_exact_refuted.

(** What the mining has not been credited yet does not grow with the rewards to come: with the first reward unclaimed,
    ALICE gets the same 537 where thirty times the rewards are to come. *)
Definition late_claim := write_log POOL (mining_of ALICE POOL) (at_noon 101) (ledger_after staked)
  [(at_noon 102, b_claim env0 POOL MINT (vault_of POOL) (mining_of ALICE POOL) ALICE AUTH ALICE_T)].
Lemma late_claims : match late_claim with
  | Some (n1, L1, d, x) => Forall2 (enriched 30) d d /\ x = 537 /\
      match pool_at (ledger_after staked) POOL, mining_at (ledger_after staked) (mining_of ALICE POOL), mining_at L1 (mining_of ALICE POOL) with
      | Some v, Some m, Some n => p_avail (wp v) = 0 /\ m_unclaimed (wm m) = 0 /\ m_unclaimed (wm n) = 0 | _, _, _ => False end
  | _ => False end.
Proof. vm_compute. compare. Qed.
Theorem C94_uncredited_refuted : exists e P k now L now1 L1 b x v m n,
  env_ok e /\ reached e now L /\ full_log e P k now L now1 L1 b x /\ Forall2 (enriched 30) b b /\
  is_pool e L P v /\ p_avail (wp v) = 30 * p_avail (wp v) /\ is_mining e L k m /\ m_unclaimed (wm m) = 30 * m_unclaimed (wm m) /\
  is_mining e L1 k n /\ how_many hands_out b = 0 /\ x + m_unclaimed (wm n) = 537.
Proof.
  pose proof late_claims as H. assert (R : reached env0 (at_noon 101) (ledger_after staked)) by (apply plays_reached; vm_compute; reflexivity).
  assert (W : how_many hands_out (entries late_claim) = 0) by (vm_compute; reflexivity). unfold late_claim in *.
  set (L0 := ledger_after staked) in *. set (k := mining_of ALICE POOL) in *. set (t0 := at_noon 101) in *. clearbody L0 t0.
  destruct (write_log _ _ _ _ _) as [[[[n1 L1] d] x]|] eqn:E; [|contradiction]. clearbody k. apply write_log_ok in E. destruct H as (B & -> & H).
  destruct (full_log_running _ _ _ _ _ _ _ _ _ E) as [(v & Hv & _) (m & Hm & _)]. destruct (full_log_end _ _ _ _ _ _ _ _ _ E) as (n & Hn & _).
  unfold mining_at, pool_at in H. rewrite (proj2 Hv), (proj2 Hm), (proj2 Hn) in H. destruct H as (A & Um & Un).
  exists env0, POOL, k, t0, L0, n1, L1, d, 537, v, m, n. rewrite A, Um, Un.
  split; [exact env0_ok|]. do 2 (split; [assumption|]). split; [exact B|]. do 2 (split; [assumption || reflexivity|]). split; [exact Hm|]. split; [reflexivity|]. split; [exact Hn|]. split; [exact W|reflexivity].
Qed.
Print Assumptions C94_uncredited_refuted.
