(** C73-C75: the choice of a delegate, and extending a stake against leaving or reopening it. *)
From stdpp Require Import gmap.
From Verif Require Import Base OMap State Spec EffectSpec Core CoreRun Witness Ledger Program Clients LedgerLemmas LedgerSpec CodecLemmas SuccessSpec
  EffectThms History HistoryThms ReachThms Scenario Attacks ClientSpec LedgerOrderly EffectExamples CommuteExamples SplitSpec BackSpec ChoiceSpec Choice.

(** the same call with another delegate: the staker's own account comes out the same *)
Theorem C73_delegate_free : forall e, env_ok e -> forall now ts ms ms' i j L A B ra rb P k D D',
  reached e now L -> now <= ts -> is_u64 ts -> ix_in_range i -> ix_in_range j -> other_delegate i j ->
  exec e ts ms i L = Ok (A, ra) -> exec e ts ms' j L = Ok (B, rb) ->
  account_at ms 0 P -> account_at ms' 0 P -> account_at ms 1 k -> account_at ms' 1 k ->
  account_at ms 3 D -> account_at ms' 3 D' ->
  data_of A k = data_of B k /\
  (exists wa wb, is_pool e A P wa /\ is_pool e B P wb /\ only_total wa wb /\ wp_diffs wb = wp_diffs wa /\
     p_total (wp wa) - if_other D k (handed i) = p_total (wp wb) - if_other D' k (handed i)) /\
  (forall q, q <> P -> q <> k -> q <> D -> q <> D' -> acc A q = acc B q).
Proof. exact delegate_free. Qed.
Print Assumptions C73_delegate_free.

(** extending never lowers the stake, if the stake has expired or the new period weighs as much *)
Theorem C74_extend_raises : forall e, env_ok e -> forall now ts ms op np st b a o d L L' r,
  reached e now L -> now <= ts -> is_u64 ts -> ix_in_range (ExtendStake op np st b a o d) ->
  exec e ts ms (ExtendStake op np st b a o d) L = Ok (L', r) ->
  (unexpired op st ts = true -> st <= ts /\ weight_of op <= weight_of np) ->
  exists P k w m m', account_at ms 0 P /\ account_at ms 1 k /\ is_pool e L P w /\ is_mining e L k m /\ is_mining e L' k m' /\
    m_unclaimed (wm m') = tokens_at ts (wp_ci w) m /\ m_index (wm m') = visible ts (wp_ci w) /\
    (forall x, day_start ts <= x -> eff m x + a <= eff m' x) /\
    (forall ci', later_history ts (visible ts (wp_ci w)) ci' ->
       accrual (visible ts (wp_ci w)) (eff m) ci' <= accrual (visible ts (wp_ci w)) (eff m') ci').
Proof. exact extend_raises. Qed.
Print Assumptions C74_extend_raises.

(** extending an expired stake is withdrawing it and depositing it with the addition *)
Theorem C75_extend_is_restake : forall e, env_ok e -> forall now ts ms1 ms2 ms3 op np st b a o d L E L1 L2 r1 r2 r3 P k D,
  reached e now L -> now <= ts -> is_u64 ts -> ix_in_range (ExtendStake op np st b a o d) -> is_u64 (b + a) ->
  unexpired op st ts = false ->
  exec e ts ms1 (ExtendStake op np st b a o d) L = Ok (E, r1) ->
  exec e ts ms2 (WithdrawMining b o d) L = Ok (L1, r2) ->
  exec e ts ms3 (DepositMining (b + a) np o d) L1 = Ok (L2, r3) ->
  (forall ms, ms = ms1 \/ ms = ms2 \/ ms = ms3 -> account_at ms 0 P /\ account_at ms 1 k /\ account_at ms 3 D) ->
  (forall q, q <> P -> q <> k -> q <> D -> acc L2 q = acc E q) /\ data_of L2 k = data_of E k /\ data_of L2 D = data_of E D /\
  exists w we w2, is_pool e L P w /\ is_pool e E P we /\ is_pool e L2 P w2 /\
    only_total we w2 /\ p_total (wp w2) = p_total (wp we) - due (day_start ts) (wp_diffs we) /\
    (has_date (expiry np ts) (wp_diffs w) \/ Z.of_nat (length (wp_diffs w)) < 365 -> only_expired ts we w2).
Proof. exact extend_is_restake. Qed.
Print Assumptions C75_extend_is_restake.

(** ** Concrete calls *)
(** BOB (2) has 100 for a year since day 100 and 200 for three months since day 100, delegated to
    ALICE (1); CAROL (3) has 500 of their own; distributions on days 100 and 150 *)
Definition chosen : list call := as_calls
  [init 1; init 2; init 3;
   (noon 100, ODeposit 1 300 LFlex None);
   (noon 100, ODeposit 2 100 L1Y (Some 1)); (noon 100, ODeposit 2 200 L3M (Some 1));
   (noon 100, ODeposit 3 500 L6M None);
   (noon 100, OFill 100000 (noon 300) false); (noon 100, ODistribute); (noon 150, ODistribute)].
Definition LC : ledger := ledger_after chosen.
Definition now_call (o : op) (day : Z) : call := (noon day, call_of o).
Definition view (L : ledger) := (map (fun k => stake L (mn k)) [1; 2; 3], p_total (wp (pool_now L))).
(** the reader of concrete calls *)
Lemma call_from l t L d o L' : plays l t = true -> L = ledger_after l ->
  calls [now_call o d] L = Some L' -> reached env0 t L /\
  exists r, exec env0 (noon d) (fst (call_of o)) (snd (call_of o)) L = Ok (L', r).
Proof.
  intros H -> X. split; [apply plays_reached; exact H|]. cbn [calls now_call] in X. unfold now_call in X.
  destruct (call_of o) as [ms i]. cbn [fst snd] in *.
  destruct (exec env0 (noon d) ms i (ledger_after l)) as [[L1 r]|]; [|discriminate]. injection X as <-. eauto.
Qed.

(** BOB deposits 40 on day 160 for half a year: with ALICE, CAROL or nobody as delegate BOB's own account comes out
    the same, and the pool's total is 40 higher with a delegate *)
Example C73_example :
  plays chosen (noon 150) = true /\
  map (fun d => option_map view (calls [now_call (ODeposit 2 40 L6M d) 160] LC)) [Some 1; Some 3; None] =
    [Some ([Some (300, 340, 207, []); Some (1160, 0, 324, [(190 * 86400, 200); (340 * 86400, 120); (465 * 86400, 500)]);
            Some (2000, 0, 0, [(280 * 86400, 1500)])], 3800);
     Some ([Some (300, 300, 0, [(105 * 86400, 0)]); Some (1160, 0, 324, [(190 * 86400, 200); (340 * 86400, 120); (465 * 86400, 500)]);
            Some (2000, 40, 662, [(280 * 86400, 1500)])], 3800);
     Some ([Some (300, 300, 0, [(105 * 86400, 0)]); Some (1160, 0, 324, [(190 * 86400, 200); (340 * 86400, 120); (465 * 86400, 500)]);
            Some (2000, 0, 0, [(280 * 86400, 1500)])], 3760)] /\
  other_delegate (snd (call_of (ODeposit 2 40 L6M (Some 1)))) (snd (call_of (ODeposit 2 40 L6M (Some 3)))).
Proof. split; [vm_compute; reflexivity|]. split; [vm_compute; reflexivity|]. constructor. Qed.

(** on day 160 BOB extends the 200 of day 100 to half a year and adds 10: 1000 become 1440, and on day 200 it is
    1440 where it would have been 800 *)
Definition bob_extends : op := OExtend 2 L3M L6M (noon 100) 200 10 (Some 1).
Fixpoint growing_b (p : Z) (t : sched) : bool := match t with [] => true | (_, i) :: r => (p <=? i) && growing_b i r end.
Definition later_b (ts j : Z) (ci : sched) : bool :=
  growing_b 0 ci && forallb (fun x => (day_start ts <=? fst x) || (snd x <=? j)) ci.
Lemma later_b_ok ts j ci : later_b ts j ci = true -> later_history ts j ci.
Proof.
  unfold later_b. intros H. apply andb_true_iff in H as [H1 H2]. split.
  - clear H2. revert H1. generalize 0. induction ci as [|[k i] r IH]; intros p; cbn; [auto|]. intros H. apply andb_true_iff in H as [H1 H2].
    split; [lia|apply IH; exact H2].
  - intros k i Hin Hk. rewrite forallb_forall in H2. specialize (H2 _ Hin). cbn [fst snd] in H2. lia.
Qed.
Definition eff_on (L : ledger) (day : Z) : Z := eff (mining_at L (mn 2)) (day * 86400).
Example C74_example :
  plays chosen (noon 150) = true /\ ix_in_range (snd (call_of bob_extends)) /\
  unexpired L3M (noon 100) (noon 160) = true /\ weight_of L3M <= weight_of L6M /\
  map (eff_on LC) [160; 200; 400; 500] = [1000; 800; 800; 300] /\
  option_map (fun L => map (eff_on L) [160; 200; 400; 500]) (calls [now_call bob_extends 160] LC) = Some [1440; 1440; 810; 310] /\
  later_history (noon 160) (visible (noon 160) (wp_ci (pool_now LC))) (wp_ci (pool_now (ledger_after (chosen ++ [now_call ODistribute 170])))).
Proof.
  split; [vm_compute; reflexivity|]. split; [apply range_b_ok; vm_compute; reflexivity|]. split; [vm_compute; reflexivity|].
  split; [vm_compute; discriminate|]. split; [vm_compute; reflexivity|]. split; [vm_compute; reflexivity|].
  apply later_b_ok. vm_compute. reflexivity.
Qed.

(** extending early to a lighter period lowers the stake *)
Theorem C74_lighter_refuted : exists now ts ms op np st b a o d L L' r k m m' x,
  reached env0 now L /\ now <= ts /\ is_u64 ts /\ ix_in_range (ExtendStake op np st b a o d) /\
  exec env0 ts ms (ExtendStake op np st b a o d) L = Ok (L', r) /\ account_at ms 1 k /\
  is_mining env0 L k m /\ is_mining env0 L' k m' /\ unexpired op st ts = true /\ st <= ts /\
  day_start ts <= x /\ eff m' x < eff m x.
Proof.
  set (c := OExtend 2 L3M LFlex (noon 100) 200 0 (Some 1)). set (l := calls_to [now_call c 160] LC).
  destruct (call_from chosen (noon 150) LC 160 c l) as [R [r X]]; [vm_compute; reflexivity|reflexivity|apply calls_reach; vm_compute; reflexivity|].
  exists (noon 150), (noon 160), (fst (call_of c)), L3M, LFlex, (noon 100), 200, 0, (who 2), (who 1), LC, l, r, (mn 2),
    (mining_at LC (mn 2)), (mining_at l (mn 2)), (noon 160).
  split; [exact R|]. split; [vm_compute; discriminate|]. split; [split; [vm_compute; discriminate|vm_compute; reflexivity]|].
  split; [apply range_b_ok; vm_compute; reflexivity|]. split; [exact X|]. split; [vm_compute; reflexivity|].
  split; [split; vm_compute; reflexivity|]. split; [split; vm_compute; reflexivity|]. split; [vm_compute; reflexivity|].
  split; [vm_compute; discriminate|]. split; [vm_compute; discriminate|]. vm_compute. reflexivity.
Qed.
Print Assumptions C74_lighter_refuted.

(** so does naming a start that is still to come: the year of day 100 is taken for three months of day 375 *)
Theorem C74_future_refuted : exists now ts ms op np st b a o d L L' r k m m' x,
  reached env0 now L /\ now <= ts /\ is_u64 ts /\ ix_in_range (ExtendStake op np st b a o d) /\
  exec env0 ts ms (ExtendStake op np st b a o d) L = Ok (L', r) /\ account_at ms 1 k /\
  is_mining env0 L k m /\ is_mining env0 L' k m' /\ unexpired op st ts = true /\ weight_of op <= weight_of np /\
  day_start ts <= x /\ eff m' x < eff m x.
Proof.
  set (c := OExtend 2 L3M L3M (noon 375) 100 0 (Some 1)). set (l := calls_to [now_call c 160] LC).
  destruct (call_from chosen (noon 150) LC 160 c l) as [R [r X]]; [vm_compute; reflexivity|reflexivity|apply calls_reach; vm_compute; reflexivity|].
  exists (noon 150), (noon 160), (fst (call_of c)), L3M, L3M, (noon 375), 100, 0, (who 2), (who 1), LC, l, r, (mn 2),
    (mining_at LC (mn 2)), (mining_at l (mn 2)), (noon 260).
  split; [exact R|]. split; [vm_compute; discriminate|]. split; [split; [vm_compute; discriminate|vm_compute; reflexivity]|].
  split; [apply range_b_ok; vm_compute; reflexivity|]. split; [exact X|]. split; [vm_compute; reflexivity|].
  split; [split; vm_compute; reflexivity|]. split; [split; vm_compute; reflexivity|]. split; [vm_compute; reflexivity|].
  split; [vm_compute; discriminate|]. split; [vm_compute; discriminate|]. vm_compute. reflexivity.
Qed.
Print Assumptions C74_future_refuted.

(** on day 195 the 200 of day 100 have expired: extending them and reopening them come to the same, but only the
    withdrawal takes the 200 that expired off the pool's total at once *)
Example C75_example :
  unexpired L3M (noon 100) (noon 195) = false /\
  map (fun l => option_map view (calls l LC))
    [[now_call bob_extends 195]; [now_call (OWithdraw 2 200 (Some 1)) 195; now_call (ODeposit 2 210 L6M (Some 1)) 195]] =
    [Some ([Some (300, 310, 129, []); Some (1440, 0, 324, [(375 * 86400, 630); (465 * 86400, 500)]); Some (2000, 0, 0, [(280 * 86400, 1500)])], 4250);
     Some ([Some (300, 310, 129, []); Some (1440, 0, 324, [(375 * 86400, 630); (465 * 86400, 500)]); Some (2000, 0, 0, [(280 * 86400, 1500)])], 4050)] /\
  due (day_start (noon 195)) (wp_diffs (pool_now LC)) = 200 /\ Z.of_nat (length (wp_diffs (pool_now LC))) < 365.
Proof. vm_compute. auto. Qed.
