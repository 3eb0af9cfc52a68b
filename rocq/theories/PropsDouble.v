(** C67: what a staker gains, and everybody else loses, when a deposit names a second mining
    as delegate (DoubleSpec.v). *)
From stdpp Require Import gmap.
From Verif Require Import Base OMap State Spec EffectSpec Core CoreRun Witness Ledger Program Clients LedgerLemmas
  LedgerSpec CodecLemmas History ReachThms Scenario Attacks SuccessSpec LedgerView LedgerCore LedgerCoreThms LedgerOrderly
  EffectThms WorthSpec Worth ClientSpec Plain PropsWorth DoubleSpec Double.

(** Two copies of a deposit on the same ledger, without a delegate and with the mining [D]:
    the delegated one counts the amount once more, on every day, for [D] and for the pool;
    nothing else differs. *)
Theorem C67_counted_again : forall e, env_ok e -> forall now ts msA msB a p oA dA oB dB L LA LB rA rB P k D,
  reached e now L -> now <= ts -> is_u64 a ->
  exec e ts msA (DepositMining a p oA dA) L = Ok (LA, rA) -> account_at msA 0 P -> account_at msA 1 k -> account_at msA 3 k ->
  exec e ts msB (DepositMining a p oB dB) L = Ok (LB, rB) -> account_at msB 0 P -> account_at msB 1 k -> account_at msB 3 D ->
  D <> k ->
  (forall q, q <> P -> q <> D -> acc LB q = acc LA q) /\
  (exists wA wB, is_pool e LA P wA /\ is_pool e LB P wB /\ only_total wA wB /\ wp_diffs wB = wp_diffs wA /\
     p_total (wp wB) = p_total (wp wA) + a) /\
  (exists x y, is_mining e LA D x /\ is_mining e LB D y /\ same_mining x y /\
     forall d, day_start ts <= d -> eff y d = eff x d + a).
Proof. exact deposits_differ. Qed.
Print Assumptions C67_counted_again.

(** No token deposited counts more than seven times in the pool's weight. *)
Theorem C67_at_most : forall e, env_ok e -> forall now ts ms a p o d L L' r P w w',
  reached e now L -> now <= ts -> is_u64 a -> exec e ts ms (DepositMining a p o d) L = Ok (L', r) -> account_at ms 0 P ->
  is_pool e L P w -> is_pool e L' P w' ->
  p_total (wp w) + a <= p_total (wp w') <= p_total (wp w) + 7 * a.
Proof. exact deposit_at_most. Qed.
Print Assumptions C67_at_most.

(** After any number of distributions nobody but [D] stands for more than without the
    delegation: not the staker's own mining, and no other mining of any pool. *)
Theorem C67_others : forall e, env_ok e -> forall now ts msA msB a p oA dA oB dB L LA LB rA rB P k D l LA' LB' t j x y,
  reached e now L -> now <= ts -> is_u64 ts -> ix_in_range (DepositMining a p oA dA) -> ix_in_range (DepositMining a p oB dB) ->
  exec e ts msA (DepositMining a p oA dA) L = Ok (LA, rA) -> account_at msA 0 P -> account_at msA 1 k -> account_at msA 3 k ->
  exec e ts msB (DepositMining a p oB dB) L = Ok (LB, rB) -> account_at msB 0 P -> account_at msB 1 k -> account_at msB 3 D ->
  D <> k -> distributions e P ts LA l LA' -> distributions e P ts LB l LB' ->
  j <> D -> worth e t LA' j x -> worth e t LB' j y -> y <= x.
Proof. exact others_lose. Qed.
Print Assumptions C67_others.

(** In orderly histories the two minings together have at least the part of each day's weight
    that they have without the delegation, and more if anybody else has stake that day. *)
Theorem C67_part : forall e, env_ok e -> env_inj e -> 0 < rent_min e MINING_LEN -> forall P, P <> 0 ->
  forall now ts msA msB a p oA dA oB dB L LA LB rA rB V wA k D m x,
  reached e now L -> now <= ts -> is_u64 a ->
  exec e ts msA (DepositMining a p oA dA) L = Ok (LA, rA) -> account_at msA 0 P -> account_at msA 1 k -> account_at msA 3 k ->
  exec e ts msB (DepositMining a p oB dB) L = Ok (LB, rB) -> account_at msB 0 P -> account_at msB 1 k -> account_at msB 3 D ->
  D <> k -> orderly e P disciplined ts LA -> pool_vault e LA P V wA -> mining_in e LA P k m -> mining_in e LA P D x ->
  exists wB y, is_pool e LB P wB /\ mining_in e LB P D y /\ mining_in e LB P k m /\
    forall d, day_start ts <= d ->
      (eff m d + eff x d) * weight_on wB d <= (eff m d + eff y d) * weight_on wA d /\
      (0 < a -> (exists j u, j <> k /\ j <> D /\ mining_in e LA P j u /\ 0 < eff u d) ->
       (eff m d + eff x d) * weight_on wB d < (eff m d + eff y d) * weight_on wA d).
Proof. exact part_theorem. Qed.
Print Assumptions C67_part.

(** ** A concrete case *)
(** BOB owns CAROL's mining too.  Both are brought up to date; BOB then deposits 1000 for three
    months, without a delegate or delegated to CAROL's mining; three distributions follow. *)
Definition before_it : list call := rich ++ map (fun x => (fst x, call_of (snd x))) [(noon 195, OClaim 3); (noon 195, OClaim 1); (noon 195, OWithdraw 2 0 None)].
Definition plain_one : call := (noon 195, call_of (ODeposit 2 1000 L3M None)).
Definition double_one : call := (noon 195, call_of (ODeposit 2 1000 L3M (Some 3))).
Definition three : list call := map (fun x => (fst x, call_of (snd x))) [(noon 195, ODistribute); (noon 196, ODistribute); (noon 197, ODistribute)].
Definition LA3 : ledger := ledger_after ((before_it ++ [plain_one]) ++ three).
Definition LB3 : ledger := ledger_after ((before_it ++ [double_one]) ++ three).

Definition LAd : ledger := ledger_after (before_it ++ [plain_one]).
Definition LBd : ledger := ledger_after (before_it ++ [double_one]).
Lemma single l now c : plays l now = true -> plays (l ++ [c]) (fst c) = true ->
  exists r, exec env0 (fst c) (fst (snd c)) (snd (snd c)) (ledger_after l) = Ok (ledger_after (l ++ [c]), r).
Proof.
  destruct c as [ts [ms i]]. cbn [fst snd]. intros H1 H2. pose proof (plays_then _ _ _ _ H1 H2) as Q. cbn [play] in Q.
  destruct (exec env0 ts ms i (ledger_after l)) as [[L' r]|] eqn:X.
  - exists r. f_equal. f_equal. exact (one_more _ _ _ _ _ _ _ H1 H2 X).
  - destruct (ensure _ _); discriminate Q.
Qed.
Lemma given_play l : forall now L now' L',
  play now L (map (fun ts => (ts, call_of ODistribute)) l) = Ok (now', L') -> distributions env0 POOL now L l L'.
Proof.
  change (call_of ODistribute) with (fst (call_of ODistribute), DistributeRewards).
  induction l as [|ts l IH]; cbn [map play]; intros now L now' L' H.
  - injection H as _ <-. apply ds_nil.
  - destruct ((now <=? ts) && u64_b ts && range_b DistributeRewards) eqn:E; [|discriminate H]. cbn [ensure rbind] in H.
    apply andb_true_iff in E as [E _]. apply andb_true_iff in E as [E1 E2]. unfold u64_b in E2.
    destruct (exec env0 ts (fst (call_of ODistribute)) DistributeRewards L) as [[L1 r]|] eqn:X; [|discriminate H]. cbn [rbind] in H.
    apply (ds_cons _ _ _ _ _ (fst (call_of ODistribute)) L1 r); [lia|unfold is_u64; lia|reflexivity|exact X|].
    exact (IH _ _ _ _ H).
Qed.
Lemma given l now : plays l now = true -> plays (l ++ three) (noon 197) = true ->
  distributions env0 POOL now (ledger_after l) [noon 195; noon 196; noon 197] (ledger_after (l ++ three)).
Proof. intros H1 H2. apply (given_play _ _ _ (noon 197)). exact (plays_then _ _ _ _ H1 H2). Qed.

(** A delegation to a second mining of one's own is not neutral: from one ledger of an orderly
    history, BOB's two minings get 44932 instead of 42972, ALICE 8075 instead of 10035. *)
Theorem C67_neutral_refuted : exists ts msA msB a p o d1 d2 L LA LB rA rB k D j l LA' LB' t xk xD xj yk yD yj,
  orderly env0 POOL disciplined ts L /\
  exec env0 ts msA (DepositMining a p o d1) L = Ok (LA, rA) /\ account_at msA 1 k /\ account_at msA 3 k /\
  exec env0 ts msB (DepositMining a p o d2) L = Ok (LB, rB) /\ account_at msB 1 k /\ account_at msB 3 D /\
  orderly env0 POOL disciplined ts LA /\ orderly env0 POOL disciplined ts LB /\
  D <> k /\ j <> k /\ j <> D /\ worth env0 ts L k 0 /\ worth env0 ts L D 0 /\ worth env0 ts L j 0 /\
  distributions env0 POOL ts LA l LA' /\ distributions env0 POOL ts LB l LB' /\
  worth env0 t LA' k xk /\ worth env0 t LA' D xD /\ worth env0 t LA' j xj /\
  worth env0 t LB' k yk /\ worth env0 t LB' D yD /\ worth env0 t LB' j yj /\
  yj < xj /\ xk + xD < yk + yD.
Proof.
  assert (H0 : plays before_it (noon 195) = true) by (vm_compute; reflexivity).
  assert (HA : plays (before_it ++ [plain_one]) (noon 195) = true) by (vm_compute; reflexivity).
  assert (HB : plays (before_it ++ [double_one]) (noon 195) = true) by (vm_compute; reflexivity).
  assert (HA3 : plays ((before_it ++ [plain_one]) ++ three) (noon 197) = true) by (vm_compute; reflexivity).
  assert (HB3 : plays ((before_it ++ [double_one]) ++ three) (noon 197) = true) by (vm_compute; reflexivity).
  destruct (single before_it (noon 195) plain_one H0 HA) as [rA XA]. destruct (single before_it (noon 195) double_one H0 HB) as [rB XB].
  exists (noon 195), (fst (snd plain_one)), (fst (snd double_one)), 1000, L3M, BOB, BOB, CAROL, (ledger_after before_it), LAd, LBd, rA, rB,
    (mn 2), (mn 3), (mn 1), [noon 195; noon 196; noon 197], LA3, LB3, (noon 198), 34738, 8234, 10035, 27953, 16979, 8075.
  split; [apply (orderly_play_ok _ _ _ _ _ disciplined_b_ok); vm_compute; reflexivity|].
  split; [exact XA|]. do 2 (split; [vm_compute; reflexivity|]). split; [exact XB|]. do 2 (split; [vm_compute; reflexivity|]).
  do 2 (split; [apply (orderly_play_ok _ _ _ _ _ disciplined_b_ok); vm_compute; reflexivity|]).
  do 3 (split; [vm_compute; discriminate|]).
  do 3 (split; [apply (stands_ok (noon 195)); [exact (plays_reached _ _ H0)|vm_compute; reflexivity]|]).
  split; [exact (given _ _ HA HA3)|]. split; [exact (given _ _ HB HB3)|].
  do 3 (split; [apply (stands_ok (noon 197)); [exact (plays_reached _ _ HA3)|vm_compute; reflexivity]|]).
  do 3 (split; [apply (stands_ok (noon 197)); [exact (plays_reached _ _ HB3)|vm_compute; reflexivity]|]).
  lia.
Qed.
Print Assumptions C67_neutral_refuted.

(** the hypotheses of the theorems above hold in this case *)
Example C67_example :
  reached env0 (noon 195) (ledger_after before_it) /\
  runs (ledger_after before_it) plain_one = true /\ runs (ledger_after before_it) double_one = true /\
  orderly env0 POOL disciplined (noon 195) LAd /\ pool_vault env0 LAd POOL (vault_of POOL) (pool_now LAd) /\
  p_total (wp (pool_now LBd)) = p_total (wp (pool_now LAd)) + 1000 /\
  p_total (wp (pool_now (ledger_after before_it))) + 3 * 1000 = p_total (wp (pool_now LBd)) /\
  map (stands (noon 198) LA3) [mn 1; mn 2; mn 3] = [Some 10035; Some 34738; Some 8234] /\
  map (stands (noon 198) LB3) [mn 1; mn 2; mn 3] = [Some 8075; Some 27953; Some 16979].
Proof.
  split; [apply plays_reached; vm_compute; reflexivity|]. do 2 (split; [vm_compute; reflexivity|]).
  split; [apply (orderly_play_ok _ _ _ _ _ disciplined_b_ok); vm_compute; reflexivity|].
  split; [apply has_pool_ok; vm_compute; reflexivity|]. repeat split; vm_compute; reflexivity.
Qed.
