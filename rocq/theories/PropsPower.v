(** C57: nothing is taken, and nothing is changed, without the right signature. *)
From stdpp Require Import gmap.
From Verif Require Import Base OMap State Spec Ledger Program Clients LedgerLemmas LedgerSpec
  CodecLemmas History HistoryLemmas HistoryThms ReachThms Scenario Attacks LedgerView PowerSpec Powers PowerExamples.

(** a token balance falls only in a FillVault or Claim that its owner signed *)
Theorem C57_tokens : forall e, env_ok e -> forall now ts ms i L L' r T t,
  reached e now L -> now <= ts -> ix_in_range i -> exec e ts ms i L = Ok (L', r) -> is_token e L T t ->
  exists t', is_token e L' T t' /\ t_mint t' = t_mint t /\ t_owner t' = t_owner t /\
    (t_amount t' < t_amount t -> signed ms (t_owner t) /\
       ((exists a b, i = FillVault a b) /\ account_at ms 4 T \/ i = Claim /\ account_at ms 2 T)).
Proof. exact tokens_reached. Qed.
Print Assumptions C57_tokens.

(** lamports leave an account only if it signed, or if it is a mining closed with the
    signatures of its owner and of the deposit authority of the pool named *)
Theorem C57_lamports : forall e, env_ok e -> forall now ts ms i L L' r k,
  reached e now L -> exec e ts ms i L = Ok (L', r) -> lamports_of L' k < lamports_of L k ->
  signed ms k \/
  i = CloseMining /\ account_at ms 0 k /\
  exists m P w, is_mining e L k m /\ signed ms (m_owner (wm m)) /\
    account_at ms 4 P /\ is_pool e L P w /\ signed ms (p_deposit_auth (wp w)).
Proof. exact lamports_reached. Qed.
Print Assumptions C57_lamports.

(** as long as its owner signs nothing, a mining stays and its accounted rewards never fall,
    whatever anybody else does, in this pool or another *)
Theorem C57_rewards : forall e, env_ok e -> forall now L evs now' L' k m,
  reached e now L -> run e now L evs now' L' -> is_mining e L k m -> 0 < lamports_of L k ->
  Forall (silent (m_owner (wm m))) evs ->
  exists m', is_mining e L' k m' /\ m_owner (wm m') = m_owner (wm m) /\ m_pool (wm m') = m_pool (wm m) /\
    m_unclaimed (wm m) <= m_unclaimed (wm m') /\ lamports_of L k <= lamports_of L' k.
Proof. exact rewards_reached. Qed.
Print Assumptions C57_rewards.

(** as long as the deposit authority of its pool signs nothing, a mining does not change at
    all, unless it is named where the program does not check the pool *)
Theorem C57_minings : forall e, env_ok e -> env_inj e -> forall now L evs now' L' k m w,
  reached e now L -> run e now L evs now' L' ->
  is_mining e L k m -> m_type (wm m) = TYPE_MINING -> 0 < lamports_of L k ->
  is_pool e L (m_pool (wm m)) w -> p_type (wp w) = TYPE_POOL -> 0 < lamports_of L (m_pool (wm m)) ->
  Forall (silent (p_deposit_auth (wp w))) evs -> Forall (fun ev => ~ unchecked k ev) evs ->
  is_mining e L' k m.
Proof. exact untouched_reached. Qed.
Print Assumptions C57_minings.

(** without the exception it is false: ALICE's mining changes though neither ALICE nor any
    authority of POOL signs *)
Theorem C57_minings_refuted :
  exists now L now' L', reached env0 now L /\ run env0 now L (events [snatch]) now' L' /\
    (forall k, In k [ALICE; AUTH; FILLER; DISTR] -> Forall (silent k) (events [snatch])) /\
    delegated_to L (mining_of ALICE POOL) = 250 /\ delegated_to L' (mining_of ALICE POOL) = 249.
Proof. exact unchecked_witness. Qed.
Print Assumptions C57_minings_refuted.

(** only the deposit authority moves a pool's stake: without it, the stake in force on every
    day from the last event on is what it was *)
Theorem C57_stake : forall e, env_ok e -> forall now L evs now' L' k w,
  reached e now L -> run e now L evs now' L' -> is_pool e L k w -> p_type (wp w) = TYPE_POOL -> 0 < lamports_of L k ->
  Forall (silent (p_deposit_auth (wp w))) evs ->
  exists w', is_pool e L' k w' /\ forall d, day_start now' <= d ->
    p_total (wp w') - due d (wp_diffs w') = p_total (wp w) - due d (wp_diffs w).
Proof. exact stake_reached. Qed.
Print Assumptions C57_stake.

(** only the distribution authority moves the index, or takes from what is to be distributed *)
Theorem C57_index : forall e, env_ok e -> forall now L evs now' L' k w,
  reached e now L -> run e now L evs now' L' -> is_pool e L k w -> p_type (wp w) = TYPE_POOL -> 0 < lamports_of L k ->
  Forall (silent (p_distribute_auth (wp w))) evs ->
  exists w', is_pool e L' k w' /\ p_index (wp w') = p_index (wp w) /\ wp_ci w' = wp_ci w /\
    p_avail (wp w) <= p_avail (wp w').
Proof. exact index_reached. Qed.
Print Assumptions C57_index.

(** only the fill authority adds to what is to be distributed, or moves the end date *)
Theorem C57_fill : forall e, env_ok e -> forall now L evs now' L' k w,
  reached e now L -> run e now L evs now' L' -> is_pool e L k w -> p_type (wp w) = TYPE_POOL -> 0 < lamports_of L k ->
  Forall (silent (p_fill_auth (wp w))) evs ->
  exists w', is_pool e L' k w' /\ p_avail (wp w') <= p_avail (wp w) /\ p_ends_at (wp w') = p_ends_at (wp w).
Proof. exact filled_reached. Qed.
Print Assumptions C57_fill.

(** with all three silent, the pool does not change at all *)
Theorem C57_pool : forall e, env_ok e -> forall now L evs now' L' k w,
  reached e now L -> run e now L evs now' L' -> is_pool e L k w -> p_type (wp w) = TYPE_POOL -> 0 < lamports_of L k ->
  (forall ro, Forall (silent (holder w ro)) evs) -> is_pool e L' k w.
Proof. exact pool_reached. Qed.
Print Assumptions C57_pool.

(** [later] has two distributions, ALICE's claim, and a withdrawal of 50 of BOB's stake by the
    deposit authority.  BOB signs nothing: BOB's rewards are accounted and stay.  FILLER signs
    nothing: nothing is added.  ALICE's rewards do fall: ALICE signed. *)
Example C57_example :
  reached env0 (at_noon 100) L1 /\ run env0 (at_noon 100) L1 (events later) (at_noon 104) L2 /\
  Forall (silent BOB) (events later) /\ Forall (silent FILLER) (events later) /\
  map (fun k => silent_b k later) [ALICE; AUTH; DISTR] = [false; false; false] /\
  map (fun L => (unclaimed_of L (mining_of BOB POOL), p_avail (wp (pool_of L POOL)), p_ends_at (wp (pool_of L POOL)))) [L1; L2]
    = [(0, 50000, at_noon 110 - 43200); (3605, 30000, at_noon 110 - 43200)] /\
  0 < lamports_of L1 (mining_of BOB POOL).
Proof.
  split; [exact setup_reached|]. split; [exact later_run|].
  split; [apply silent_b_ok; vm_compute; reflexivity|]. split; [apply silent_b_ok; vm_compute; reflexivity|].
  vm_compute. auto.
Qed.

(** MALLORY's own pool: nobody of POOL signs, no mining of POOL is named, POOL2 appears *)
Example C57_example_two :
  reached env0 (at_noon 104) L2 /\
  run env0 (at_noon 104) L2 (events (own_pool 104 2 30)) (at_noon 104) (ledger_after before_snatch) /\
  (forall ro, Forall (silent (holder (pool_of L2 POOL) ro)) (events (own_pool 104 2 30))) /\
  Forall (fun ev => ~ unchecked (mining_of ALICE POOL) ev) (events (own_pool 104 2 30)) /\
  is_pool env0 L2 POOL (pool_of L2 POOL) /\ p_type (wp (pool_of L2 POOL)) = TYPE_POOL /\
  0 < lamports_of L2 POOL /\ 0 < lamports_of L2 (mining_of ALICE POOL) /\
  map (fun L => p_index (wp (pool_of L POOL2))) [L2; ledger_after before_snatch] = [0; 150000000000000000].
Proof.
  split; [exact L2_is_reached|]. split; [exact own_pool_run|].
  split; [intros []; apply silent_b_ok; vm_compute; reflexivity|].
  split; [repeat (constructor; [cbn; tauto|]); constructor|].
  split; [split; vm_compute; reflexivity|]. vm_compute. auto.
Qed.
