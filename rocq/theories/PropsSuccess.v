(** C07 (the new pool), C46, C47 and C48: when instructions succeed, and when the creation
    of accounts is blocked. *)
From stdpp Require Import gmap.
From Verif Require Import Base OMap State Spec EffectSpec Ledger Program Clients ClientSpec ClientLemmas LedgerLemmas LedgerSpec
  CodecLemmas History HistoryLemmas HistoryThms ReachThms Scenario Attacks SuccessSpec SuccessThms Blocked.

(** ** C07 *)
Theorem C07_created : forall e, env_ok e -> forall ts ms f d L L' r,
  exec e ts ms (InitializePool f d) L = Ok (L', r) ->
  exists pool mint vault payer auth bump,
    accounts_are ms [pool; mint; vault; payer; auth; rent_id e; spl_token_id e; system_id] /\
    signed ms payer /\ signed ms auth /\
    find_vault e pool mint = (vault, bump) /\ cpa_vault e pool mint bump = Some vault /\
    is_pool e L' pool (WPool (Pool auth d f mint 0 0 0 0 bump 1) [] []) /\
    owner_of L' vault = spl_token_id e /\ data_of L' vault = DToken (Token mint auth 0) /\
    lamports_of L' vault = rent_min e 165 /\
    lamports_of L' payer = lamports_of L payer - rent_min e 165 /\
    (forall k, k <> pool -> k <> vault -> k <> payer -> acc L' k = acc L k).
Proof. exact pool_created. Qed.
Print Assumptions C07_created.

Definition first_call : call := (at_noon 100, b_initialize_pool env0 POOL MINT (vault_of POOL) PAYER AUTH FILLER DISTR).
Example C07_created_example :
  runs L0 first_call = true /\
  data_of (ledger_after [first_call]) POOL = DPool (WPool (Pool AUTH DISTR FILLER MINT 0 0 0 0 255 1) [] []) /\
  data_of (ledger_after [first_call]) (vault_of POOL) = DToken (Token MINT AUTH 0) /\
  lamports_of (ledger_after [first_call]) PAYER = 9997070 /\ lamports_of (ledger_after [first_call]) (vault_of POOL) = 2930.
Proof. vm_compute. auto 10. Qed.

(** ** C46 *)
Theorem C46_mining_blocked : forall e, env_ok e -> forall now L now' L' o p k b ts ms,
  reached e now L -> 0 < lamports_of L k -> find_mining e o p = (k, b) -> untouched e k now L now' L' ->
  account_at ms 0 p -> exists err, exec e ts ms (InitializeMining o) L' = Err err.
Proof. exact mining_blocked_forever. Qed.
Print Assumptions C46_mining_blocked.

Theorem C46_pool_blocked : forall e, env_ok e -> forall now L now' L' p mint k b ts ms f d,
  reached e now L -> 0 < lamports_of L k -> find_vault e p mint = (k, b) -> untouched e k now L now' L' ->
  account_at ms 0 p -> account_at ms 1 mint -> exists err, exec e ts ms (InitializePool f d) L' = Err err.
Proof. exact pool_blocked_forever. Qed.
Print Assumptions C46_pool_blocked.

Theorem C46_lamport : forall e, env_ok e -> forall now L k,
  reached e now L -> lamports_of L k = 0 -> owner_of L k = system_id ->
  exists L1, external e L L1 /\ lamports_of L1 k = 1 /\ forall k', k' <> k -> acc L1 k' = acc L k'.
Proof. exact add_lamport. Qed.
Print Assumptions C46_lamport.

(** MALLORY's mining in POOL can be created, and cannot once its address holds a lamport *)
Definition mallory_joins : call := (at_noon 105, b_initialize_mining POOL (mining_of MALLORY POOL) PAYER MALLORY).
Example C46_example :
  reached env0 (at_noon 104) L2 /\ lamports_of L2 (mining_of MALLORY POOL) = 0 /\ runs L2 mallory_joins = true /\
  runs (put_lamports L2 (mining_of MALLORY POOL) 1) mallory_joins = false.
Proof.
  split; [exists L0, (events (setup ++ later)); split; [exact genesis0|exact L2_reached]|]. vm_compute. auto.
Qed.

(** ** C47 *)
Theorem C47_closed_for_good : forall e, env_ok e -> forall now ts ms L L1 r ts2 L2 evs now' L' k ts' ms' o,
  reached e now L -> now <= ts -> is_u64 ts -> exec e ts ms CloseMining L = Ok (L1, r) -> account_at ms 0 k ->
  ts <= ts2 -> is_u64 ts2 -> external e L1 L2 -> 0 < lamports_of L2 k ->
  run e ts2 L2 evs now' L' -> (forall ts ms i, In (EvIx ts ms i) evs -> ~ signed ms system_id) ->
  account_at ms' 1 k ->
  lamports_of L2 k <= lamports_of L' k /\ exists err, exec e ts' ms' (InitializeMining o) L' = Err err.
Proof. exact closed_dead. Qed.
Print Assumptions C47_closed_for_good.

(** after closing, the mining can be made again, but not if it got a lamport before the
    runtime swept it *)
Definition joins_and_leaves : list call :=
  setup ++ later ++ [mallory_joins; (at_noon 105, b_close (mining_of MALLORY POOL) MALLORY PAYER AUTH POOL)].
Example C47_example :
  plays joins_and_leaves (at_noon 105) = true /\
  lamports_of (ledger_after joins_and_leaves) (mining_of MALLORY POOL) = 0 /\
  runs (delete (mining_of MALLORY POOL) (ledger_after joins_and_leaves)) mallory_joins = true /\
  runs (put_lamports (ledger_after joins_and_leaves) (mining_of MALLORY POOL) 1) mallory_joins = false.
Proof. vm_compute. auto. Qed.

(** ** C48 *)
Theorem C48_exactly_when_allowed : forall e, env_ok e -> forall now ts ms i L,
  reached e now L -> now <= ts -> ix_in_range i ->
  (forall n k, In n (may_change i) -> account_at ms n k -> writable ms k) ->
  (exists x, exec e ts ms i L = Ok x) <-> allowed e ts ms i L.
Proof. exact succeeds_iff. Qed.
Print Assumptions C48_exactly_when_allowed.

Theorem C48_only_when_allowed : forall e, env_ok e -> forall now ts ms i L L' r,
  reached e now L -> now <= ts -> ix_in_range i -> exec e ts ms i L = Ok (L', r) -> allowed e ts ms i L.
Proof. exact only_allowed. Qed.
Print Assumptions C48_only_when_allowed.

Theorem C48_built : forall e, env_ok e -> forall now ts ms i L,
  reached e now L -> now <= ts -> ix_in_range i -> built e ms i ->
  (exists x, exec e ts ms i L = Ok x) <-> allowed e ts ms i L.
Proof. exact built_iff. Qed.
Print Assumptions C48_built.

(** BOB staked 300, of which 50 are withdrawn; a slash needs the recorded bonus; and so on:
    each pair lies on the two sides of a condition *)
Example C48_example :
  reached env0 (at_noon 104) L2 /\
  map (fun c => runs L2 (at_noon 105, c))
    [b_withdraw POOL (mining_of BOB POOL) AUTH (mining_of ALICE POOL) 250 BOB ALICE;
     b_withdraw POOL (mining_of BOB POOL) AUTH (mining_of ALICE POOL) 251 BOB ALICE;
     b_slash AUTH POOL (mining_of ALICE POOL) ALICE 100 200 (Some (expiry L3M (at_noon 100)));
     b_slash AUTH POOL (mining_of ALICE POOL) ALICE 99 200 (Some (expiry L3M (at_noon 100)));
     b_extend POOL (mining_of CAROL POOL) AUTH (mining_of CAROL POOL) L1Y L1Y (at_noon 100) 40 5 CAROL CAROL;
     b_extend POOL (mining_of CAROL POOL) AUTH (mining_of CAROL POOL) L1Y L1Y (at_noon 99) 40 5 CAROL CAROL;
     b_decrease AUTH POOL (mining_of CAROL POOL) CAROL 240;
     b_decrease AUTH POOL (mining_of CAROL POOL) CAROL 241;
     b_fill_vault env0 POOL MINT (vault_of POOL) FILLER SOURCE 950000 (at_noon 110);
     b_fill_vault env0 POOL MINT (vault_of POOL) FILLER SOURCE 950001 (at_noon 110)]
  = [true; false; true; false; true; false; true; false; true; false].
Proof.
  split; [exists L0, (events (setup ++ later)); split; [exact genesis0|exact L2_reached]|]. vm_compute. reflexivity.
Qed.
Example C48_example_allowed :
  let c a := b_withdraw POOL (mining_of BOB POOL) AUTH (mining_of ALICE POOL) a BOB ALICE in
  allowed env0 (at_noon 105) (fst (c 250)) (snd (c 250)) L2 /\
  ~ allowed env0 (at_noon 105) (fst (c 251)) (snd (c 251)) L2.
Proof.
  assert (HR : reached env0 (at_noon 104) L2).
  { exists L0, (events (setup ++ later)). split; [exact genesis0|exact L2_reached]. }
  assert (Hx : at_noon 104 <= at_noon 105) by (unfold at_noon; lia).
  assert (Hb : forall a, built env0 (fst (b_withdraw POOL (mining_of BOB POOL) AUTH (mining_of ALICE POOL) a BOB ALICE))
                (WithdrawMining a BOB ALICE)) by (intros; constructor).
  cbv zeta. split.
  - apply (C48_built env0 env0_ok (at_noon 104)); [exact HR|exact Hx|apply range_b_ok; reflexivity|apply Hb|].
    apply runs_ok with (c := (at_noon 105, b_withdraw POOL (mining_of BOB POOL) AUTH (mining_of ALICE POOL) 250 BOB ALICE)). vm_compute. reflexivity.
  - intros A. apply (C48_built env0 env0_ok (at_noon 104)) in A; [|exact HR|exact Hx|apply range_b_ok; reflexivity|apply Hb].
    apply (runs_ok _ (at_noon 105, b_withdraw POOL (mining_of BOB POOL) AUTH (mining_of ALICE POOL) 251 BOB ALICE)) in A. vm_compute in A. discriminate.
Qed.
