(** C78: a mining ahead of its pool is frozen, and a stranger can put any mining there. *)
From stdpp Require Import gmap.
From Verif Require Import Base OMap State Spec EffectSpec Core Ledger Program Clients ResLemmas LedgerLemmas LedgerSpec CodecLemmas SuccessSpec SuccessThms
  History HistoryThms ReachThms Scenario Attacks LedgerView LedgerOrderly PowerSpec FreezeSpec Freeze Anybody.

(** while the mining is ahead of its pool, every instruction that would bring it up to date
    there is refused: nobody can deposit, withdraw, extend, claim, slash, close, delegate with it *)
Theorem C78_refused : forall e, env_ok e -> forall now ts ms i L P k w m n,
  reached e now L -> now <= ts -> ix_in_range i ->
  is_pool e L P w -> is_mining e L k m -> ahead w m ->
  account_at ms (pool_position i) P -> In n (worked_on i) -> account_at ms n k ->
  exists er, exec e ts ms i L = Err er.
Proof. exact frozen_refused. Qed.
Print Assumptions C78_refused.

(** whatever happens, it stays so until the pool has distributed that much, unless it is named
    again where the program does not check its pool *)
Theorem C78_stays : forall e, env_ok e -> env_inj e -> forall P k now L evs now' L', History.run e now L evs now' L' ->
  forall w m w', reached e now L ->
  is_pool e L P w -> p_type (wp w) = TYPE_POOL -> 0 < lamports_of L P ->
  is_mining e L k m -> m_type (wm m) = TYPE_MINING -> m_pool (wm m) = P -> 0 < lamports_of L k ->
  (forall ev, In ev evs -> ~ unchecked k ev) ->
  is_pool e L' P w' -> ahead w' m ->
  (exists m', is_mining e L' k m' /\ only_lowered m m') /\ forall ev, In ev evs -> ~ works_on P k ev.
Proof. exact run_frozen. Qed.
Print Assumptions C78_stays.

(** with an expiry to work off that the pool reached with less than the mining's index, it is
    refused too *)
Theorem C78_stuck_refused : forall e, env_ok e -> forall now ts ms i L P k w m n d,
  reached e now L -> now <= ts -> ix_in_range i ->
  is_pool e L P w -> is_mining e L k m -> d <= day_start ts -> stuck_at d w m ->
  account_at ms (pool_position i) P -> In n (worked_on i) -> account_at ms n k ->
  exists er, exec e ts ms i L = Err er.
Proof. exact stuck_refused. Qed.
Print Assumptions C78_stuck_refused.

(** that is for good: however much the pool distributes later, nothing works on the mining again,
    unless it is named where the program does not check its pool *)
Theorem C78_forever : forall e, env_ok e -> env_inj e -> forall P k d now L evs now' L', History.run e now L evs now' L' ->
  forall w m, reached e now L ->
  is_pool e L P w -> p_type (wp w) = TYPE_POOL -> 0 < lamports_of L P ->
  is_mining e L k m -> m_type (wm m) = TYPE_MINING -> m_pool (wm m) = P -> 0 < lamports_of L k ->
  (forall ev, In ev evs -> ~ unchecked k ev) ->
  d <= day_start now -> stuck_at d w m ->
  (exists w' m', is_pool e L' P w' /\ is_mining e L' k m' /\ only_lowered m m' /\ stuck_at d w' m') /\
  forall ev, In ev evs -> ~ works_on P k ev.
Proof. exact run_stuck. Qed.
Print Assumptions C78_forever.

(** a frozen mining gets there when an expiry of its passes *)
Theorem C78_expiry_passes : forall e, env_ok e -> forall now L P w m d,
  reached e now L -> is_pool e L P w -> ahead w m -> has_date d (wm_diffs m) -> stuck_at d w m.
Proof. exact ahead_stuck. Qed.
Print Assumptions C78_expiry_passes.

(** the strike of a stranger succeeds exactly when both minings can be brought up to date with
    the history of the stranger's pool; nothing is asked of the struck mining's pool or owner *)
Theorem C78_strike : forall e, env_ok e -> forall now ts L Q j auth owner k wQ mj mk x,
  reached e now L -> now <= ts -> is_key x -> is_pool e L Q wQ -> p_deposit_auth (wp wQ) = auth ->
  is_mining e L j mj -> m_owner (wm mj) = owner -> m_pool (wm mj) = Q ->
  cpa_mining e owner Q (m_bump (wm mj)) = Some j ->
  is_mining e L k mk -> k <> j ->
  (exists y, exec e ts (strike_on Q j auth owner k) (ChangeDelegate 0 x) L = Ok y) <->
  can_refresh ts (wp_ci wQ) mj /\ can_refresh ts (wp_ci wQ) mk.
Proof. exact strike_iff. Qed.
Print Assumptions C78_strike.

(** after it the mining has what the history of the stranger's pool gives it, and is ahead of its
    own pool whenever that history is *)
Theorem C78_struck : forall e, env_ok e -> forall now ts L L' r Q j auth owner k P w wQ mk x,
  reached e now L -> now <= ts -> is_key x ->
  exec e ts (strike_on Q j auth owner k) (ChangeDelegate 0 x) L = Ok (L', r) ->
  is_pool e L P w -> P <> Q -> is_pool e L Q wQ -> is_mining e L k mk -> k <> j ->
  p_index (wp w) < visible ts (wp_ci wQ) ->
  is_pool e L' P w /\
  exists m', is_mining e L' k m' /\ refreshed ts (wp_ci wQ) mk m' /\ ahead w m'.
Proof. exact strike_freezes. Qed.
Print Assumptions C78_struck.

(** and anybody can do it, from any state of the chain, with a zeroed pool account, two rents and
    [X] tokens of any mint, in six calls that all succeed: a mining that has no expiry to work off
    ends with the index of [X] tokens on one share, ahead of its pool *)
Theorem C78_anybody : forall e, env_ok e -> env_inj e -> forall now ts L A Q mint V j S X k P w mk,
  reached e now L -> now <= ts -> is_u64 ts -> fits (expiry LFlex ts) -> day_start ts < ts ->
  means e L A Q mint V j S X -> 0 < X < 18446744073709551616 ->
  is_pool e L P w -> P <> Q -> p_index (wp w) < 10000000000000000 * X ->
  is_mining e L k mk -> (forall d v, In (d, v) (wm_diffs mk) -> day_start ts < d) ->
  fits (m_share (wm mk) + m_sfo (wm mk)) -> m_index (wm mk) <= 10000000000000000 * X ->
  fits (m_unclaimed (wm mk) + (m_share (wm mk) + m_sfo (wm mk)) * (10000000000000000 * X - m_index (wm mk)) / 10000000000000000) ->
  exists L', History.run e now L (six_calls e ts A Q mint V j S X k) ts L' /\ is_pool e L' P w /\
    exists m', is_mining e L' k m' /\ m_index (wm m') = 10000000000000000 * X /\ ahead w m'.
Proof. exact anybody_strikes. Qed.
Print Assumptions C78_anybody.

(** ** A concrete freeze: ALICE's mining, struck by MALLORY *)
Definition pool_at (L : ledger) (k : pubkey) : option wpool := match data_of L k with DPool w => Some w | _ => None end.
Definition mining_at (L : ledger) (k : pubkey) : option wmining := match data_of L k with DMining m => Some m | _ => None end.
Definition indices (L : ledger) : option (Z * Z) :=
  match pool_at L POOL, mining_at L (mining_of ALICE POOL) with
  | Some w, Some m => Some (p_index (wp w), m_index (wm m)) | _, _ => None end.
Example C78_example :
  plays before_freeze (at_noon 104) = true /\ plays (before_freeze ++ [freeze]) (at_noon 105) = true /\
  fst (snd freeze) = strike_on POOL2 (mining_of MALLORY POOL2) MALLORY MALLORY (mining_of ALICE POOL) /\
  match indices (ledger_after (before_freeze ++ [freeze])) with Some (p, m) => p <? m | None => false end = true /\
  match indices (ledger_after before_freeze) with Some (p, m) => m <=? p | None => false end = true.
Proof. vm_compute. auto 10. Qed.

(** ** Frozen for good.  ALICE's bonus ends on day 190, while ALICE's mining is ahead of POOL.
    On day 195 POOL distributes enough to get past it, and still ALICE cannot claim. *)
Definition catch_up : list call :=
  [(at_noon 195, b_fill_vault env0 POOL MINT (vault_of POOL) FILLER SOURCE 500000 (at_noon 195));
   (at_noon 195, b_distribute POOL DISTR)].
Definition before_good : list call := setup ++ later ++ own_pool 104 1 100.
Definition is_stuck (d : Z) (L : ledger) : bool :=
  match pool_at L POOL, mining_at L (mining_of ALICE POOL) with
  | Some w, Some m => existsb (fun x => fst x =? d) (wm_diffs m) && (visible d (wp_ci w) <? m_index (wm m))
  | _, _ => false end.
Example C78_example_forever :
  plays (before_good ++ catch_up) (at_noon 195) = true /\
  plays (before_good ++ freeze :: catch_up) (at_noon 195) = true /\
  match indices (ledger_after (before_good ++ freeze :: catch_up)) with Some (p, m) => m <? p | None => false end = true /\
  is_stuck (190 * 86400) (ledger_after (before_good ++ freeze :: catch_up)) = true /\
  runs (ledger_after (before_good ++ catch_up)) (alice_claims 200) = true /\
  runs (ledger_after (before_good ++ freeze :: catch_up)) (alice_claims 200) = false /\
  runs (ledger_after (before_good ++ freeze :: catch_up)) (alice_claims 100000) = false.
Proof. vm_compute. auto 12. Qed.

(** ** Before MALLORY's pool exists, MALLORY has what C78_anybody asks for, against ALICE's mining *)
Definition at_hand (L : ledger) : bool :=
  match pool_at L POOL, mining_at L (mining_of ALICE POOL) with
  | Some w, Some m =>
      (p_index (wp w) <? 10000000000000000 * 1000) && forallb (fun x => at_noon 104 <? fst x) (wm_diffs m) &&
      (m_index (wm m) <=? 10000000000000000 * 1000) && (0 <? m_share (wm m)) && (m_share (wm m) + m_sfo (wm m) <? 1000000)
  | _, _ => false end.
Example C78_example_anybody :
  let L := ledger_after (setup ++ later) in
  reached env0 (at_noon 104) L /\ at_hand L = true /\
  means env0 L MALLORY POOL2 MINT (vault_of POOL2) (mining_of MALLORY POOL2) MALLORY_T 1000.
Proof.
  split; [apply plays_reached; vm_compute; reflexivity|]. split; [vm_compute; reflexivity|].
  constructor; try (vm_compute; repeat split; solve [reflexivity | discriminate]).
  - split; [vm_compute; reflexivity|]. exists (Token MINT MALLORY 1000). vm_compute. repeat split; discriminate.
Qed.
