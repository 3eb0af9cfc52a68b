(** C83: what a call for another pool costs or brings a mining. *)
From stdpp Require Import gmap.
From Verif Require Import Base OMap State Spec EffectSpec DustSpec Ledger Program Clients LedgerLemmas LedgerSpec
  CodecLemmas History Scenario Attacks HistoryThms ReachThms SuccessSpec FreezeSpec PropsFreeze CapSpec IncomeSpec Income StrikeSpec Strike Erase.

(** A ChangeDelegate for the pool [Q] that names a mining of the pool [P] as the old delegate.  On
    the days on which the history of [Q] rose, the mining's stake less [a] was between [lo] and [hi];
    then what it can get is what these stakes earn up to the index of [Q], and what its stake of
    today earns from there up to the index of [P], less rounding. *)
Theorem C83_between : forall e, env_ok e -> forall now ts ms a n L L' r P Q k w m wq lo hi,
  reached e now L -> now <= ts -> ix_in_range (ChangeDelegate a n) -> exec e ts ms (ChangeDelegate a n) L = Ok (L', r) ->
  account_at ms 0 Q -> account_at ms 4 k -> Q <> P -> is_pool e L Q wq -> open_in e P k L w m ->
  (forall d i, In (d, i) (wp_ci wq) -> d < ts -> m_index (wm m) < i -> lo <= eff m d - a <= hi) ->
  exists m', open_in e P k L' w m' /\ m_sfo (wm m') = m_sfo (wm m) - a /\
    m_index (wm m) <= visible ts (wp_ci wq) /\ m_index (wm m') = visible ts (wp_ci wq) /\
    let over := Z.max (last_from 0 (wp_ci w)) (visible ts (wp_ci wq)) - visible ts (wp_ci wq) in let was := 10000000000000000 * m_unclaimed (wm m) in
    was + (visible ts (wp_ci wq) - m_index (wm m)) * lo + over * (eff m (day_start ts) - a)
      - (10000000000000000 - 1) * (1 + count_due (day_start ts) (wm_diffs m)) <= owed (wp_ci w) m' /\
    owed (wp_ci w) m' <= was + (visible ts (wp_ci wq) - m_index (wm m)) * hi + over * (eff m (day_start ts) - a).
Proof. exact strike_bounds. Qed.
Print Assumptions C83_between.

(** whatever the history of [Q]: as if all since the last refresh was earned by a stake between
    that of today and the largest one *)
Theorem C83_range : forall e, env_ok e -> forall now ts ms a n L L' r P Q k w m wq,
  reached e now L -> now <= ts -> ix_in_range (ChangeDelegate a n) -> exec e ts ms (ChangeDelegate a n) L = Ok (L', r) ->
  account_at ms 0 Q -> account_at ms 4 k -> Q <> P -> is_pool e L Q wq -> open_in e P k L w m ->
  exists m', open_in e P k L' w m' /\ m_sfo (wm m') = m_sfo (wm m) - a /\ m_index (wm m') = visible ts (wp_ci wq) /\
    let all := Z.max (last_from 0 (wp_ci w)) (visible ts (wp_ci wq)) - m_index (wm m) in let was := 10000000000000000 * m_unclaimed (wm m) in
    was + all * (eff m (day_start ts) - a) - (10000000000000000 - 1) * (1 + count_due (day_start ts) (wm_diffs m)) <= owed (wp_ci w) m' /\
    owed (wp_ci w) m' <= was + all * (m_share (wm m) + m_sfo (wm m) - a).
Proof. exact strike_range. Qed.
Print Assumptions C83_range.

(** the history of [Q] rose only on days with today's stake, and not above that of [P]: all that
    expired bonuses earned since the last refresh is lost *)
Theorem C83_loss : forall e, env_ok e -> forall now ts ms a n L L' r P Q k w m wq,
  reached e now L -> now <= ts -> ix_in_range (ChangeDelegate a n) -> exec e ts ms (ChangeDelegate a n) L = Ok (L', r) ->
  account_at ms 0 Q -> account_at ms 4 k -> Q <> P -> is_pool e L Q wq -> open_in e P k L w m ->
  (forall d i, In (d, i) (wp_ci wq) -> d < ts -> m_index (wm m) < i -> eff m d = eff m (day_start ts)) ->
  visible ts (wp_ci wq) <= last_from 0 (wp_ci w) ->
  exists m', open_in e P k L' w m' /\
    let loss := accrual (m_index (wm m)) (fun d => eff m d - eff m (day_start ts) + a) (wp_ci w) in
    owed (wp_ci w) m - loss - (10000000000000000 - 1) * (1 + count_due (day_start ts) (wm_diffs m)) <= owed (wp_ci w) m' <= owed (wp_ci w) m - loss.
Proof. exact strike_loss. Qed.
Print Assumptions C83_loss.

(** the history of [Q] rose only on days before any expiry, and at least to the index of [P]: expired
    bonuses count for all that was distributed since the last refresh, and the largest stake for
    what was not distributed at all *)
Theorem C83_gain : forall e, env_ok e -> forall now ts ms a n L L' r P Q k w m wq,
  reached e now L -> now <= ts -> ix_in_range (ChangeDelegate a n) -> exec e ts ms (ChangeDelegate a n) L = Ok (L', r) ->
  account_at ms 0 Q -> account_at ms 4 k -> Q <> P -> is_pool e L Q wq -> open_in e P k L w m ->
  (forall d i, In (d, i) (wp_ci wq) -> d < ts -> m_index (wm m) < i -> due d (wm_diffs m) = 0) ->
  last_from 0 (wp_ci w) <= visible ts (wp_ci wq) -> m_index (wm m) <= last_from 0 (wp_ci w) ->
  exists m', open_in e P k L' w m' /\
    let gain := accrual (m_index (wm m)) (fun d => due d (wm_diffs m) - a) (wp_ci w)
                + (visible ts (wp_ci wq) - last_from 0 (wp_ci w)) * (m_share (wm m) + m_sfo (wm m) - a) in
    owed (wp_ci w) m + gain - (10000000000000000 - 1) * (1 + count_due (day_start ts) (wm_diffs m)) <= owed (wp_ci w) m' <= owed (wp_ci w) m + gain.
Proof. exact strike_gain. Qed.
Print Assumptions C83_gain.

(** anybody can bring the loss to any mining that was not refreshed since its pool's first
    distribution, from any state of the chain, in three calls that all succeed, for two rents and
    no token *)
Theorem C83_anybody : forall e, env_ok e -> env_inj e -> forall now ts L A Q mint V j k P w mk,
  reached e now L -> now <= ts -> is_u64 ts -> purse e L A Q mint V j -> P <> Q ->
  open_in e P k L w mk -> m_index (wm mk) = 0 -> fits (m_share (wm mk) + m_sfo (wm mk)) ->
  due (day_start ts) (wm_diffs mk) <= m_share (wm mk) ->
  exists L' m', History.run e now L (three_calls e ts A Q mint V j k) ts L' /\ open_in e P k L' w m' /\
    let loss := accrual 0 (fun d => eff mk d - eff mk (day_start ts)) (wp_ci w) in
    owed (wp_ci w) mk - loss - (10000000000000000 - 1) * (1 + count_due (day_start ts) (wm_diffs mk)) <= owed (wp_ci w) m' <= owed (wp_ci w) mk - loss.
Proof. exact anybody_erases. Qed.
Print Assumptions C83_anybody.

(** ** ALICE's bonus earns on day 120 and expires on day 190.  ALICE can claim 600.  On day 195
    MALLORY strikes, with a pool that never held a token, and ALICE can claim 300. *)
Definition before_erasure : list call :=
  [(at_noon 100, b_initialize_pool env0 POOL MINT (vault_of POOL) PAYER AUTH FILLER DISTR);
   (at_noon 100, b_initialize_mining POOL (mining_of ALICE POOL) PAYER ALICE);
   (at_noon 100, b_initialize_mining POOL (mining_of BOB POOL) PAYER BOB);
   (at_noon 100, b_deposit POOL (mining_of ALICE POOL) AUTH (mining_of ALICE POOL) 100 L3M ALICE ALICE);
   (at_noon 100, b_deposit POOL (mining_of BOB POOL) AUTH (mining_of BOB POOL) 100 LFlex BOB BOB);
   (at_noon 120, b_fill_vault env0 POOL MINT (vault_of POOL) FILLER SOURCE 900 (at_noon 120));
   (at_noon 120, b_distribute POOL DISTR)].
Definition erasure : list call :=
  [(at_noon 195, b_initialize_pool env0 POOL2 MINT (vault_of POOL2) MALLORY MALLORY MALLORY MALLORY);
   (at_noon 195, b_initialize_mining POOL2 (mining_of MALLORY POOL2) MALLORY MALLORY);
   strike 195 (mining_of ALICE POOL) 0].
Example C83_example :
  plays before_erasure (at_noon 120) = true /\
  plays (before_erasure ++ [alice_claims 196]) (at_noon 196) = true /\
  plays (before_erasure ++ erasure ++ [alice_claims 196]) (at_noon 196) = true /\
  tokens_of (ledger_after (before_erasure ++ [alice_claims 196])) ALICE_T = tokens_of (ledger_after before_erasure) ALICE_T + 600 /\
  tokens_of (ledger_after (before_erasure ++ erasure ++ [alice_claims 196])) ALICE_T = tokens_of (ledger_after before_erasure) ALICE_T + 300 /\
  events erasure = three_calls env0 (at_noon 195) MALLORY POOL2 MINT (vault_of POOL2) (mining_of MALLORY POOL2) (mining_of ALICE POOL) /\
  forallb (fun c => unsigned_by c [ALICE; BOB; AUTH; FILLER; DISTR; PAYER]) erasure = true.
Proof. vm_compute. auto 10. Qed.

(** MALLORY has what C83_anybody asks for, against ALICE's mining, and the loss is the 300 tokens *)
Definition open_of (L : ledger) : option (wpool * wmining) :=
  match pool_at L POOL, mining_at L (mining_of ALICE POOL) with Some w, Some m => Some (w, m) | _, _ => None end.
Example C83_example_anybody :
  let L := ledger_after before_erasure in
  reached env0 (at_noon 120) L /\
  purse env0 L MALLORY POOL2 MINT (vault_of POOL2) (mining_of MALLORY POOL2) /\
  exists w m, open_in env0 POOL (mining_of ALICE POOL) L w m /\ m_index (wm m) = 0 /\
    fits (m_share (wm m) + m_sfo (wm m)) /\ due (day_start (at_noon 195)) (wm_diffs m) <= m_share (wm m) /\
    owed (wp_ci w) m = 10000000000000000 * 600 /\
    accrual 0 (fun d => eff m d - eff m (day_start (at_noon 195))) (wp_ci w) = 10000000000000000 * 300.
Proof.
  split; [apply plays_reached; vm_compute; reflexivity|]. split.
  - constructor; vm_compute; repeat split; solve [reflexivity | discriminate].
  - destruct (open_of (ledger_after before_erasure)) as [[w m]|] eqn:E; [|vm_compute in E; discriminate E].
    exists w, m. vm_compute in E. injection E as <- <-. vm_compute. repeat split; solve [reflexivity | discriminate].
Qed.

(** ** The gain: MALLORY strikes their own mining, whose bonus expired before POOL paid at all *)
Definition gained (L : ledger) : option (wpool * wmining * wpool) :=
  match pool_at L POOL, mining_at L (mining_of MALLORY POOL), pool_at L POOL2 with
  | Some w, Some m, Some q => Some (w, m, q) | _, _, _ => None end.
Example C83_example_gain :
  let L := ledger_after before_theft in
  reached env0 (at_noon 195) L /\ plays (before_theft ++ [strike 200 (mining_of MALLORY POOL) 0]) (at_noon 200) = true /\
  exists w m wq, open_in env0 POOL (mining_of MALLORY POOL) L w m /\ is_pool env0 L POOL2 wq /\
    (forall d i, In (d, i) (wp_ci wq) -> d < at_noon 200 -> m_index (wm m) < i -> due d (wm_diffs m) = 0) /\
    last_from 0 (wp_ci w) = visible (at_noon 200) (wp_ci wq) /\ m_index (wm m) = 0 /\
    owed (wp_ci w) m = 10000000000000000 * 1000 /\
    accrual (m_index (wm m)) (fun d => due d (wm_diffs m) - 0) (wp_ci w) = 10000000000000000 * 1000.
Proof.
  split; [apply plays_reached; vm_compute; reflexivity|]. split; [vm_compute; reflexivity|].
  destruct (gained (ledger_after before_theft)) as [[[w m] q]|] eqn:E; [|vm_compute in E; discriminate E].
  exists w, m, q. vm_compute in E. injection E as <- <- <-.
  split; [vm_compute; repeat split; reflexivity|]. split; [vm_compute; repeat split; reflexivity|]. split.
  - intros d i [H|[]] _ _. injection H as <- <-. reflexivity.
  - vm_compute. repeat split; reflexivity.
Qed.
