(** C77: how far the pool's total share is from what its minings count for, after any history. *)
From stdpp Require Import gmap.
From Verif Require Import Base OMap State Spec EffectSpec Core Ledger Program Clients ResLemmas LedgerLemmas LedgerSpec CodecLemmas SuccessSpec SuccessThms
  History HistoryThms ReachThms Scenario Attacks LedgerView LedgerOrderly LedgerDust CompleteSpec Complete GapSpec Gap.

(** one call moves the gap by exactly [moves] *)
Theorem C77_step : forall e, env_ok e -> forall P, P <> 0 -> forall d now ts ms i L L' r w l l',
  reached e now L -> now <= ts -> is_u64 ts -> ix_in_range i -> exec e ts ms i L = Ok (L', r) -> day_start ts <= d ->
  is_pool e L P w -> p_type (wp w) = TYPE_POOL -> lists_minings e L P l -> lists_minings e L' P l' ->
  exists w' x, is_pool e L' P w' /\ moves e ts ms i L P d x /\ gap w' l' d = gap w l d + x.
Proof. exact gap_step. Qed.
Print Assumptions C77_step.

(** every history has a drift, and the gap changes by it *)
Theorem C77_run : forall e, env_ok e -> 0 < rent_min e MINING_LEN -> forall P, P <> 0 -> forall d now L evs now' L' w l l',
  reached e now L -> History.run e now L evs now' L' -> day_start now' <= d ->
  is_pool e L P w -> p_type (wp w) = TYPE_POOL -> 0 < lamports_of L P ->
  lists_minings e L P l -> lists_minings e L' P l' ->
  (exists x, drift e P d now L evs now' L' x) /\
  forall x, drift e P d now L evs now' L' x ->
    exists w', is_pool e L' P w' /\ gap w' l' d = gap w l d + x.
Proof. exact gap_run. Qed.
Print Assumptions C77_run.

(** a pool starts with nothing beyond its minings, less what these count for already *)
Theorem C77_start : forall e, env_ok e -> forall P d now ts ms f dd L L' r l l',
  reached e now L -> now <= ts -> ix_in_range (InitializePool f dd) ->
  exec e ts ms (InitializePool f dd) L = Ok (L', r) -> account_at ms 0 P ->
  lists_minings e L P l -> lists_minings e L' P l' ->
  exists w', is_pool e L' P w' /\ p_type (wp w') = TYPE_POOL /\ gap w' l' d = - count_on l d.
Proof. exact gap_start. Qed.
Print Assumptions C77_start.

(** a checked delegate that is an initialised mining loses nothing *)
Theorem C77_checked : forall e, env_ok e -> env_inj e -> forall now ts ms i L L' r p k D m P x,
  reached e now L -> now <= ts -> ix_in_range i -> exec e ts ms i L = Ok (L', r) ->
  checks_delegate i -> account_at ms 0 p -> account_at ms 1 k -> account_at ms (delegate_at i) D ->
  is_mining e L D m -> m_type (wm m) = TYPE_MINING -> stray L p P k D x = 0.
Proof. exact checked_no_stray. Qed.
Print Assumptions C77_checked.

(** a distribution promises the minings their part of the tokens: the part of the pool's total
    that is theirs.  Beyond the gap nothing is lost but the rounding. *)
Theorem C77_distribution : forall e, env_ok e -> forall P now ts ms L L' r w l,
  reached e now L -> now <= ts -> exec e ts ms DistributeRewards L = Ok (L', r) -> account_at ms 0 P ->
  is_pool e L P w -> lists_minings e L P l -> ~ has_date (day_start ts) (wp_ci w) ->
  exists w' rem, is_pool e L' P w' /\
    let part := daily_part (p_avail (wp w)) (p_ends_at (wp w)) ts in
    let inc := p_index (wp w') - p_index (wp w) in
    p_avail (wp w') = p_avail (wp w) - part /\
    inc * count_on l (day_start ts) + inc * gap w l (day_start ts) + rem = 10000000000000000 * part /\
    0 <= rem < count_on l (day_start ts) + gap w l (day_start ts).
Proof. exact gap_distribution. Qed.
Print Assumptions C77_distribution.

(** ** A concrete history *)
Definition m_of (who : pubkey) : pubkey := mining_of who POOL.
Definition settled : list call := setup ++ own_pool 104 100 1000.
(** ALICE extends early; CAROL's rewards are decreased, then CAROL closes; MALLORY names ALICE as
    old delegate in a pool of their own *)
Definition unsettled : list call :=
  [(at_noon 110, b_extend POOL (m_of ALICE) AUTH (m_of ALICE) L3M L6M (at_noon 100) 100 10 ALICE ALICE);
   (at_noon 111, b_decrease AUTH POOL (m_of CAROL) CAROL 30);
   (at_noon 112, b_close (m_of CAROL) CAROL CAROL AUTH POOL);
   strike 113 (m_of ALICE) 7].
Definition gaps (l : list call) : list Z :=
  let L := ledger_after l in
  map (fun day => gap (pool_of L POOL) (map_to_list (minings_of env0 POOL L)) (day_start (at_noon day))) [113; 200; 300; 700].
Definition day300 : Z := day_start (at_noon 300).
Lemma settled_plays : plays settled (at_noon 104) = true.
Proof. vm_compute. reflexivity. Qed.
Lemma all_plays : plays (settled ++ unsettled) (at_noon 113) = true.
Proof. vm_compute. reflexivity. Qed.
(** the gap on the days 113, 200, 300 and 700, before and after each of the four calls; the
    hypotheses of the theorem are met, and the drift for day 300 is 147 *)
Example C77_example :
  map (fun n => gaps (settled ++ firstn n unsettled)) [0; 1; 2; 3; 4]%nat =
    [[0; 0; 0; 0]; [0; -100; -100; -100]; [30; -70; -70; -100]; [240; 140; 140; -60]; [247; 147; 147; -53]] /\
  drift env0 POOL day300 (at_noon 104) (ledger_after settled) (events unsettled) (at_noon 113) (ledger_after (settled ++ unsettled)) 147.
Proof.
  assert (G : map (fun n => gaps (settled ++ firstn n unsettled)) [0; 1; 2; 3; 4]%nat =
    [[0; 0; 0; 0]; [0; -100; -100; -100]; [30; -70; -70; -100]; [240; 140; 140; -60]; [247; 147; 147; -53]]) by (vm_compute; reflexivity).
  split; [exact G|].
  pose proof (plays_reached _ _ settled_plays) as HL.
  pose proof (play_run _ _ _ _ _ (plays_then _ _ _ _ settled_plays all_plays)) as R.
  assert (Hw : exists w, is_pool env0 (ledger_after settled) POOL w /\ p_type (wp w) = TYPE_POOL /\ w = pool_of (ledger_after settled) POOL)
    by (eexists; split; [split; vm_compute; reflexivity|split; vm_compute; reflexivity]).
  destruct Hw as (w & Hw & Ht & Ew).
  destruct (C77_run env0 env0_ok ltac:(vm_compute; reflexivity) POOL ltac:(discriminate) day300 _ _ _ _ _ w _ _ HL R
    ltac:(vm_compute; discriminate) Hw Ht ltac:(vm_compute; reflexivity) (minings_listed env0 _ POOL) (minings_listed env0 _ POOL)) as [[x D] H].
  destruct (H x D) as (w' & Hw' & E).
  assert (w' = pool_of (ledger_after (settled ++ unsettled)) POOL) as Ew' by (unfold pool_of; rewrite (proj2 Hw'); reflexivity).
  apply (f_equal (fun l => map (fun r => nth 2 r 0) l)) in G. cbn [map nth gaps] in G.
  assert (E0 : gap w (map_to_list (minings_of env0 POOL (ledger_after settled))) day300 = 0) by (rewrite Ew; vm_compute; reflexivity).
  assert (E1 : gap w' (map_to_list (minings_of env0 POOL (ledger_after (settled ++ unsettled)))) day300 = 147) by (rewrite Ew'; vm_compute; reflexivity).
  assert (x = 147) as <- by lia. exact D.
Qed.
(** a distribution on day 200, while the pool counts 100 too few: 50000 tokens go out of the pool's
    books, and the minings are promised 54237 *)
Definition short : list call := settled ++ firstn 1 unsettled.
Definition shared : list call := short ++ [(at_noon 200, b_distribute POOL DISTR)].
Example C77_short : plays shared (at_noon 200) = true /\
  let L := ledger_after short in let L' := ledger_after shared in
  let l := map_to_list (minings_of env0 POOL L) in
  let today := day_start (at_noon 200) in
  let inc := p_index (wp (pool_of L' POOL)) - p_index (wp (pool_of L POOL)) in
  (count_on l today, gap (pool_of L POOL) l today, p_avail (wp (pool_of L POOL)) - p_avail (wp (pool_of L' POOL)),
   inc * count_on l today / 10000000000000000) = (1280, -100, 50000, 54237).
Proof. vm_compute. split; reflexivity. Qed.
