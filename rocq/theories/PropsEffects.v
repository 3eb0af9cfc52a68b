(** Theorems about the effects of instructions: C10-C17, C24-C34, C36, C41, C42. *)
From stdpp Require Import gmap.
From Verif Require Import Base OMap State Spec EffectSpec Ledger Program LedgerLemmas LedgerSpec CodecLemmas History
  HistoryLemmas HistoryThms AccessLemmas ReachThms Clients Scenario Attacks EffectLemmas EffectMethods EffectThms
  EffectMore EffectCompare Horizon EffectExamples.

(** ** C10 *)
Theorem C10_second_distribution : forall e, env_ok e -> forall now ts ms L L' r P w,
  reached e now L -> now <= ts -> account_at ms 0 P -> is_pool e L P w -> has_date (day_start ts) (wp_ci w) ->
  exec e ts ms DistributeRewards L = Ok (L', r) ->
  exists w', is_pool e L' P w' /\
    wp_ci w' = wp_ci w /\ p_index (wp w') = p_index (wp w) /\ p_avail (wp w') = p_avail (wp w).
Proof. exact second_distribution. Qed.
Print Assumptions C10_second_distribution.
Theorem C10_recorded : forall e, env_ok e -> forall now ts ms L L' r P w,
  reached e now L -> now <= ts -> account_at ms 0 P -> is_pool e L P w -> Z.of_nat (length (wp_ci w)) < 1095 ->
  exec e ts ms DistributeRewards L = Ok (L', r) ->
  exists w', is_pool e L' P w' /\ has_date (day_start ts) (wp_ci w').
Proof. exact distribution_recorded. Qed.
Print Assumptions C10_recorded.
Theorem C10_one_per_day : forall e, env_ok e -> forall now ts ms L L1 r evs now' L2 ts' ms' L3 r' P w,
  reached e now L -> now <= ts -> is_u64 ts -> account_at ms 0 P -> account_at ms' 0 P ->
  is_pool e L P w -> p_type (wp w) = TYPE_POOL -> 0 < lamports_of L P ->
  Z.of_nat (length (wp_ci w)) < 1095 ->
  exec e ts ms DistributeRewards L = Ok (L1, r) ->
  run e ts L1 evs now' L2 -> now' <= ts' -> day_start ts' = day_start ts ->
  exec e ts' ms' DistributeRewards L2 = Ok (L3, r') ->
  exists w2 w3, is_pool e L2 P w2 /\ is_pool e L3 P w3 /\
    wp_ci w3 = wp_ci w2 /\ p_index (wp w3) = p_index (wp w2) /\ p_avail (wp w3) = p_avail (wp w2).
Proof. exact one_distribution_per_day. Qed.
Print Assumptions C10_one_per_day.
(** day 104 is recorded at L2: a second distribution does nothing, one on day 105 does *)
Example C10_example :
  plays (setup ++ later) (at_noon 104) = true /\
  shows L2 POOL = Some (30000, 199979541734860883, 3) /\
  after_call (at_noon 104, b_distribute POOL DISTR) L2 (fun L => shows L POOL) = Some (30000, 199979541734860883, 3) /\
  after_call (at_noon 105, b_distribute POOL DISTR) L2 (fun L => shows L POOL) = Some (22500, 279766775777414074, 4).
Proof. vm_compute. auto. Qed.

(** ** C11 *)
Theorem C11_full_forever : forall e, env_ok e -> forall now L evs now' L' P w,
  reached e now L -> run e now L evs now' L' ->
  is_pool e L P w -> p_type (wp w) = TYPE_POOL -> 0 < lamports_of L P ->
  Z.of_nat (length (wp_ci w)) = 1095 ->
  exists w', is_pool e L' P w' /\ wp_ci w' = wp_ci w.
Proof. exact full_forever. Qed.
Print Assumptions C11_full_forever.
Theorem C11_full_distribution : forall e, env_ok e -> forall now ts ms L L' r P w,
  reached e now L -> now <= ts -> account_at ms 0 P -> is_pool e L P w ->
  Z.of_nat (length (wp_ci w)) = 1095 -> ~ has_date (day_start ts) (wp_ci w) ->
  exec e ts ms DistributeRewards L = Ok (L', r) ->
  exists w', is_pool e L' P w' /\
    let part := daily_part (p_avail (wp w)) (p_ends_at (wp w)) ts in
    p_avail (wp w') = p_avail (wp w) - part /\
    p_index (wp w') = p_index (wp w) + 10000000000000000 * part / p_total (wp w') /\
    wp_ci w' = wp_ci w /\ ~ has_date (day_start ts) (wp_ci w').
Proof. exact full_distribution. Qed.
Print Assumptions C11_full_distribution.
Theorem C11_pays_nobody : forall e, env_ok e -> forall now ts ms L L' r P w k m ts' m1 m2,
  reached e now L -> now <= ts -> account_at ms 0 P -> is_pool e L P w ->
  Z.of_nat (length (wp_ci w)) = 1095 -> ~ has_date (day_start ts) (wp_ci w) ->
  exec e ts ms DistributeRewards L = Ok (L', r) ->
  is_mining e L k m ->
  exists w', is_pool e L' P w' /\ is_mining e L' k m /\
    (refreshed ts' (wp_ci w) m m1 -> refreshed ts' (wp_ci w') m m2 -> m1 = m2).
Proof. exact full_pays_nobody. Qed.
Print Assumptions C11_pays_nobody.
(** 1095 days are recorded; two distributions follow on the next day and both take 500
    tokens *)
Example C11_example :
  plays full_history (at_noon 1194) = true /\
  let L := ledger_after full_history in
  shows L POOL = Some (452500, 547500000000000000000, 1095) /\
  after_call (at_noon 1195, b_distribute POOL DISTR) L (fun L => shows L POOL) = Some (452000, 548000000000000000000, 1095) /\
  option_map (fun x => shows x POOL) (calls [(at_noon 1195, b_distribute POOL DISTR); (at_noon 1195, b_distribute POOL DISTR)] L)
    = Some (Some (451500, 548500000000000000000, 1095)).
Proof. vm_compute. auto. Qed.

(** ** C12 *)
Theorem C12_amount : forall ts p,
  is_u64 (p_avail p) -> rewards_to_distribute ts p = Ok (daily_part (p_avail p) (p_ends_at p) ts).
Proof. exact rewards_exact. Qed.
Print Assumptions C12_amount.
Theorem C12_bounds : forall b x ts,
  0 <= b ->
  0 <= daily_part b x ts <= b /\
  (x < ts + 86400 -> daily_part b x ts = b) /\
  (forall n, whole_days_left x ts n -> 1 <= n ->
     n * daily_part b x ts <= b < n * (daily_part b x ts + 1)).
Proof. exact daily_part_spec. Qed.
Print Assumptions C12_bounds.
Example C12_example :
  daily_part 50000 (110 * 86400) (at_noon 100) = 5555 /\ whole_days_left (110 * 86400) (at_noon 100) 9 /\
  daily_part 50000 (110 * 86400) (at_noon 109) = 50000 /\ daily_part 50000 (110 * 86400) (at_noon 300) = 50000 /\
  daily_part 18446744073709551615 18446744073709551615 0 = 86400.
Proof. vm_compute. intuition discriminate. Qed.

(** ** C13 *)
Theorem C13_exhausts : forall e, env_ok e -> forall P n now L parts L' w,
  spread e P n now L parts L' -> reached e now L -> is_pool e L P w -> 1 <= n ->
  let q := p_avail (wp w) / n in
  Forall (fun x => q <= x <= q + 1) parts /\ sum parts = p_avail (wp w) /\
  exists w', is_pool e L' P w' /\ p_avail (wp w') = 0.
Proof. exact spread_exhausts. Qed.
Print Assumptions C13_exhausts.
Theorem C13_last : forall e, env_ok e -> forall now ts ms L L' r P w,
  reached e now L -> now <= ts -> account_at ms 0 P -> is_pool e L P w -> ~ has_date (day_start ts) (wp_ci w) ->
  p_ends_at (wp w) < ts + 2 * 86400 ->
  exec e ts ms DistributeRewards L = Ok (L', r) ->
  exists w', is_pool e L' P w' /\ p_avail (wp w') = 0.
Proof. exact last_distribution. Qed.
Print Assumptions C13_last.
(** 50000 tokens over nine days *)
Example C13_example :
  plays setup (at_noon 100) = true /\
  option_map fst (spreads POOL 9 (at_noon 100) L1) = Some [5555; 5555; 5555; 5555; 5556; 5556; 5556; 5556; 5556] /\
  exists parts L', spread env0 POOL 9 (at_noon 100) L1 parts L'.
Proof.
  split; [vm_compute; reflexivity|]. split; [vm_compute; reflexivity|].
  destruct (spreads POOL 9 (at_noon 100) L1) as [[parts L']|] eqn:E; [|exfalso; vm_compute in E; discriminate].
  exists parts, L'. exact (spreads_ok POOL 9 _ _ _ _ (at_noon 100) E (Z.le_refl _)).
Qed.

(** ** C14 *)
Theorem C14_distribution : forall e, env_ok e -> forall now ts ms L L' r,
  reached e now L -> now <= ts -> exec e ts ms DistributeRewards L = Ok (L', r) ->
  exists P w w',
    account_at ms 0 P /\ is_pool e L P w /\ is_pool e L' P w' /\
    let part := daily_part (p_avail (wp w)) (p_ends_at (wp w)) ts in
    only_distribution w w' /\ p_total (wp w) <> 0 /\
    p_total (wp w') = p_total (wp w) - due (day_start ts) (wp_diffs w) /\
    wp_diffs w' = after (day_start ts) (wp_diffs w) /\
    (has_date (day_start ts) (wp_ci w) ->
       wp_ci w' = wp_ci w /\ p_index (wp w') = p_index (wp w) /\ p_avail (wp w') = p_avail (wp w)) /\
    (~ has_date (day_start ts) (wp_ci w) ->
       p_total (wp w') <> 0 /\
       p_index (wp w') = p_index (wp w) + 10000000000000000 * part / p_total (wp w') /\
       p_avail (wp w') = p_avail (wp w) - part /\
       wp_ci w' = if Z.of_nat (length (wp_ci w)) <? 1095 then wp_ci w ++ [(day_start ts, p_index (wp w'))]
                  else wp_ci w).
Proof. exact distribute_on_ledger. Qed.
Print Assumptions C14_distribution.
(** on day 191 the bonus of 100 expired on day 190; everything left, 30000, is distributed
    over the remaining 840 *)
Example C14_example :
  shares L2 POOL = Some (940, [(9072000, 0); (16416000, 100); (40176000, 200)]) /\
  after_call (at_noon 191, b_distribute POOL DISTR) L2 (fun L => shares L POOL) = Some (840, [(40176000, 200)]) /\
  after_call (at_noon 191, b_distribute POOL DISTR) L2 (fun L => shows L POOL)
    = Some (0, 199979541734860883 + 10000000000000000 * 30000 / 840, 4).
Proof. vm_compute. auto. Qed.

(** ** C15 *)
Theorem C15_refresh : forall e, env_ok e -> forall now L P w k m ts m',
  reached e now L -> is_pool e L P w -> is_mining e L k m ->
  refresh ts (wp_ci w) m = Ok m' -> refreshed ts (wp_ci w) m m'.
Proof. exact refresh_on_ledger. Qed.
Print Assumptions C15_refresh.
(** ALICE's 101 count double before day 190 and once after; distributions on days 101 and 195 *)
Example C15_example :
  plays split_stakes (at_noon 195) = true /\
  let L := ledger_after split_stakes in
  let ci := wp_ci (pool_at L POOL) in let m := mining_at L (mining_of ALICE POOL) in
  ci = [(8726400, 7402031930333817); (16848000, 330430752556965670)] /\
  m_share (wm m) = 202 /\ wm_diffs m = [(16416000, 101)] /\
  credit_at L POOL (mining_of ALICE POOL) (at_noon 196) =
    Some (7402031930333817 * 202 / 10000000000000000 +
          (330430752556965670 - 7402031930333817) * 101 / 10000000000000000) /\
  segments (at_noon 196) m = 2.
Proof. vm_compute. auto 10. Qed.

(** ** C16 *)
Theorem C16_idempotent : forall e, env_ok e -> forall now L P w k m ts m',
  reached e now L -> is_pool e L P w -> is_mining e L k m ->
  refresh ts (wp_ci w) m = Ok m' -> refresh ts (wp_ci w) m' = Ok m'.
Proof. exact refresh_twice. Qed.
Print Assumptions C16_idempotent.
Theorem C16_path : forall e, env_ok e -> forall now L P w k m t1 m1 evs now' L' w' t2 m2 m3,
  reached e now L -> is_pool e L P w -> p_type (wp w) = TYPE_POOL -> 0 < lamports_of L P -> is_mining e L k m ->
  t1 <= now -> refresh t1 (wp_ci w) m = Ok m1 ->
  run e now L evs now' L' -> is_pool e L' P w' -> t1 <= t2 ->
  refreshed t2 (wp_ci w') m1 m2 -> refreshed t2 (wp_ci w') m m3 ->
  same_mining m3 m2 /\ m_share (wm m2) = m_share (wm m3) /\ m_sfo (wm m2) = m_sfo (wm m3) /\
  wm_diffs m2 = wm_diffs m3 /\ m_index (wm m2) = m_index (wm m3) /\
  m_unclaimed (wm m2) <= m_unclaimed (wm m3) <= m_unclaimed (wm m2) + 1.
Proof. exact refresh_path. Qed.
Print Assumptions C16_path.
(** refreshed on days 102 and 196, or on day 196 only *)
Example C16_example :
  let L := ledger_after split_stakes in
  let ci := wp_ci (pool_at L POOL) in let m := mining_at L (mining_of ALICE POOL) in
  match refresh (at_noon 102) ci m, refresh (at_noon 196) ci m with
  | Ok m1, Ok m3 =>
      match refresh (at_noon 102) ci m1, refresh (at_noon 196) ci m1 with
      | Ok m1', Ok m2 => m1' = m1 /\ m_unclaimed (wm m1) = 149 /\ m_unclaimed (wm m2) = m_unclaimed (wm m3) /\
          wm_diffs m2 = wm_diffs m3 /\ m_share (wm m2) = 101 /\ m_share (wm m3) = 101
      | _, _ => False
      end
  | _, _ => False
  end.
Proof. vm_compute. auto 10. Qed.

(** ** C17 *)
Theorem C17_expiry : forall e, env_ok e -> forall now L P w k m ts m',
  reached e now L -> is_pool e L P w -> is_mining e L k m ->
  refresh ts (wp_ci w) m = Ok m' ->
  wm_diffs m' = after (day_start ts) (wm_diffs m) /\
  m_share (wm m') = m_share (wm m) - total (upto (day_start ts) (wm_diffs m)) /\
  m_sfo (wm m') = m_sfo (wm m) /\ unlocked_stake m' = unlocked_stake m /\ same_mining m m'.
Proof. exact refresh_expires. Qed.
Print Assumptions C17_expiry.
Example C17_example :
  option_map (fun m => (m_share (wm m), m_sfo (wm m), wm_diffs m)) (refreshed_at L2 POOL (mining_of ALICE POOL) (at_noon 189))
    = Some (200, 250, [(16416000, 100)]) /\
  option_map (fun m => (m_share (wm m), m_sfo (wm m), wm_diffs m)) (refreshed_at L2 POOL (mining_of ALICE POOL) (at_noon 190))
    = Some (100, 250, []).
Proof. vm_compute. auto. Qed.

(** ** C24 *)
Theorem C24_claim_pays : forall e, env_ok e -> forall now ts ms L L' r P k vault dest,
  reached e now L -> now <= ts -> exec e ts ms Claim L = Ok (L', r) ->
  account_at ms 0 P -> account_at ms 2 vault -> account_at ms 3 k -> account_at ms 6 dest ->
  exists w m m1 m' t, is_pool e L P w /\ is_mining e L k m /\ refreshed ts (wp_ci w) m m1 /\
    is_mining e L' k m' /\ paid_out m1 m' /\ r = Some (m_unclaimed (wm m1)) /\
    data_of L dest = DToken t /\
    (0 < m_unclaimed (wm m1) -> vault <> dest -> exists v,
       data_of L vault = DToken v /\ t_mint v = t_mint t /\
       data_of L' vault = DToken (Token (t_mint v) (t_owner v) (t_amount v - m_unclaimed (wm m1))) /\
       data_of L' dest = DToken (Token (t_mint t) (t_owner t) (t_amount t + m_unclaimed (wm m1)))) /\
    (m_unclaimed (wm m1) = 0 \/ vault = dest -> forall q, q <> k -> data_of L' q = data_of L q) /\
    (forall q, q <> k -> q <> vault -> q <> dest -> acc L' q = acc L q).
Proof. exact claim_pays. Qed.
Print Assumptions C24_claim_pays.
Theorem C24_claim_again : forall e, env_ok e -> forall now ts ms ms' L L' r k L'' r',
  reached e now L -> now <= ts -> is_u64 ts ->
  exec e ts ms Claim L = Ok (L', r) -> account_at ms 3 k -> account_at ms' 3 k ->
  exec e ts ms' Claim L' = Ok (L'', r') ->
  r' = Some 0 /\ forall q, acc L'' q = acc L' q.
Proof. exact claim_again. Qed.
Print Assumptions C24_claim_again.
Example C24_example :
  option_map (fun m => m_unclaimed (wm m)) (refreshed_at L2 POOL (mining_of ALICE POOL) (at_noon 105)) = Some 3590 /\
  map (tokens_of L2) [vault_of POOL; ALICE_T] = [43991; 6009] /\
  option_map (fun L => map (tokens_of L) [vault_of POOL; ALICE_T]) (calls [alice_claims 105] L2) = Some [40401; 9599] /\
  option_map (fun L => map (tokens_of L) [vault_of POOL; ALICE_T]) (calls [alice_claims 105; alice_claims 105] L2) = Some [40401; 9599].
Proof. vm_compute. auto. Qed.

(** ** C25 *)
Theorem C25_claim_bound : forall e, env_ok e -> forall now ts ms L L' r P k vault dest owner mint,
  reached e now L -> now <= ts -> exec e ts ms Claim L = Ok (L', r) ->
  account_at ms 0 P -> account_at ms 1 mint -> account_at ms 2 vault -> account_at ms 3 k -> account_at ms 4 owner -> account_at ms 6 dest ->
  exists w m t, is_pool e L P w /\ is_mining e L k m /\ data_of L dest = DToken t /\
    t_owner t = m_owner (wm m) /\ owner = m_owner (wm m) /\ signed ms (m_owner (wm m)) /\ m_pool (wm m) = P /\
    cpa_vault e P mint (p_bump (wp w)) = Some vault /\
    (forall q x, q <> vault -> q <> dest -> data_of L q = DToken x -> data_of L' q = DToken x).
Proof. exact claim_bound. Qed.
Print Assumptions C25_claim_bound.
(** BOB's token account, another vault or somebody else's mining is refused *)
Example C25_example :
  runs L2 (alice_claims 105) = true /\
  runs L2 (at_noon 105, b_claim env0 POOL MINT (vault_of POOL) (mining_of ALICE POOL) ALICE AUTH BOB_T) = false /\
  runs L2 (at_noon 105, b_claim env0 POOL MINT SOURCE (mining_of ALICE POOL) ALICE AUTH ALICE_T) = false /\
  runs L2 (at_noon 105, b_claim env0 POOL MINT (vault_of POOL) (mining_of CAROL POOL) ALICE AUTH ALICE_T) = false.
Proof. vm_compute. auto. Qed.

(** ** C26 *)
Theorem C26_fill : forall e ts ms x d L L' r,
  exec e ts ms (FillVault x d) L = Ok (L', r) ->
  exists P vault source w w' s v,
    account_at ms 0 P /\ account_at ms 2 vault /\ account_at ms 4 source /\
    is_pool e L P w /\ is_pool e L' P w' /\ x <> 0 /\
    (exists mint, account_at ms 1 mint /\ cpa_vault e P mint (p_bump (wp w)) = Some vault) /\
    p_avail (wp w') = p_avail (wp w) + x /\ p_ends_at (wp w') = day_start d /\
    p_ends_at (wp w) <= day_start d /\ day_start ts <= day_start d /\
    wp_diffs w' = wp_diffs w /\ wp_ci w' = wp_ci w /\ p_total (wp w') = p_total (wp w) /\
    p_index (wp w') = p_index (wp w) /\ config w' = config w /\
    data_of L source = DToken s /\ data_of L vault = DToken v /\
    x <= t_amount s /\ t_mint s = t_mint v /\ t_owner s = p_fill_auth (wp w) /\
    (source <> vault ->
       data_of L' source = DToken (Token (t_mint s) (t_owner s) (t_amount s - x)) /\
       data_of L' vault = DToken (Token (t_mint v) (t_owner v) (t_amount v + x))) /\
    (forall q, q <> P -> q <> source -> q <> vault -> acc L' q = acc L q).
Proof. exact fill_on_ledger. Qed.
Print Assumptions C26_fill.
Theorem C26_fill_rejects : forall e ts ms x d L,
  (x = 0 \/ day_start d < day_start ts \/
   (exists P w, account_at ms 0 P /\ is_pool e L P w /\ day_start d < p_ends_at (wp w))) ->
  exists er, exec e ts ms (FillVault x d) L = Err er.
Proof. exact fill_rejects. Qed.
Print Assumptions C26_fill_rejects.
Definition fills (x d : Z) : call := (at_noon 105, b_fill_vault env0 POOL MINT (vault_of POOL) FILLER SOURCE x d).
Example C26_example :
  (p_avail (wp (pool_at L2 POOL)), p_ends_at (wp (pool_at L2 POOL))) = (30000, 110 * 86400) /\
  option_map (fun L => (p_avail (wp (pool_at L POOL)), p_ends_at (wp (pool_at L POOL)), map (tokens_of L) [vault_of POOL; SOURCE]))
    (calls [fills 77 (at_noon 111)] L2) = Some (30077, 111 * 86400, [44068; 949923]) /\
  runs L2 (fills 0 (at_noon 111)) = false /\ runs L2 (fills 77 (at_noon 109)) = false /\
  runs L2 (fills 77 (at_noon 104)) = false /\ runs L2 (fills 77 (110 * 86400)) = true.
Proof. vm_compute. auto 10. Qed.

(** ** C27 *)
Theorem C27_deposit : forall e, env_ok e -> forall now ts ms a p o d L L' r,
  reached e now L -> now <= ts -> is_u64 a -> exec e ts ms (DepositMining a p o d) L = Ok (L', r) ->
  exists P k D w m m1 w' m',
    account_at ms 0 P /\ account_at ms 1 k /\ account_at ms 3 D /\
    is_pool e L P w /\ is_mining e L k m /\ is_pool e L' P w' /\ is_mining e L' k m' /\
    p <> LNone /\
    refreshed ts (wp_ci w) m m1 /\ only_stake m1 m' /\
    m_share (wm m') = m_share (wm m1) + a * weight_of p /\
    scheduled 50 (expiry p ts) (a * (weight_of p - 1)) (wm_diffs m1) (wm_diffs m') /\
    only_total w w' /\
    p_total (wp w') = p_total (wp w) + a * weight_of p + if_other D k a /\
    scheduled 365 (expiry p ts) (a * (weight_of p - 1)) (wp_diffs w) (wp_diffs w') /\
    delegate_effect e L L' D k (fun x x' => 0 <= m_sfo (wm x) + a /\
      refreshed ts (wp_ci w) (with_delegated x (m_sfo (wm x) + a)) x').
Proof. exact deposit_on_ledger. Qed.
Print Assumptions C27_deposit.
(** BOB deposits 7 for six months on day 105, delegated to ALICE: weight 28, drop 21 on day 285 *)
Definition bob_adds : call := (at_noon 105, b_deposit POOL (mining_of BOB POOL) AUTH (mining_of ALICE POOL) 7 L6M BOB ALICE).
Example C27_example :
  option_map (fun x => (fst (fst (fst x)), snd x)) (stake L2 (mining_of BOB POOL)) = Some (250, [(9072000, 0)]) /\
  option_map (fun x => (fst (fst (fst x)), snd x)) (after_call bob_adds L2 (fun L => stake L (mining_of BOB POOL))) = Some (278, [(24624000, 21)]) /\
  option_map (fun L => delegated_to L (mining_of ALICE POOL)) (calls [bob_adds] L2) = Some 257 /\
  after_call bob_adds L2 (fun L => shares L POOL) = Some (940 + 28 + 7, [(9072000, 0); (16416000, 100); (24624000, 21); (40176000, 200)]) /\
  24624000 = 285 * 86400.
Proof. vm_compute. auto. Qed.

(** ** C28 *)
Theorem C28_withdraw : forall e, env_ok e -> forall now ts ms a o d L L' r,
  reached e now L -> now <= ts -> is_u64 a -> exec e ts ms (WithdrawMining a o d) L = Ok (L', r) ->
  exists P k D w m m1 w' m',
    account_at ms 0 P /\ account_at ms 1 k /\ account_at ms 3 D /\
    is_pool e L P w /\ is_mining e L k m /\ is_pool e L' P w' /\ is_mining e L' k m' /\
    refreshed ts (wp_ci w) m m1 /\ only_stake m1 m' /\
    a <= m_share (wm m1) /\ m_share (wm m') = m_share (wm m1) - a /\ wm_diffs m' = wm_diffs m1 /\
    only_total w w' /\
    p_total (wp w') = p_total (wp w) - a - due (day_start ts) (wp_diffs w) - if_other D k a /\
    wp_diffs w' = after (day_start ts) (wp_diffs w) /\
    delegate_effect e L L' D k (fun x x' => a <= m_sfo (wm x) /\
      refreshed ts (wp_ci w) (with_delegated x (m_sfo (wm x) - a)) x') /\
    (forall q t, data_of L q = DToken t -> data_of L' q = DToken t).
Proof. exact withdraw_on_ledger. Qed.
Print Assumptions C28_withdraw.
Example C28_example :
  option_map (fun x => (fst (fst (fst x)), snd x)) (after_call bob_withdraws L2 (fun L => stake L (mining_of BOB POOL))) = Some (0, []) /\
  option_map (fun L => delegated_to L (mining_of ALICE POOL)) (calls [bob_withdraws] L2) = Some 0 /\
  after_call bob_withdraws L2 (fun L => shares L POOL) = Some (940 - 250 - 250, [(16416000, 100); (40176000, 200)]).
Proof. vm_compute. auto. Qed.

(** ** C29 *)
Theorem C29_slash : forall e, env_ok e -> forall now ts ms o n wt dt L L' r,
  reached e now L -> now <= ts -> is_u64 n -> is_u64 wt ->
  exec e ts ms (Slash o n wt dt) L = Ok (L', r) ->
  exists P k w m m1 w' m',
    account_at ms 1 P /\ account_at ms 2 k /\
    is_pool e L P w /\ is_mining e L k m /\ is_pool e L' P w' /\ is_mining e L' k m' /\
    refreshed ts (wp_ci w) m m1 /\ only_stake m1 m' /\ only_total w w' /\
    wt <= m_share (wm m1) /\ m_share (wm m') = m_share (wm m1) - wt /\
    p_total (wp w') = p_total (wp w) - wt - due (day_start ts) (wp_diffs w) /\
    match dt with
    | None => wm_diffs m' = wm_diffs m1 /\ wp_diffs w' = after (day_start ts) (wp_diffs w)
    | Some x => n <= wt /\
        lowered (day_start x) (wt - n) (wm_diffs m1) (wm_diffs m') /\
        lowered (day_start x) (wt - n) (after (day_start ts) (wp_diffs w)) (wp_diffs w') /\
        unlocked_stake m' = unlocked_stake m1 - n
    end.
Proof. exact slash_on_ledger. Qed.
Print Assumptions C29_slash.
Theorem C29_unscheduled : forall e, env_ok e -> forall now ts ms o n wt x L P w k m,
  reached e now L -> now <= ts -> is_u64 n -> is_u64 wt ->
  account_at ms 1 P -> account_at ms 2 k -> is_pool e L P w -> is_mining e L k m ->
  ~ has_date (day_start x) (after (day_start ts) (wp_diffs w)) \/
  ~ has_date (day_start x) (after (day_start ts) (wm_diffs m)) ->
  exists er, exec e ts ms (Slash o n wt (Some x)) L = Err er.
Proof. exact slash_unscheduled. Qed.
Print Assumptions C29_unscheduled.
(** ALICE's 100 count 200 until day 190; slash 5 of them, which count 10 *)
Definition slashes (dt : option Z) : call := (at_noon 105, b_slash AUTH POOL (mining_of ALICE POOL) ALICE 5 10 dt).
Example C29_example :
  option_map (fun x => (fst (fst (fst x)), snd x)) (after_call (slashes (Some (at_noon 190))) L2 (fun L => stake L (mining_of ALICE POOL))) = Some (190, [(16416000, 95)]) /\
  after_call (slashes (Some (at_noon 190))) L2 (fun L => shares L POOL) = Some (930, [(16416000, 95); (40176000, 200)]) /\
  runs L2 (slashes (Some (at_noon 191))) = false /\ runs L2 (slashes None) = true.
Proof. vm_compute. auto. Qed.

(** ** C30 *)
Theorem C30_decrease : forall e, env_ok e -> forall now ts ms o n L L' r,
  reached e now L -> is_u64 n -> exec e ts ms (DecreaseRewards o n) L = Ok (L', r) ->
  exists P k w m m',
    account_at ms 1 P /\ account_at ms 2 k /\
    is_pool e L P w /\ is_mining e L k m /\ is_pool e L' P w /\ is_mining e L' k m' /\
    only_stake m m' /\ n <= m_share (wm m) /\ m_share (wm m') = m_share (wm m) - n /\
    map fst (wm_diffs m') = map fst (wm_diffs m) /\ values (fun v => 0 <= v) (wm_diffs m') /\
    total (wm_diffs m') = total (wm_diffs m) - Z.min n (total (wm_diffs m)) /\
    (forall d, total (after d (wm_diffs m')) = Z.max 0 (total (after d (wm_diffs m)) - n)) /\
    (total (wm_diffs m) <= m_share (wm m) -> total (wm_diffs m') <= m_share (wm m')).
Proof. exact decrease_on_ledger. Qed.
Print Assumptions C30_decrease.
Theorem C30_rejected : forall e ts ms o n L P w k m,
  account_at ms 1 P -> account_at ms 2 k -> is_pool e L P w -> is_mining e L k m ->
  0 <= m_share (wm m) < n -> exists er, exec e ts ms (DecreaseRewards o n) L = Err er.
Proof. exact decrease_rejected. Qed.
Print Assumptions C30_rejected.
(** several drops: the latest are lowered first *)
Definition decreases (n : Z) : call := (at_noon 103, b_decrease AUTH POOL (mining_of BOB POOL) BOB n).
Example C30_example :
  let L := ledger_after (many_deposits L3M 3) in
  option_map (fun x => (fst (fst (fst x)), snd x)) (stake L (mining_of BOB POOL)) = Some (60, [(16416000, 10); (16502400, 10); (16588800, 10)]) /\
  option_map (fun x => (fst (fst (fst x)), snd x)) (after_call (decreases 15) L (fun L => stake L (mining_of BOB POOL))) = Some (45, [(16416000, 10); (16502400, 5); (16588800, 0)]) /\
  option_map (fun x => (fst (fst (fst x)), snd x)) (after_call (decreases 40) L (fun L => stake L (mining_of BOB POOL))) = Some (20, [(16416000, 0); (16502400, 0); (16588800, 0)]) /\
  runs L (decreases 60) = true /\ runs L (decreases 61) = false.
Proof. vm_compute. auto. Qed.

(** ** C31 *)
Theorem C31_extend : forall e, env_ok e -> forall now ts ms op np st b a o d L L' r,
  reached e now L -> now <= ts -> is_u64 b -> is_u64 a ->
  exec e ts ms (ExtendStake op np st b a o d) L = Ok (L', r) ->
  let early := unexpired op st ts in
  let removed := if early then b * weight_of op else b in
  exists P k D w m m1 t w' m',
    account_at ms 0 P /\ account_at ms 1 k /\ account_at ms 3 D /\
    is_pool e L P w /\ is_mining e L k m /\ is_pool e L' P w' /\ is_mining e L' k m' /\
    op <> LNone /\ np <> LNone /\
    refreshed ts (wp_ci w) m m1 /\ only_stake m1 m' /\
    removed <= m_share (wm m1) /\
    m_share (wm m') = m_share (wm m1) - removed + (b + a) * weight_of np /\
    (if early then lowered (expiry op st) (b * (weight_of op - 1)) (wm_diffs m1) t
     else t = wm_diffs m1) /\
    scheduled 50 (expiry np ts) ((b + a) * (weight_of np - 1)) t (wm_diffs m') /\
    only_total w w' /\
    p_total (wp w') = p_total (wp w) - removed + (b + a) * weight_of np + if_other D k a /\
    scheduled 365 (expiry np ts) ((b + a) * (weight_of np - 1)) (wp_diffs w) (wp_diffs w') /\
    delegate_effect e L L' D k (fun x x' => b <= m_sfo (wm x) /\
      exists y, refreshed ts (wp_ci w) (with_delegated x (m_sfo (wm x) - b)) y /\
                x' = with_delegated y (m_sfo (wm x) + a)).
Proof. exact extend_on_ledger. Qed.
Print Assumptions C31_extend.
Theorem C31_keeps_drops : forall e, env_ok e -> forall now ts ms op np st b a o d L L' r,
  reached e now L -> now <= ts -> is_u64 b -> is_u64 a -> exec e ts ms (ExtendStake op np st b a o d) L = Ok (L', r) ->
  exists P w w', account_at ms 0 P /\ is_pool e L P w /\ is_pool e L' P w' /\
    forall x, at_date x (wp_diffs w) <= at_date x (wp_diffs w').
Proof. exact extend_keeps_drops. Qed.
Print Assumptions C31_keeps_drops.
Theorem C31_stuck : forall e, env_ok e -> forall now ts ms i L P w,
  reached e now L -> now <= ts -> is_u64 ts -> ix_in_range i -> uses_total i ->
  account_at ms (pool_position i) P -> is_pool e L P w ->
  p_total (wp w) < due (day_start ts) (wp_diffs w) ->
  exists er, exec e ts ms i L = Err er.
Proof. exact stuck. Qed.
Print Assumptions C31_stuck.
(** two early extensions of one stake of 100: the pool still holds the two old drops of 500 *)
Theorem C31_freeze : exists now L P T, reached env0 now L /\ (exists w, is_pool env0 L P w /\ p_total (wp w) = 600) /\
  forall ts ms i, T <= ts -> is_u64 ts -> ix_in_range i -> uses_total i -> account_at ms (pool_position i) P ->
    exists er, exec env0 ts ms i L = Err er.
Proof.
  exists (at_noon 102), (ledger_after extensions), POOL, (466 * 86400).
  destruct extensions_freeze as [A B]. split; [exact A|]. split; [|exact B].
  exists (pool_at (ledger_after extensions) POOL). split; [exact extensions_pool|vm_compute; reflexivity].
Qed.
Print Assumptions C31_freeze.
Example C31_example :
  shares (ledger_after extensions) POOL = Some (600, [(40176000, 500); (40262400, 500); (40348800, 500)]) /\
  stake (ledger_after extensions) (mining_of ALICE POOL) = Some (600, 0, 0, [(40176000, 0); (40262400, 0); (40348800, 500)]) /\
  runs (ledger_after extensions) (at_noon 300, b_distribute POOL DISTR) = true /\
  runs (ledger_after extensions) (at_noon 466, b_distribute POOL DISTR) = false.
Proof. vm_compute. auto. Qed.

(** ** C32 *)
Theorem C32_change : forall e, env_ok e -> forall now ts ms a nd L L' r,
  reached e now L -> now <= ts -> is_u64 a ->
  exec e ts ms (ChangeDelegate a nd) L = Ok (L', r) ->
  exists P k O N w m w' m',
    account_at ms 0 P /\ account_at ms 1 k /\ account_at ms 4 O /\ account_at ms 5 N /\ O <> N /\
    is_pool e L P w /\ is_mining e L k m /\ is_pool e L' P w' /\ is_mining e L' k m' /\
    refreshed ts (wp_ci w) m m' /\ only_total w w' /\ wp_diffs w' = wp_diffs w /\
    p_total (wp w') = p_total (wp w) - if_other O k a + if_other N k a /\
    delegate_effect e L L' O k (fun x x' => a <= m_sfo (wm x) /\
      refreshed ts (wp_ci w) (with_delegated x (m_sfo (wm x) - a)) x') /\
    delegate_effect e L L' N k (fun x x' =>
      refreshed ts (wp_ci w) (with_delegated x (m_sfo (wm x) + a)) x').
Proof. exact change_on_ledger. Qed.
Print Assumptions C32_change.
Theorem C32_same_rejected : forall e ts ms a nd L k,
  account_at ms 4 k -> account_at ms 5 k ->
  exists er, exec e ts ms (ChangeDelegate a nd) L = Err er.
Proof. exact same_delegates. Qed.
Print Assumptions C32_same_rejected.
Definition bob_changes (o n : pubkey) (x : Z) : call :=
  (at_noon 105, b_change POOL (mining_of BOB POOL) AUTH BOB (mining_of o POOL) (mining_of n POOL) n x).
Definition delegations (L : ledger) := (map (fun k => delegated_to L (mining_of k POOL)) [ALICE; BOB; CAROL], p_total (wp (pool_at L POOL))).
Example C32_example :
  delegations L2 = ([250; 0; 0], 940) /\
  option_map delegations (calls [bob_changes ALICE CAROL 200] L2) = Some ([50; 0; 200], 940) /\
  option_map delegations (calls [bob_changes ALICE BOB 200] L2) = Some ([50; 0; 0], 740) /\
  option_map delegations (calls [bob_changes ALICE BOB 200; bob_changes BOB CAROL 200] L2) = Some ([50; 0; 200], 940) /\
  runs L2 (bob_changes ALICE ALICE 200) = false.
Proof. vm_compute. auto. Qed.

(** ** C33 *)
Theorem C33_close : forall e, env_ok e -> forall now ts ms L L' r,
  reached e now L -> exec e ts ms CloseMining L = Ok (L', r) ->
  exists k owner target P w m m1,
    account_at ms 0 k /\ account_at ms 1 owner /\ account_at ms 2 target /\ account_at ms 4 P /\
    is_pool e L P w /\ is_mining e L k m /\ m_owner (wm m) = owner /\ signed ms owner /\
    refreshed ts (wp_ci w) m m1 /\ m_sfo (wm m) = 0 /\ m_unclaimed (wm m1) = 0 /\
    acc L' k = Account 0 (program_id e) (DMining zero_wmining) /\
    lamports_of L' target = lamports_of L target + lamports_of L k /\
    owner_of L' target = owner_of L target /\ data_of L' target = data_of L target /\
    (forall q, q <> k -> q <> target -> acc L' q = acc L q) /\
    (forall q t, data_of L q = DToken t -> data_of L' q = DToken t) /\
    (forall q v, is_pool e L q v -> acc L' q = acc L q).
Proof. exact close_on_ledger. Qed.
Print Assumptions C33_close.
(** BOB, with 300 staked and nothing to claim, may close; the pool keeps counting the 300 *)
Definition bob_closes : call := (at_noon 100, b_close (mining_of BOB POOL) BOB BOB AUTH POOL).
Example C33_example :
  option_map (fun x => fst (fst (fst x))) (stake L1 (mining_of BOB POOL)) = Some 300 /\
  option_map (fun L => (lamports_of L (mining_of BOB POOL), lamports_of L BOB, p_total (wp (pool_at L POOL)))) (calls [bob_closes] L1)
    = Some (0, lamports_of L1 BOB + lamports_of L1 (mining_of BOB POOL), p_total (wp (pool_at L1 POOL))) /\
  option_map (fun L => stake L (mining_of BOB POOL)) (calls [bob_closes] L1) = Some (Some (0, 0, 0, [])) /\
  runs L1 (at_noon 100, b_close (mining_of ALICE POOL) ALICE ALICE AUTH POOL) = false.
Proof. vm_compute. auto. Qed.

(** ** C34 *)
Theorem C34_expiry : forall p ts,
  p <> LNone ->
  expiry p ts mod 86400 = 0 /\ ts + 4 * 86400 < expiry p ts <= ts + 365 * 86400 /\
  expiry p ts = day_start ts + 86400 * days_of p.
Proof. exact expiry_facts. Qed.
Print Assumptions C34_expiry.
Theorem C34_lockup_methods : forall p ts,
  0 <= ts -> ts + 366 * 86400 < 2 ^ 64 ->
  (p = LNone -> end_timestamp p ts = Err InvalidLockupPeriod /\ lockup_days p = Err InvalidLockupPeriod /\ multiplier p = 0) /\
  (p <> LNone -> end_timestamp p ts = Ok (expiry p ts) /\ lockup_days p = Ok (days_of p) /\ multiplier p = weight_of p).
Proof. exact lockup_methods. Qed.
Print Assumptions C34_lockup_methods.
Theorem C34_deposit_none : forall e ts ms a o d L,
  exists er, exec e ts ms (DepositMining a LNone o d) L = Err er.
Proof. exact deposit_none_rejected. Qed.
Print Assumptions C34_deposit_none.
Theorem C34_extend_none : forall e ts ms op np st b a o d L,
  op = LNone \/ np = LNone ->
  exists er, exec e ts ms (ExtendStake op np st b a o d) L = Err er.
Proof. exact extend_none_rejected. Qed.
Print Assumptions C34_extend_none.
Example C34_example :
  map weight_of [LFlex; L3M; L6M; L1Y] = [1; 2; 4; 6] /\ map days_of [LFlex; L3M; L6M; L1Y] = [5; 90; 180; 365] /\
  map (fun p => (expiry p (at_noon 100) - day_start (at_noon 100)) / 86400) [LFlex; L3M; L6M; L1Y] = [5; 90; 180; 365].
Proof. vm_compute. auto. Qed.

(** ** C36 *)
Theorem C36_deposit_scheduled : forall e, env_ok e -> forall now ts ms a p o d L L' r P w,
  reached e now L -> now <= ts -> is_u64 a -> exec e ts ms (DepositMining a p o d) L = Ok (L', r) ->
  account_at ms 0 P -> is_pool e L P w -> dates (fun k => day_start ts < k) (wp_diffs w) ->
  exists w', is_pool e L' P w' /\
    forall k, at_date k (wp_diffs w') = at_date k (wp_diffs w) + (if k =? expiry p ts then a * (weight_of p - 1) else 0).
Proof. exact deposit_always_scheduled. Qed.
Print Assumptions C36_deposit_scheduled.
Theorem C36_extend_scheduled : forall e, env_ok e -> forall now ts ms op np st b a o d L L' r P w,
  reached e now L -> now <= ts -> is_u64 b -> is_u64 a ->
  exec e ts ms (ExtendStake op np st b a o d) L = Ok (L', r) ->
  account_at ms 0 P -> is_pool e L P w -> dates (fun k => day_start ts < k) (wp_diffs w) ->
  exists w', is_pool e L' P w' /\
    forall k, at_date k (wp_diffs w') =
      at_date k (wp_diffs w) + (if k =? expiry np ts then (b + a) * (weight_of np - 1) else 0).
Proof. exact extend_always_scheduled. Qed.
Print Assumptions C36_extend_scheduled.
Theorem C36_cleared : forall e, env_ok e -> forall now ts ms L L' r P w',
  reached e now L -> now <= ts -> exec e ts ms DistributeRewards L = Ok (L', r) ->
  account_at ms 0 P -> is_pool e L' P w' -> dates (fun k => day_start ts < k) (wp_diffs w').
Proof. exact distribution_clears. Qed.
Print Assumptions C36_cleared.
Theorem C36_unscheduled : forall e, env_ok e -> forall now ts ms a p o d L L' r k m w P,
  reached e now L -> now <= ts -> is_u64 a -> exec e ts ms (DepositMining a p o d) L = Ok (L', r) ->
  account_at ms 0 P -> account_at ms 1 k -> is_pool e L P w -> is_mining e L k m ->
  exists w' m', is_pool e L' P w' /\ is_mining e L' k m' /\
    (~ has_date (expiry p ts) (wp_diffs w) -> 365 <= Z.of_nat (length (wp_diffs w)) ->
       wp_diffs w' = wp_diffs w /\ p_total (wp w) + a * weight_of p <= p_total (wp w')) /\
    (~ has_date (expiry p ts) (wm_diffs m) -> 50 <= Z.of_nat (length (after (day_start ts) (wm_diffs m))) ->
       unlocked_stake m' = unlocked_stake m + a * weight_of p).
Proof. exact deposit_unscheduled. Qed.
Print Assumptions C36_unscheduled.
(** the 51st date of a mining, the 366th of a pool, are lost *)
Example C36_example :
  plays (many_deposits L1Y 51) (at_noon 150) = true /\ plays (many_deposits L3M 366) (at_noon 465) = true /\
  let a := ledger_after (many_deposits L1Y 51) in let b := ledger_after (many_deposits L3M 366) in
  let k := mining_of BOB POOL in
  (m_share (wm (mining_at a k)), total (wm_diffs (mining_at a k)), length (wm_diffs (mining_at a k))) = (51 * 60, 50 * 50, 50%nat) /\
  (p_total (wp (pool_at a POOL)), total (wp_diffs (pool_at a POOL)), length (wp_diffs (pool_at a POOL))) = (51 * 60, 51 * 50, 51%nat) /\
  (p_total (wp (pool_at b POOL)), total (wp_diffs (pool_at b POOL)), length (wp_diffs (pool_at b POOL))) = (366 * 20, 365 * 10, 365%nat).
Proof. vm_compute. auto 10. Qed.

(** ** C41 *)
Theorem C41_monotone : forall ts ci a b a' b',
  growing 0 ci -> ascending (wm_diffs a) ->
  m_index (wm a) = m_index (wm b) -> map fst (wm_diffs a) = map fst (wm_diffs b) ->
  (forall d, eff a d <= eff b d) ->
  refreshed ts ci a a' -> refreshed ts ci b b' -> credited a a' <= credited b b'.
Proof. exact credit_monotone. Qed.
Print Assumptions C41_monotone.
Theorem C41_split : forall ts ci a b c a' b' c',
  m_index (wm a) = m_index (wm c) -> m_index (wm b) = m_index (wm c) ->
  m_share (wm a) + m_sfo (wm a) + (m_share (wm b) + m_sfo (wm b)) = m_share (wm c) + m_sfo (wm c) ->
  merged (wm_diffs a) (wm_diffs b) (wm_diffs c) ->
  refreshed ts ci a a' -> refreshed ts ci b b' -> refreshed ts ci c c' ->
  0 <= credited c c' - (credited a a' + credited b b') <= segments ts c.
Proof. exact credit_split. Qed.
Print Assumptions C41_split.
Theorem C41_split_any : forall ts ci a b c a' b' c',
  m_index (wm a) = m_index (wm c) -> m_index (wm b) = m_index (wm c) ->
  (forall d, eff c d = eff a d + eff b d) ->
  refreshed ts ci a a' -> refreshed ts ci b b' -> refreshed ts ci c c' ->
  - segments ts c < credited c c' - (credited a a' + credited b b') < segments ts a + segments ts b.
Proof. exact credit_split_any. Qed.
Print Assumptions C41_split_any.
(** ALICE's 101 and BOB's 52 against CAROL's 153 *)
Example C41_example :
  let L := ledger_after split_stakes in
  map (fun k => credit_at L POOL (mining_of k POOL) (at_noon 196)) [ALICE; BOB; CAROL] = [Some 3411; Some 1755; Some 5168] /\
  merged (wm_diffs (mining_at L (mining_of ALICE POOL))) (wm_diffs (mining_at L (mining_of BOB POOL))) (wm_diffs (mining_at L (mining_of CAROL POOL))) /\
  segments (at_noon 196) (mining_at L (mining_of CAROL POOL)) = 2.
Proof. vm_compute. auto 10. Qed.

(** ** C42 *)
Theorem C42_withdraw : forall e, env_ok e -> forall now ts ms a o d L L' r P w k D,
  reached e now L -> now <= ts -> is_u64 a -> exec e ts ms (WithdrawMining a o d) L = Ok (L', r) ->
  account_at ms 0 P -> account_at ms 1 k -> account_at ms 3 D -> D <> k -> is_pool e L P w ->
  exists x x', is_mining e L D x /\ is_mining e L' D x' /\ loses ts (wp_ci w) a x x'.
Proof. exact withdraw_loss. Qed.
Print Assumptions C42_withdraw.
Theorem C42_extend : forall e, env_ok e -> forall now ts ms op np st b a o d L L' r P w k D,
  reached e now L -> now <= ts -> is_u64 b -> is_u64 a -> exec e ts ms (ExtendStake op np st b a o d) L = Ok (L', r) ->
  account_at ms 0 P -> account_at ms 1 k -> account_at ms 3 D -> D <> k -> is_pool e L P w ->
  exists x x', is_mining e L D x /\ is_mining e L' D x' /\ loses ts (wp_ci w) b x x'.
Proof. exact extend_loss. Qed.
Print Assumptions C42_extend.
Theorem C42_change : forall e, env_ok e -> forall now ts ms a nd L L' r P w k O,
  reached e now L -> now <= ts -> is_u64 a -> exec e ts ms (ChangeDelegate a nd) L = Ok (L', r) ->
  account_at ms 0 P -> account_at ms 1 k -> account_at ms 4 O -> O <> k -> is_pool e L P w ->
  exists x x', is_mining e L O x /\ is_mining e L' O x' /\ loses ts (wp_ci w) a x x'.
Proof. exact change_loss. Qed.
Print Assumptions C42_change.
(** ALICE was owed 3590; BOB withdraws 250 and ALICE keeps 1595 *)
Example C42_example :
  option_map (fun m => m_unclaimed (wm m)) (refreshed_at L2 POOL (mining_of ALICE POOL) (at_noon 110)) = Some 3590 /\
  option_map (fun L => unclaimed_of L (mining_of ALICE POOL)) (calls [bob_withdraws] L2) = Some 1595 /\
  (visible (at_noon 110) (wp_ci (pool_at L2 POOL)) - m_index (wm (mining_at L2 (mining_of ALICE POOL)))) * 250 / 10000000000000000 = 1994.
Proof. vm_compute. auto. Qed.
