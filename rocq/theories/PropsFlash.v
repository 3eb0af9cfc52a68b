(** C70: stake that is there only while a distribution is made earns like stake held all day. *)
From stdpp Require Import gmap.
From Verif Require Import Base OMap State Spec EffectSpec Core CoreRun Witness Ledger Program Clients LedgerLemmas LedgerSpec
  CodecLemmas History HistoryLemmas HistoryThms Scenario Attacks LedgerView LedgerCore LedgerCoreThms LedgerOrderly EffectThms EffectExamples SuccessSpec BackSpec Flash.

(** deposit without a lock, distribution, claim, withdrawal: all at the same second *)
Theorem C70_flash_stake : forall e, env_ok e -> env_inj e -> 0 < rent_min e MINING_LEN ->
  forall P, P <> 0 -> forall now ts ms ms' a o d L L1 L2 r1 r2 V w k m T dl,
  orderly e P disciplined now L -> pool_vault e L P V w -> mining_in e L P k m -> now <= ts -> is_u64 ts ->
  ix_in_range (DepositMining a LFlex o d) ->
  exec e ts ms (DepositMining a LFlex o d) L = Ok (L1, r1) ->
  account_at ms 0 P -> account_at ms 1 k -> account_at ms 3 k ->
  exec e ts ms' DistributeRewards L1 = Ok (L2, r2) -> account_at ms' 0 P ->
  day_start ts < ts -> ~ has_date (day_start ts) (wp_ci w) -> Z.of_nat (length (wp_ci w)) < 1095 ->
  orderly e P disciplined ts L2 -> owner_of L2 (p_mint (wp w)) = spl_token_id e -> p_deposit_auth (wp w) <> system_id ->
  m_owner (wm m) <> system_id -> is_key (m_owner (wm m)) -> is_key dl -> payable e L2 w V m T ->
  let part := daily_part (p_avail (wp w)) (p_ends_at (wp w)) ts in
  let N := p_total (wp w) - due (day_start ts) (wp_diffs w) + a in
  let S := share_at ts m + m_sfo (wm m) + a in
  exists L3 L4 x w4 m4,
    exec e ts (fst (b_claim e P (p_mint (wp w)) V k (m_owner (wm m)) (p_deposit_auth (wp w)) T)) Claim L2
      = Ok (L3, Some (tokens_at ts (wp_ci w) m + x)) /\
    exec e ts (fst (b_withdraw P k (p_deposit_auth (wp w)) k a (m_owner (wm m)) dl)) (WithdrawMining a (m_owner (wm m)) dl) L3
      = Ok (L4, None) /\
    0 < N /\ x = (10000000000000000 * part / N) * S / 10000000000000000 /\
    N * x <= part * S < N * (x + 2 + S / 10000000000000000) /\
    balance L4 T = balance L2 T + (tokens_at ts (wp_ci w) m + x) /\
    balance L4 V = balance L2 V - (tokens_at ts (wp_ci w) m + x) /\
    is_pool e L4 P w4 /\ is_mining e L4 k m4 /\
    p_total (wp w4) = p_total (wp w) - due (day_start ts) (wp_diffs w) /\ p_avail (wp w4) = p_avail (wp w) - part /\
    m_share (wm m4) = share_at ts m /\ m_sfo (wm m4) = m_sfo (wm m) /\ m_unclaimed (wm m4) = 0 /\
    same_amounts (Spec.after (day_start ts) (wm_diffs m)) (wm_diffs m4).
Proof. exact flash. Qed.
Print Assumptions C70_flash_stake.

(** ALICE has staked 1000 since day 100; on day 101 BOB stakes 99000 around the distribution
    of 1020 tokens: BOB takes 1009 of them and is out again, ALICE gets 10; without BOB it would be 1020 *)
Definition quiet : list call := as_calls
  [init 1; init 2; (noon 100, ODeposit 1 1000 LFlex None); (noon 100, OFill 100000 (noon 200) false)].
Definition LQ : ledger := ledger_after quiet.
Definition flash_calls : list call :=
  [(noon 101, call_of (ODeposit 2 99000 LFlex None)); (noon 101, call_of ODistribute);
   (noon 101, call_of (OClaim 2)); (noon 101, call_of (OWithdraw 2 99000 None))].
Example C70_example :
  orderly env0 POOL disciplined (noon 100) LQ /\
  pool_vault env0 LQ POOL (vault_of POOL) (pool_now LQ) /\
  orderly env0 POOL disciplined (noon 101) (ledger_after (quiet ++ firstn 2 flash_calls)) /\
  daily_part (p_avail (wp (pool_now LQ))) (p_ends_at (wp (pool_now LQ))) (noon 101) = 1020 /\
  option_map (fun L => (balance L BOB_T - balance LQ BOB_T, claim_now (noon 101) L 1,
      option_map (fun x => fst (fst (fst x))) (stake L (mn 2)), p_total (wp (pool_now L)))) (calls flash_calls LQ)
    = Some (1009, Some 10, Some 0, 1000) /\
  option_map (fun L => claim_now (noon 101) L 1) (calls [(noon 101, call_of ODistribute)] LQ) = Some (Some 1020).
Proof.
  split; [apply (orderly_play_ok _ _ _ _ _ disciplined_b_ok); vm_compute; reflexivity|].
  split; [apply has_pool_ok; vm_compute; reflexivity|].
  split; [apply (orderly_play_ok _ _ _ _ _ disciplined_b_ok); vm_compute; reflexivity|].
  vm_compute. auto.
Qed.
