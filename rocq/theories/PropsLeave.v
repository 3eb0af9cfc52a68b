(** C54: a staker can take everything and go. *)
From stdpp Require Import gmap.
From Verif Require Import Base OMap State Spec EffectSpec Core CoreRun Witness Ledger Program Clients LedgerLemmas LedgerSpec
  CodecLemmas History HistoryLemmas HistoryThms Scenario Attacks LedgerView LedgerCore LedgerCoreThms LedgerOrderly EffectThms EffectExamples SuccessSpec Leave.

(** claim, withdraw, close: at any time, with any unlocked amount *)
Theorem C54_leave : forall e, env_ok e -> env_inj e -> 0 < rent_min e MINING_LEN ->
  forall P, P <> 0 -> forall now ts L V w k m T x mx dl a target,
  orderly e P disciplined now L -> pool_vault e L P V w -> now <= ts -> is_u64 ts ->
  owner_of L (p_mint (wp w)) = spl_token_id e -> p_deposit_auth (wp w) <> system_id ->
  mining_in e L P k m -> m_owner (wm m) <> system_id -> payable e L w V m T -> m_sfo (wm m) = 0 ->
  0 <= a <= unlocked_stake m -> is_key (m_owner (wm m)) -> is_key dl ->
  x = k \/ mining_in e L P x mx /\ dl = m_owner (wm mx) /\ a <= m_sfo (wm mx) ->
  owner_of L target = system_id -> lamports_of L target + lamports_of L k < U64 ->
  exists L1 L2 L3 r w',
    exec e ts (fst (b_claim e P (p_mint (wp w)) V k (m_owner (wm m)) (p_deposit_auth (wp w)) T)) Claim L = Ok (L1, Some r) /\
    exec e ts (fst (b_withdraw P k (p_deposit_auth (wp w)) x a (m_owner (wm m)) dl))
      (WithdrawMining a (m_owner (wm m)) dl) L1 = Ok (L2, None) /\
    exec e ts (fst (b_close k (m_owner (wm m)) target (p_deposit_auth (wp w)) P)) CloseMining L2 = Ok (L3, None) /\
    r = tokens_at ts (wp_ci w) m /\
    balance L3 T = balance L T + r /\ balance L3 V = balance L V - r /\
    lamports_of L3 target = lamports_of L target + lamports_of L k /\
    acc L3 k = Account 0 (program_id e) (DMining zero_wmining) /\
    is_pool e L3 P w' /\
    forall d, day_start ts <= d ->
      p_total (wp w') - due d (wp_diffs w') = p_total (wp w) - due d (wp_diffs w) - a - if_other x k a.
Proof. exact leave. Qed.
Print Assumptions C54_leave.

(** once every bonus has expired the unlocked amount is the whole weighted stake *)
Theorem C54_everything_unlocked : forall ts m,
  (forall d v, In (d, v) (wm_diffs m) -> d <= day_start ts) -> unlocked_stake m = share_at ts m.
Proof. exact leave_all. Qed.
Print Assumptions C54_everything_unlocked.

(** BOB takes back the 400 delegated to CAROL on day 195, and goes with the other 300 on day 196 *)
Definition going : list call :=
  rich ++ [(noon 195, call_of ODistribute); (noon 195, call_of (OWithdraw 2 400 (Some 3)))].
Definition LG : ledger := ledger_after going.
Definition gone : list call :=
  [(noon 196, call_of (OClaim 2)); (noon 196, call_of (OWithdraw 2 300 None)); (noon 196, call_of (OClose 2))].
Example C54_example :
  orderly env0 POOL disciplined (noon 195) LG /\
  pool_vault env0 LG POOL (vault_of POOL) (pool_now LG) /\
  match data_of LG (mn 2) with DMining m => (unlocked_stake m, m_sfo (wm m)) = (300, 0) | _ => False end /\
  option_map (fun L => (balance L BOB_T - balance LG BOB_T, lamports_of L PAYER - lamports_of LG PAYER, acc L (mn 2),
      p_total (wp (pool_now LG)) - p_total (wp (pool_now L)))) (calls gone LG)
    = Some (5834, lamports_of LG (mn 2), Account 0 (program_id env0) (DMining zero_wmining), 300).
Proof.
  split; [apply (orderly_play_ok _ _ _ _ _ disciplined_b_ok); vm_compute; reflexivity|].
  split; [apply has_pool_ok; vm_compute; reflexivity|]. vm_compute. auto.
Qed.
