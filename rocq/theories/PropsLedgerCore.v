(** C18-C23, C43, C44 for instructions and accounts: pools with an orderly history
    (LedgerView.v). *)
From stdpp Require Import gmap.
From Verif Require Import Base OMap State Spec Core CoreRun Witness Ledger Program Clients LedgerLemmas LedgerSpec
  CodecLemmas History Scenario Attacks LedgerView LedgerCore LedgerCoreThms LedgerOrderly.

(** ** C18 *)
Theorem C18_ledger_share_exact : forall e, env_ok e -> env_inj e -> 0 < rent_min e MINING_LEN ->
  forall P now L V w d l,
  P <> 0 -> orderly e P exact_disciplined now L -> pool_vault e L P V w -> day_start now <= d ->
  lists_minings e L P l ->
  zsum (map (fun x => eff (snd x) d) l) = p_total (wp w) - due d (wp_diffs w).
Proof. exact shares_exact. Qed.
Print Assumptions C18_ledger_share_exact.

(** ALICE, BOB and CAROL, delegations included, now and when all bonuses are gone *)
Example C18_ledger_example :
  orderly env0 POOL exact_disciplined (noon 194) LR /\
  pool_vault env0 LR POOL (vault_of POOL) (pool_now LR) /\
  map (fun x => eff (snd x) (noon 194)) (minings_now LR) = [780; 700; 640] /\
  p_total (wp (pool_now LR)) - due (noon 194) (wp_diffs (pool_now LR)) = 2120 /\
  map (fun x => eff (snd x) (noon 500)) (minings_now LR) = [420; 700; 440] /\
  p_total (wp (pool_now LR)) - due (noon 500) (wp_diffs (pool_now LR)) = 1560.
Proof.
  split; [apply (orderly_play_ok _ _ _ _ _ exact_b_ok); vm_compute; reflexivity|].
  split; [apply has_pool_ok; vm_compute; reflexivity|]. vm_compute. auto.
Qed.

(** ** C19 *)
Theorem C19_ledger_share_covers : forall e, env_ok e -> env_inj e -> 0 < rent_min e MINING_LEN ->
  forall P, P <> 0 -> forall now L V w d l,
  orderly e P disciplined now L -> pool_vault e L P V w -> day_start now <= d ->
  List.NoDup (map fst l) -> (forall k m, In (k, m) l -> mining_in e L P k m) ->
  zsum (map (fun x => eff (snd x) d) l) <= p_total (wp w) - due d (wp_diffs w).
Proof.
  intros e He Hi Hr P HP.
  exact (shares_cover e He Hi Hr P HP disciplined disciplined_donate disciplined_init (fun _ _ _ H => H)).
Qed.
Print Assumptions C19_ledger_share_covers.

(** ** C20 *)
Theorem C20_ledger_solvency : forall e, env_ok e -> env_inj e -> 0 < rent_min e MINING_LEN ->
  forall P, P <> 0 -> forall now ts L V w l,
  orderly e P disciplined now L -> pool_vault e L P V w -> now <= ts ->
  List.NoDup (map fst l) -> (forall k a, In (k, a) l -> claim_returns e ts L P k a) ->
  p_avail (wp w) + zsum (map snd l) <= balance L V.
Proof.
  intros e He Hi Hr P HP.
  exact (solvent_returns e He Hi Hr P HP disciplined disciplined_donate disciplined_init (fun _ _ _ H => H)).
Qed.
Print Assumptions C20_ledger_solvency.

Example C20_ledger_example :
  orderly env0 POOL disciplined (noon 194) LR /\
  due_now (noon 195) LR [1; 2; 3] = [(mn 1, 8591); (mn 2, 0); (mn 3, 9082)] /\
  p_avail (wp (pool_now LR)) = 70678 /\ balance LR (vault_of POOL) = 88518.
Proof.
  split; [apply (orderly_play_ok _ _ _ _ _ disciplined_b_ok); vm_compute; reflexivity|]. vm_compute. auto.
Qed.

(** ** C21 *)
Theorem C21_ledger_claims_succeed : forall e, env_ok e -> env_inj e -> 0 < rent_min e MINING_LEN ->
  forall P, P <> 0 -> forall l now ts L V w mint,
  orderly e P disciplined now L -> pool_vault e L P V w -> now <= ts -> is_u64 ts ->
  mint = p_mint (wp w) -> owner_of L mint = spl_token_id e -> p_deposit_auth (wp w) <> system_id ->
  (forall k o T, In (k, o, T) l -> exists m, mining_in e L P k m /\ o = m_owner (wm m) /\ o <> system_id /\
     payable e L w V m T) ->
  exists L' xs, claims e ts P mint V (p_deposit_auth (wp w)) l L = Ok (L', xs) /\
    length xs = length l /\ balance L' V = balance L V - zsum xs /\ pool_vault e L' P V w /\
    (l <> [] -> orderly e P disciplined ts L').
Proof.
  intros e He Hi Hr P HP.
  exact (claims_exec e He Hi Hr P HP disciplined disciplined_donate disciplined_init (fun _ _ _ H => H) disciplined_claim).
Qed.
Print Assumptions C21_ledger_claims_succeed.

(** in any order, ALICE even twice *)
Example C21_ledger_example :
  match claims env0 (noon 195) POOL MINT (vault_of POOL) FILLER
    [(mn 3, CAROL, CAROL_T); (mn 1, ALICE, ALICE_T); (mn 1, ALICE, ALICE_T); (mn 2, BOB, BOB_T)] LR with
  | Ok (L, xs) => xs = [9082; 8591; 0; 0] /\ balance L (vault_of POOL) = 70845
  | Err _ => False
  end.
Proof. vm_compute. auto. Qed.

(** ** C22 *)
Theorem C22_ledger_unlocked_withdraws : forall e, env_ok e -> env_inj e -> 0 < rent_min e MINING_LEN ->
  forall P, P <> 0 -> forall now ts L V w k m a x mx d,
  orderly e P disciplined now L -> pool_vault e L P V w -> now <= ts ->
  mining_in e L P k m -> 0 <= a <= unlocked m ->
  x = k \/ mining_in e L P x mx /\ d = m_owner (wm mx) /\ a <= m_sfo (wm mx) ->
  exists L', exec e ts (fst (b_withdraw P k (p_deposit_auth (wp w)) x a (m_owner (wm m)) d))
    (WithdrawMining a (m_owner (wm m)) d) L = Ok (L', None).
Proof.
  intros e He Hi Hr P HP.
  exact (withdraw_exec e He Hi Hr P HP disciplined disciplined_donate disciplined_init (fun _ _ _ H => H)).
Qed.
Print Assumptions C22_ledger_unlocked_withdraws.

Example C22_ledger_example :
  map (fun x => (unlocked (snd x), m_sfo (wm (snd x)))) (minings_now LR) = [(120, 300); (700, 0); (40, 400)] /\
  runs LR (noon 195, b_withdraw POOL (mn 1) FILLER (mn 1) 120 ALICE ALICE) = true /\
  runs LR (noon 195, b_withdraw POOL (mn 2) FILLER (mn 3) 400 BOB CAROL) = true /\
  runs LR (noon 195, b_withdraw POOL (mn 2) FILLER (mn 3) 401 BOB CAROL) = false.
Proof. vm_compute. auto. Qed.

(** ** C23 *)
Theorem C23_ledger_every_condition_needed : forall x,
  exists now L, orderly env0 POOL (all_but x) now L /\ ledger_insolvent env0 now L POOL.
Proof. exact ledger_conditions_needed. Qed.
Print Assumptions C23_ledger_every_condition_needed.

(** ** C43 *)
Theorem C43_ledger_distribution_succeeds : forall e, env_ok e -> env_inj e -> 0 < rent_min e MINING_LEN ->
  forall P, P <> 0 -> forall now ts L V w,
  orderly e P disciplined now L -> pool_vault e L P V w -> now <= ts ->
  Z.of_nat (length (wp_ci w)) < 1095 -> due (day_start ts) (wp_diffs w) < p_total (wp w) ->
  exists L', exec e ts (fst (b_distribute P (p_distribute_auth (wp w)))) DistributeRewards L = Ok (L', None).
Proof.
  intros e He Hi Hr P HP.
  exact (distribute_exec e He Hi Hr P HP disciplined disciplined_donate disciplined_init (fun _ _ _ H => H)).
Qed.
Print Assumptions C43_ledger_distribution_succeeds.

Example C43_ledger_example :
  length (wp_ci (pool_now LR)) = 5%nat /\ due (noon 195) (wp_diffs (pool_now LR)) = 0 /\
  p_total (wp (pool_now LR)) = 2120 /\ runs LR (noon 195, b_distribute POOL DISTR) = true.
Proof. vm_compute. auto. Qed.

(** ** C44 *)
Theorem C44_ledger_deposit_succeeds : forall e, env_ok e -> env_inj e -> 0 < rent_min e MINING_LEN ->
  forall P, P <> 0 -> forall now ts L V w k m a p x mx d,
  orderly e P disciplined now L -> pool_vault e L P V w -> now <= ts -> ts + 366 * 86400 < U64 ->
  mining_in e L P k m -> p <> LNone -> 0 <= a ->
  disciplined ts (ODeposit k a p (other x k)) (core_of e P V now L) ->
  p_total (wp w) + a * weight_of p + (if x =? k then 0 else a) < U64 ->
  x = k \/ mining_in e L P x mx /\ d = m_owner (wm mx) /\ m_share (wm mx) + m_sfo (wm mx) + a < U64 ->
  exists L', exec e ts (fst (b_deposit P k (p_deposit_auth (wp w)) x a p (m_owner (wm m)) d))
    (DepositMining a p (m_owner (wm m)) d) L = Ok (L', None).
Proof.
  intros e He Hi Hr P HP.
  exact (deposit_exec e He Hi Hr P HP disciplined disciplined_donate disciplined_init (fun _ _ _ H => H)).
Qed.
Print Assumptions C44_ledger_deposit_succeeds.

Example C44_ledger_example :
  disciplined_b (noon 195) (ODeposit (mn 3) 1000 L1Y (other (mn 2) (mn 3))) (core_of env0 POOL (vault_of POOL) (noon 194) LR) = true /\
  runs LR (noon 195, b_deposit POOL (mn 3) FILLER (mn 2) 1000 L1Y CAROL BOB) = true.
Proof. vm_compute. auto. Qed.
