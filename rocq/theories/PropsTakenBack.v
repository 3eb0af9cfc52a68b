(** C63: calls taken back at once. *)
From stdpp Require Import gmap.
From Verif Require Import Base OMap State Spec EffectSpec Ledger Program Clients LedgerLemmas LedgerSpec CodecLemmas SuccessSpec
  EffectThms History HistoryThms ReachThms Scenario Attacks ClientSpec EffectExamples LedgerOrderly CommuteExamples SplitSpec BackSpec TakenBack.

(** depositing without a lock and withdrawing the same *)
Theorem C63_deposit_withdraw : forall e, env_ok e -> forall now ts ms ms' a o d o' d' L L1 L2 r1 r2 P k D,
  reached e now L -> now <= ts -> is_u64 ts -> ix_in_range (DepositMining a LFlex o d) ->
  exec e ts ms (DepositMining a LFlex o d) L = Ok (L1, r1) ->
  exec e ts ms' (WithdrawMining a o' d') L1 = Ok (L2, r2) ->
  account_at ms 0 P -> account_at ms 1 k -> account_at ms 3 D ->
  account_at ms' 0 P -> account_at ms' 1 k -> account_at ms' 3 D ->
  (exists w m w2 m2, is_pool e L P w /\ is_mining e L k m /\ is_pool e L2 P w2 /\ is_mining e L2 k m2 /\
    only_expired ts w w2 /\ only_updated ts (wp_ci w) m m2 /\
    delegate_effect e L L2 D k (fun x z => counted_with ts (wp_ci w) a x z /\ tokens_at ts (wp_ci w) x <= m_unclaimed (wm z))) /\
  (forall q, ~ In q [P; k; D] -> acc L2 q = acc L q).
Proof.
  intros. split; [eapply deposit_withdraw; eassumption|].
  eapply stake_untouched; [| |eassumption..]; reflexivity.
Qed.
Print Assumptions C63_deposit_withdraw.

(** withdrawing and depositing the same without a lock *)
Theorem C63_withdraw_deposit : forall e, env_ok e -> forall now ts ms ms' a o d o' d' L L1 L2 r1 r2 P k D,
  reached e now L -> now <= ts -> is_u64 ts -> ix_in_range (WithdrawMining a o d) ->
  exec e ts ms (WithdrawMining a o d) L = Ok (L1, r1) ->
  exec e ts ms' (DepositMining a LFlex o' d') L1 = Ok (L2, r2) ->
  account_at ms 0 P -> account_at ms 1 k -> account_at ms 3 D ->
  account_at ms' 0 P -> account_at ms' 1 k -> account_at ms' 3 D ->
  (exists w m w2 m2, is_pool e L P w /\ is_mining e L k m /\ is_pool e L2 P w2 /\ is_mining e L2 k m2 /\
    only_expired ts w w2 /\ only_updated ts (wp_ci w) m m2 /\
    delegate_effect e L L2 D k (fun x z => counted_with ts (wp_ci w) (- a) x z /\ m_unclaimed (wm z) <= tokens_at ts (wp_ci w) x)) /\
  (forall q, ~ In q [P; k; D] -> acc L2 q = acc L q).
Proof.
  intros. split; [eapply withdraw_deposit; eassumption|].
  eapply stake_untouched; [| |eassumption..]; reflexivity.
Qed.
Print Assumptions C63_withdraw_deposit.

(** moving delegated stake and moving it back *)
Theorem C63_change_back : forall e, env_ok e -> forall now ts ms ms' a n n' L L1 L2 r1 r2 P k O N,
  reached e now L -> now <= ts -> is_u64 ts -> ix_in_range (ChangeDelegate a n) ->
  exec e ts ms (ChangeDelegate a n) L = Ok (L1, r1) ->
  exec e ts ms' (ChangeDelegate a n') L1 = Ok (L2, r2) ->
  account_at ms 0 P -> account_at ms 1 k -> account_at ms 4 O -> account_at ms 5 N ->
  account_at ms' 0 P -> account_at ms' 1 k -> account_at ms' 4 N -> account_at ms' 5 O ->
  (exists w m m2, is_pool e L P w /\ is_mining e L k m /\ is_pool e L2 P w /\ is_mining e L2 k m2 /\
    refreshed ts (wp_ci w) m m2 /\
    delegate_effect e L L2 O k (fun x z => counted_with ts (wp_ci w) (- a) x z /\ m_unclaimed (wm z) <= tokens_at ts (wp_ci w) x) /\
    delegate_effect e L L2 N k (fun x z => counted_with ts (wp_ci w) a x z /\ tokens_at ts (wp_ci w) x <= m_unclaimed (wm z))) /\
  (forall q, ~ In q [P; k; O; N] -> acc L2 q = acc L q).
Proof.
  intros. split; [eapply change_back; eassumption|]. eapply change_untouched; eassumption.
Qed.
Print Assumptions C63_change_back.

(** a delegate that has seen everything is left exactly as it was *)
Theorem C63_up_to_date : forall ts ci a x z,
  up_to_date ts ci x -> counted_with ts ci a x z -> z = x.
Proof. intros ts ci a x z [H1 H2]. apply counted_same; assumption. Qed.
Print Assumptions C63_up_to_date.

(** a delegate that has not gets, up to rounding, the amount times what it missed *)
Theorem C63_gain : forall ts ci a x z, counted_with ts ci a x z ->
  - segments ts x <=
    m_unclaimed (wm z) - tokens_at ts ci x - a * (visible ts ci - m_index (wm x)) / 10000000000000000
    <= 1 + segments ts x.
Proof.
  intros ts ci a x z C. rewrite (cw_tokens _ _ _ _ _ C). exact (gain_bounds ts ci a x).
Qed.
Print Assumptions C63_gain.

(** ** Concrete calls *)
Definition bob_puts_flex n : call := (at_noon 105, b_deposit POOL (mining_of BOB POOL) AUTH (mining_of ALICE POOL) n LFlex BOB ALICE).
Definition bob_takes n : call := (at_noon 105, b_withdraw POOL (mining_of BOB POOL) AUTH (mining_of ALICE POOL) n BOB ALICE).
Definition bob_moves_to (o n : pubkey) x : call :=
  (at_noon 105, b_change POOL (mining_of BOB POOL) AUTH BOB (mining_of o POOL) (mining_of n POOL) n x).
Definition bob_claims_105 : call := (at_noon 105, b_claim env0 POOL MINT (vault_of POOL) (mining_of BOB POOL) BOB AUTH BOB_T).
(** own stake, delegated-in stake and tokens of the three stakers, and the pool's total *)
Definition stakes (L : ledger) :=
  (map (fun k => match data_of L (mining_of k POOL) with
                 | DMining m => (m_share (wm m), m_sfo (wm m), m_unclaimed (wm m)) | _ => (0, 0, 0) end) [ALICE; BOB; CAROL],
   match data_of L POOL with DPool w => p_total (wp w) | _ => 0 end).
(** on day 105 ALICE has not seen the distribution of day 104: the 450 staked earned 3590 tokens.
    BOB's stake that comes and goes makes them 3989, the one that goes and comes 1595 *)
Example C63_example :
  option_map stakes (calls [bob_puts_flex 0] L2) = Some ([(200, 250, 3590); (250, 0, 5599); (240, 0, 0)], 940) /\
  option_map stakes (calls [bob_puts_flex 50; bob_takes 50] L2) = Some ([(200, 250, 3989); (250, 0, 5599); (240, 0, 0)], 940) /\
  option_map stakes (calls [bob_takes 250; bob_puts_flex 250] L2) = Some ([(200, 250, 1595); (250, 0, 5599); (240, 0, 0)], 940) /\
  option_map stakes (calls [bob_moves_to ALICE CAROL 250; bob_moves_to CAROL ALICE 250] L2) =
    Some ([(200, 250, 1595); (250, 0, 5599); (240, 0, 9798)], 940) /\
  option_map stakes (calls [bob_moves_to ALICE CAROL 0] L2) = Some ([(200, 250, 3590); (250, 0, 5599); (240, 0, 4799)], 940).
Proof. vm_compute. auto 10. Qed.
(** after ALICE has seen it nothing of the kind happens *)
Example C63_example_seen :
  let L := calls_to [bob_puts_flex 0] L2 in
  map (fun l => option_map stakes (calls l L)) [[bob_puts_flex 50; bob_takes 50]; [bob_takes 250; bob_puts_flex 250]] =
    [Some (stakes L); Some (stakes L)].
Proof. vm_compute. reflexivity. Qed.
(** the hypotheses are met by these calls *)
Example C63_example_reached :
  reached env0 (at_noon 104) L2 /\ is_u64 (at_noon 105) /\ ix_in_range (DepositMining 50 LFlex BOB ALICE) /\
  account_at (fst (snd (bob_puts_flex 50))) 0 POOL /\ account_at (fst (snd (bob_takes 50))) 3 (mining_of ALICE POOL).
Proof.
  split; [exists L0, (events (setup ++ later)); split; [exact genesis0|exact L2_reached]|].
  split; [split; [unfold at_noon; lia|vm_compute; reflexivity]|]. split; [apply range_b_ok; vm_compute; reflexivity|]. split; reflexivity.
Qed.

(** ** Stake that is there for an instant can empty the vault *)
(** in a ledger in which ALICE's and BOB's claims both succeed, BOB deposits without a lock and
    withdraws the same at once, so that all stakes are as before; then ALICE claims more than
    ten times what was due, nearly the whole vault, and BOB's claim fails *)
Theorem C63_flash_stake_refuted : exists now ts ms ms' a L L1 L2 L3 L4 x y r1 r2 r4 msa msb P A B V,
  reached env0 now L /\ now <= ts /\ is_u64 a /\
  exec env0 ts ms (DepositMining a LFlex BOB ALICE) L = Ok (L1, r1) /\
  exec env0 ts ms' (WithdrawMining a BOB ALICE) L1 = Ok (L2, r2) /\
  (forall w w2, is_pool env0 L P w -> is_pool env0 L2 P w2 -> p_total (wp w2) = p_total (wp w)) /\
  (forall k m m2, In k [A; B] -> is_mining env0 L k m -> is_mining env0 L2 k m2 ->
     m_share (wm m2) = m_share (wm m) /\ m_sfo (wm m2) = m_sfo (wm m)) /\
  exec env0 ts msa Claim L = Ok (L4, Some y) /\ (exists L5, exec env0 ts msb Claim L4 = Ok (L5, r4)) /\
  exec env0 ts msa Claim L2 = Ok (L3, Some x) /\ (exists er, exec env0 ts msb Claim L3 = Err er) /\
  10 * y < x /\ tokens_of L3 V * 100 < tokens_of L V.
Proof.
  pose (f := fun (r : res (ledger * option Z)) => match r with Ok (L, _) => L | Err _ => Scenario.L2 end).
  pose (v := fun (r : res (ledger * option Z)) => match r with Ok (_, x) => x | Err _ => None end).
  assert (G : forall r, success r = true -> r = Ok (f r, v r)) by (intros [[? ?]|]; [reflexivity|discriminate]).
  pose (ms := fst (snd (bob_puts_flex 0))). pose (ms' := fst (snd (bob_takes 0))).
  pose (msa := fst (snd (alice_claims 105))). pose (msb := fst (snd bob_claims_105)).
  pose (X1 := exec env0 (at_noon 105) ms (DepositMining 5050 LFlex BOB ALICE) Scenario.L2).
  pose (X2 := exec env0 (at_noon 105) ms' (WithdrawMining 5050 BOB ALICE) (f X1)).
  pose (X3 := exec env0 (at_noon 105) msa Claim (f X2)).
  pose (X4 := exec env0 (at_noon 105) msa Claim Scenario.L2).
  pose (X5 := exec env0 (at_noon 105) msb Claim (f X4)).
  pose (X6 := exec env0 (at_noon 105) msb Claim (f X3)).
  assert (S1 : success X1 = true) by (vm_compute; reflexivity).
  assert (S2 : success X2 = true) by (vm_compute; reflexivity).
  assert (S3 : success X3 && bool_decide (v X3 = Some 43882) = true) by (vm_compute; reflexivity).
  assert (S4 : success X4 && bool_decide (v X4 = Some 3590) = true) by (vm_compute; reflexivity).
  assert (S5 : success X5 = true) by (vm_compute; reflexivity).
  assert (S6 : success X6 = false) by (vm_compute; reflexivity).
  apply andb_true_iff in S3 as [S3 V3], S4 as [S4 V4]. apply bool_decide_eq_true in V3, V4.
  apply G in S1, S2, S3, S4, S5. rewrite V3 in S3. rewrite V4 in S4.
  exists (at_noon 104), (at_noon 105), ms, ms', 5050, Scenario.L2, (f X1), (f X2), (f X3), (f X4), 43882, 3590, (v X1), (v X2), (v X5), msa, msb,
    POOL, (mining_of ALICE POOL), (mining_of BOB POOL), (vault_of POOL).
  split; [exists L0, (events (setup ++ later)); split; [exact genesis0|exact L2_reached]|].
  split; [unfold at_noon; lia|]. split; [split; [lia|reflexivity]|].
  split; [exact S1|]. split; [exact S2|]. split; [|split].
  - intros w w2 [_ H] [_ H2].
    assert (E : match data_of (f X2) POOL, data_of Scenario.L2 POOL with DPool a, DPool b => p_total (wp a) =? p_total (wp b) | _, _ => false end = true)
      by (vm_compute; reflexivity).
    rewrite H, H2 in E. lia.
  - intros k m m2 Hk [_ H] [_ H2].
    assert (E : forallb (fun k => match data_of (f X2) k, data_of Scenario.L2 k with
      | DMining a, DMining b => (m_share (wm a) =? m_share (wm b)) && (m_sfo (wm a) =? m_sfo (wm b)) | _, _ => false end)
      [mining_of ALICE POOL; mining_of BOB POOL] = true) by (vm_compute; reflexivity).
    rewrite forallb_forall in E. specialize (E k Hk). rewrite H, H2 in E. lia.
  - split; [exact S4|]. split; [eexists; exact S5|]. split; [exact S3|]. split.
    + fold X6. destruct X6 as [?|er]; [discriminate|]. exists er. reflexivity.
    + split; [lia|]. vm_compute. reflexivity.
Qed.
Print Assumptions C63_flash_stake_refuted.
