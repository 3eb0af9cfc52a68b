(** C59: what can make an instruction on an orderly pool fail (PlainSpec.v). *)
From stdpp Require Import gmap.
From Verif Require Import Base OMap State Spec EffectSpec Core CoreRun Witness Ledger Program Clients LedgerLemmas
  LedgerSpec CodecLemmas History Scenario Attacks SuccessSpec LedgerView LedgerCore LedgerCoreThms LedgerOrderly
  PlainSpec Plain ClientSpec.

Theorem C59_only_the_caller : forall e, env_ok e -> env_inj e -> 0 < rent_min e MINING_LEN ->
  forall P, P <> 0 -> forall now ts L V w,
  orderly e P disciplined now L -> pool_vault e L P V w -> now <= ts ->
  forall ms i, ix_in_range i -> addressed e P w ms i L ->
  (forall n k, In n (may_change i) -> account_at ms n k -> writable ms k) ->
  (exists x, exec e ts ms i L = Ok x) <-> plain e P V w ts ms i L.
Proof.
  intros e He Hi Hr P HP.
  exact (plain_succeeds e He Hi Hr P HP disciplined disciplined_donate disciplined_init (fun _ _ _ H => H)).
Qed.
Print Assumptions C59_only_the_caller.

(** in a pool whose total share is exact (C18), the pool's half of the condition on a
    slashed bonus follows from the mining's half *)
Theorem C59_bonus_recorded : forall e, env_ok e -> env_inj e -> 0 < rent_min e MINING_LEN ->
  forall P now ts L V w k m d x,
  P <> 0 -> orderly e P exact_disciplined now L -> pool_vault e L P V w -> now <= ts ->
  mining_in e L P k m -> day_start ts < d -> 0 < x -> holds_at d x (wm_diffs m) -> holds_at d x (wp_diffs w).
Proof. exact bonus_recorded. Qed.
Print Assumptions C59_bonus_recorded.

(** each pair lies on the two sides of a condition of PlainSpec.v *)
Example C59_example :
  orderly env0 POOL disciplined (noon 194) LR /\
  pool_vault env0 LR POOL (vault_of POOL) (pool_now LR) /\
  map (fun m => share_at (noon 195) (snd m)) (minings_now LR) = [480; 700; 240] /\
  map (fun m => m_sfo (wm (snd m))) (minings_now LR) = [300; 0; 400] /\
  map (fun c => runs LR (noon 195, c))
    [b_withdraw POOL (mn 1) FILLER (mn 1) 480 ALICE ALICE;
     b_withdraw POOL (mn 1) FILLER (mn 1) 481 ALICE ALICE;
     b_withdraw POOL (mn 2) FILLER (mn 3) 400 BOB CAROL;
     b_withdraw POOL (mn 2) FILLER (mn 3) 401 BOB CAROL;
     b_change POOL (mn 2) FILLER BOB (mn 1) (mn 2) BOB 300;
     b_change POOL (mn 2) FILLER BOB (mn 1) (mn 2) BOB 301;
     b_slash FILLER POOL (mn 3) CAROL 0 200 (Some (noon 465));
     b_slash FILLER POOL (mn 3) CAROL 0 201 (Some (noon 465));
     b_extend POOL (mn 2) FILLER (mn 1) LFlex L1Y (noon 100) 300 0 BOB ALICE;
     b_extend POOL (mn 2) FILLER (mn 1) LFlex L1Y (noon 100) 301 0 BOB ALICE;
     b_extend POOL (mn 1) FILLER (mn 1) L6M L1Y (noon 192) 120 7 ALICE ALICE;
     b_extend POOL (mn 1) FILLER (mn 1) L6M L1Y (noon 192) 121 7 ALICE ALICE;
     b_decrease FILLER POOL (mn 3) CAROL 240;
     b_decrease FILLER POOL (mn 3) CAROL 241;
     b_close (mn 2) BOB BOB FILLER POOL;
     b_close (mn 1) ALICE ALICE FILLER POOL;
     b_deposit POOL (mn 3) FILLER (mn 3) (U64 - 2121) LFlex CAROL CAROL;
     b_deposit POOL (mn 3) FILLER (mn 3) (U64 - 2120) LFlex CAROL CAROL]
  = [true; false; true; false; true; false; true; false; true; false; true; false; true; false; true; false; true; false].
Proof.
  split; [apply (orderly_play_ok _ _ _ _ _ disciplined_b_ok); vm_compute; reflexivity|].
  split; [apply has_pool_ok; vm_compute; reflexivity|].
  split; [vm_compute; reflexivity|]. split; vm_compute; reflexivity.
Qed.

(** the bonus of CAROL's stake is recorded in both schedules *)
Example C59_example_bonus :
  orderly env0 POOL exact_disciplined (noon 194) LR /\
  map (fun m => at_date 40176000 (wm_diffs (snd m))) (minings_now LR) = [0; 0; 200] /\
  at_date 40176000 (wp_diffs (pool_now LR)) = 200.
Proof.
  split; [apply (orderly_play_ok _ _ _ _ _ exact_b_ok); vm_compute; reflexivity|]. vm_compute. auto.
Qed.

(** Without the discipline the conditions do not suffice: once more than the unlocked stake
    was withdrawn, the staker's claim fails although nothing in the call is wrong. *)
Definition over_withdrawn : list call := as_calls
  [init 1; (noon 100, ODeposit 1 100 L3M None); (noon 101, OWithdraw 1 200 None)].
Theorem C59_undisciplined_refuted : exists now ts L V w ms i,
  orderly env0 POOL (all_but OnlyUnlocked) now L /\ pool_vault env0 L POOL V w /\ now <= ts /\
  ix_in_range i /\ addressed env0 POOL w ms i L /\ built env0 ms i /\ plain env0 POOL V w ts ms i L /\
  ~ exists x, exec env0 ts ms i L = Ok x.
Proof.
  exists (noon 101), (noon 191), (ledger_after over_withdrawn), (vault_of POOL), (pool_now (ledger_after over_withdrawn)),
    (fst (call_of (OClaim 1))), Claim.
  split; [apply (orderly_play_ok _ _ _ _ _ (all_but_b_ok _)); vm_compute; reflexivity|].
  split; [apply has_pool_ok; vm_compute; reflexivity|].
  split; [unfold noon; lia|]. split; [exact I|]. split; [vm_compute; reflexivity|].
  split; [cbn [call_of fst b_claim]; constructor|]. split.
  - exists (mn 1), ALICE, FILLER, ALICE_T.
    destruct (data_of (ledger_after over_withdrawn) (mn 1)) as [| | |m| | |] eqn:Em; try (exfalso; vm_compute in Em; discriminate).
    destruct (data_of (ledger_after over_withdrawn) ALICE_T) as [| | | |t| |] eqn:Et; try (exfalso; vm_compute in Et; discriminate).
    exists m, t. vm_compute in Em, Et. injection Em as <-. injection Et as <-.
    split; [exists []; vm_compute; reflexivity|].
    split; [vm_compute; auto|]. split; [vm_compute; reflexivity|]. split; [reflexivity|].
    split; [apply is_signer_ok; vm_compute; reflexivity|]. split; [vm_compute; reflexivity|].
    split; [apply is_signer_ok; vm_compute; reflexivity|].
    split; [vm_compute; auto|]. split; [reflexivity|].
    intros H. exfalso. vm_compute in H. discriminate H.
  - intros [x X]. vm_compute in X. discriminate X.
Qed.
Print Assumptions C59_undisciplined_refuted.
