(** The repository's own tests (programs/rewards/tests/rewards/*.rs), replayed on the model:
    every instruction they send has to succeed or fail as they say, and every value they
    assert has to be the value in the model's ledger.  This checks the model, not the
    program.  integration.rs is commented out in the repository and left out here. *)
From stdpp Require Import gmap.
From Verif Require Import Base OMap State Ledger Program Clients Scenario.

(** ** Scripts *)
Inductive cmd :=
| Send (b : list meta * ix)                 (* .await.unwrap() *)
| Refused (b : list meta * ix)              (* #[should_panic] *)
| RefusedWith (c : Z) (b : list meta * ix)  (* assert_on_chain_err, utils.rs 555-578 *)
| Advance (secs : Z)                        (* advance_clock_by_ts, utils.rs 483-500 *)
| Filling (days amount : Z)                 (* fill_vault until now + days * SECONDS_PER_DAY *)
| See (check : ledger -> bool).             (* assert_eq! *)

Definition fill_until (amount until : Z) : list meta * ix :=
  b_fill_vault env0 POOL MINT (vault_of POOL) FILLER SOURCE amount until.

Fixpoint follow (now : Z) (L : ledger) (l : list cmd) : bool :=
  match l with
  | [] => true
  | Send (ms, i) :: r =>
      match exec env0 now ms i L with Ok (L', _) => follow now L' r | Err _ => false end
  | Filling days amount :: r =>
      let (ms, i) := fill_until amount (now + days * 86400) in
      match exec env0 now ms i L with Ok (L', _) => follow now L' r | Err _ => false end
  | Refused (ms, i) :: r =>
      match exec env0 now ms i L with Ok _ => false | Err _ => follow now L r end
  | RefusedWith c (ms, i) :: r =>
      match exec env0 now ms i L with Err (ECustom n) => (n =? c) && follow now L r | _ => false end
  | Advance s :: r => follow (now + s) L r
  | See f :: r => f L && follow now L r
  end.

Fixpoint times (n : nat) (l : list cmd) : list cmd :=
  match n with O => [] | S n' => l ++ times n' l end.

(** the accounts the helpers create by other programs: mint, token accounts, the pool's
    space, the wallet that pays (utils.rs 54-99, 384-482, 502-522) *)
Definition fresh : ledger :=
  <[POOL := Account 700000 2 (DPool zero_wpool)]> $ <[MINT := Account 1500 4 DMint]> $
  <[PAYER := wallet 10000000]> $ <[SOURCE := tokens FILLER 5000000000]> $
  <[ALICE_T := tokens ALICE 0]> $ <[BOB_T := tokens BOB 0]> $ ∅.

Definition MA : pubkey := mining_of ALICE POOL.
Definition MB : pubkey := mining_of BOB POOL.
Definition new_pool : cmd :=
  Send (b_initialize_pool env0 POOL MINT (vault_of POOL) PAYER AUTH FILLER DISTR).
Definition user (o : pubkey) : cmd := Send (b_initialize_mining POOL (mining_of o POOL) PAYER o).
Definition deposit (o : pubkey) (a : Z) (p : lockup) (d : pubkey) : cmd :=
  Send (b_deposit POOL (mining_of o POOL) AUTH (mining_of d POOL) a p o d).
Definition own (o : pubkey) (a : Z) (p : lockup) : cmd := deposit o a p o.
Definition withdraw (o : pubkey) (a : Z) : cmd :=
  Send (b_withdraw POOL (mining_of o POOL) AUTH (mining_of o POOL) a o o).
Definition extend (o d : pubkey) (op np : lockup) (start base add : Z) : cmd :=
  Send (b_extend POOL (mining_of o POOL) AUTH (mining_of d POOL) op np start base add o d).
Definition distribute : cmd := Send (b_distribute POOL DISTR).
Definition token_of (o : pubkey) : pubkey := if o =? ALICE then ALICE_T else BOB_T.
Definition claims (o : pubkey) : cmd :=
  Send (b_claim env0 POOL MINT (vault_of POOL) (mining_of o POOL) o AUTH (token_of o)).
Definition slash (o : pubkey) (n w : Z) (d : option Z) : cmd :=
  Send (b_slash AUTH POOL (mining_of o POOL) o n w d).

Definition amount_in (k : pubkey) (L : ledger) : Z :=
  match a_data (acc L k) with DToken t => t_amount t | _ => -1 end.
Definition has (o : pubkey) (n : Z) : cmd := See (fun L => amount_in (token_of o) L =? n).
Definition in_mining {A} (f : wmining -> A) (none : A) (o : pubkey) (L : ledger) : A :=
  match a_data (acc L (mining_of o POOL)) with DMining w => f w | _ => none end.
Definition in_pool {A} (f : wpool -> A) (none : A) (L : ledger) : A :=
  match a_data (acc L POOL) with DPool w => f w | _ => none end.
Definition share (o : pubkey) (n : Z) : cmd := See (fun L => in_mining (fun w => m_share (wm w)) (-1) o L =? n).
Definition others (o : pubkey) (n : Z) : cmd := See (fun L => in_mining (fun w => m_sfo (wm w)) (-1) o L =? n).
Definition total (n : Z) : cmd := See (fun L => in_pool (fun w => p_total (wp w)) (-1) L =? n).
(** the entry exists and has this value (extend_stake.rs 458-474, slash.rs 55-74) *)
Definition opt_is (o : option Z) (n : Z) : bool := match o with Some v => v =? n | None => false end.
Definition modifier (o : pubkey) (day n : Z) : cmd :=
  See (fun L => opt_is (in_mining (fun w => oget day (wm_diffs w)) None o L) n).
Definition pool_modifier (day n : Z) : cmd :=
  See (fun L => opt_is (in_pool (fun w => oget day (wp_diffs w)) None L) n).
(** LockupPeriod::end_timestamp, with the length of the period in days *)
Definition ends (days ts : Z) : Z := (ts - ts mod 86400) + days * 86400.

(** ** The tests; [t] is the time the clock shows at the start *)

(** claim.rs 48-135 *)
Definition with_two_users (t : Z) : list cmd :=
  [new_pool; user ALICE; own ALICE 100 L3M; user BOB; own BOB 100 L3M; Filling 1 100; distribute;
   claims ALICE; claims BOB; has ALICE 50; has BOB 50].
(** claim.rs 138-229 *)
Definition flex_vs_three_months (t : Z) : list cmd :=
  [new_pool; user ALICE; own ALICE 100 L3M; Advance (91 * 86400); user BOB; own BOB 100 L3M;
   Filling 1 1000; distribute; claims ALICE; has ALICE 333; claims BOB; has BOB 666].
(** claim.rs 232-335 *)
Definition multiple_consequantial_distributions_for_two_users (t : Z) : list cmd :=
  [new_pool; user ALICE; own ALICE 100 L3M; user BOB; own BOB 100 L1Y; Filling 6 500]
  ++ times 5 [distribute; claims BOB; Advance 86400]
  ++ [claims BOB; claims ALICE; has ALICE 125; has BOB 375].
(** claim.rs 338-441 *)
Definition rewards_after_distribution_are_unclaimable (t : Z) : list cmd :=
  [new_pool; user ALICE; own ALICE 100 L3M; Filling 1 1000; distribute; claims ALICE; has ALICE 1000;
   Advance (1000 * 86400); Filling 1 100; user BOB; own BOB 100 L1Y; claims BOB; has BOB 0].
(** claim.rs 444-533 *)
Definition switch_to_flex_is_correct (t : Z) : list cmd :=
  [new_pool; user ALICE; own ALICE 100 L3M; user BOB; own BOB 100 L1Y; Advance (91 * 86400);
   Filling 1 100; distribute; claims ALICE; claims BOB; has ALICE 14; has BOB 85].
(** claim.rs 536-635 *)
Definition two_deposits_vs_one (t : Z) : list cmd :=
  [new_pool; user ALICE; own ALICE 100 L1Y; user BOB; own BOB 50 L1Y; own BOB 50 L1Y;
   Filling 1 1000; distribute; claims ALICE; claims BOB; has ALICE 499; has BOB 499].
(** claim.rs 638-724 *)
Definition claim_tokens_after_deposit_expiration (t : Z) : list cmd :=
  [new_pool; user ALICE; own ALICE 100 L1Y; user BOB; own BOB 300 L3M; Filling 1 1000; distribute;
   Advance (180 * 86400); claims ALICE; claims BOB; has ALICE 499; has BOB 499].
(** claim.rs 727-915 *)
Definition claim_after_withdraw_is_correct (t : Z) : list cmd :=
  [new_pool; user ALICE; own ALICE 100 L1Y; user BOB; own BOB 50 L1Y; own BOB 150 L3M;
   Filling 1 100; distribute; claims ALICE; has ALICE 49; claims BOB; has BOB 49;
   Advance (91 * 86400); Filling 1 100; distribute;
   claims ALICE; has ALICE (49 + 57); claims BOB; has BOB (49 + 42);
   withdraw BOB 150; Advance 86400; Filling 1 100; distribute;
   claims ALICE; has ALICE 172; claims BOB; has BOB 124].
(** claim.rs 918-1005 *)
Definition with_two_users_with_flex (t : Z) : list cmd :=
  [new_pool; user ALICE; own ALICE 100 LFlex; user BOB; own BOB 100 LFlex; Filling 1 100; distribute;
   claims ALICE; claims BOB; has ALICE 50; has BOB 50].
(** claim.rs 1008-1117; BOB is the delegate *)
Definition claim_with_delegate (t : Z) : list cmd :=
  [new_pool; user BOB; own BOB 3000000 L1Y; share BOB 18000000; others BOB 0;
   user ALICE; deposit ALICE 1000000 L1Y BOB; share BOB 18000000; others BOB 1000000;
   total 25000000; share ALICE 6000000; Filling 0 1000000; distribute; claims ALICE; claims BOB;
   has ALICE 240000; has BOB 760000].
(** change_delegate.rs 50-78 *)
Definition change_delegate_to_the_same (t : Z) : list cmd :=
  [new_pool; user ALICE; own ALICE 6000000 L1Y;
   RefusedWith 10 (b_change POOL MA AUTH ALICE MA MA ALICE 6000000)].
(** change_delegate.rs 81-202 *)
Definition change_delegate_then_claim (t : Z) : list cmd :=
  [new_pool; user BOB; own BOB 3000000 L1Y; share BOB 18000000; others BOB 0;
   user ALICE; own ALICE 1000000 L1Y; Send (b_change POOL MA AUTH ALICE MA MB BOB 1000000);
   share BOB 18000000; others BOB 1000000; total 25000000; share ALICE 6000000;
   Filling 0 1000000; distribute; claims ALICE; claims BOB; has ALICE 240000; has BOB 760000].
(** close_mining.rs 36-68: the mining is gone, the owner has its lamports *)
Definition close_success (t : Z) : list cmd :=
  [new_pool; user ALICE; See (fun L => a_lamports (acc L ALICE) =? 0); own ALICE 100 L3M;
   Send (b_close MA ALICE ALICE AUTH POOL); See (fun L => a_lamports (acc L MA) =? 0);
   See (fun L => 0 <? a_lamports (acc L ALICE))].
(** close_mining.rs 71-125 *)
Definition close_when_has_stake_from_others (t : Z) : list cmd :=
  [new_pool; user ALICE; user BOB; own BOB 3000000 L1Y; share BOB 18000000; others BOB 0;
   deposit ALICE 100 L3M BOB; RefusedWith 8 (b_close MB BOB BOB AUTH POOL)].
(** close_mining.rs 128-195 *)
Definition close_when_has_unclaimed_rewards (t : Z) : list cmd :=
  [new_pool; user ALICE; own ALICE 100 L3M; Filling 100 100; distribute; Advance (100 * 86400);
   RefusedWith 6 (b_close MA ALICE ALICE AUTH POOL)].
(** deposit_mining.rs 36-64 *)
Definition deposit_success (t : Z) : list cmd :=
  [new_pool; user ALICE; own ALICE 100 L3M; total 200; share ALICE 200].
(** deposit_mining.rs 67-95 *)
Definition deposit_success_with_flex (t : Z) : list cmd :=
  [new_pool; user ALICE; own ALICE 100 LFlex; total 100; share ALICE 100].
(** deposit_mining.rs 98-154 *)
Definition delegating_success (t : Z) : list cmd :=
  [new_pool; user ALICE; user BOB; own BOB 3000000 L1Y; share BOB 18000000; others BOB 0;
   deposit ALICE 100 LFlex BOB; share BOB 18000000; others BOB 100; total 18000200; share ALICE 100].
(** distribute_rewards.rs 43-98 *)
Definition distribute_happy_path (t : Z) : list cmd :=
  [new_pool; user ALICE; own ALICE 100 L3M; Filling 100 100; distribute; claims ALICE; has ALICE 1].
(** distribute_rewards.rs 101-143 *)
Definition unauthorised_rewards_distribution_fail (t : Z) : list cmd :=
  [new_pool; user ALICE; own ALICE 100 L3M; Filling 100 100; Refused (b_distribute POOL MALLORY)].
(** distribute_rewards.rs 146-200 *)
Definition happy_path_with_flex (t : Z) : list cmd :=
  [new_pool; user ALICE; own ALICE 100 LFlex; Filling 100 100; distribute; claims ALICE; has ALICE 1].
(** distribute_rewards.rs 203-260 *)
Definition happy_path_with_flex_continious_distribution (t : Z) : list cmd :=
  [new_pool; user ALICE; own ALICE 100 LFlex; Filling 100 100]
  ++ times 100 [distribute; Advance 86400] ++ [claims ALICE; has ALICE 100].
(** distribute_rewards.rs 263-341 *)
Definition happy_path_with_flex_continious_distribution_with_two_users (t : Z) : list cmd :=
  [new_pool; user ALICE; own ALICE 100 LFlex; user BOB; own BOB 100 LFlex; Filling 100 100]
  ++ times 100 [distribute; Advance 86400] ++ [claims ALICE; claims BOB; has ALICE 49; has BOB 49].
(** extend_stake.rs 38-99 *)
Definition restake_before_its_expired (t : Z) : list cmd :=
  [new_pool; user ALICE; own ALICE 100 L3M; Advance (10 * 86400); extend ALICE ALICE L3M L3M t 100 100;
   modifier ALICE (ends 90 t) 0; modifier ALICE (ends 90 (t + 10 * 86400)) 200; share ALICE 400].
(** extend_stake.rs 102-157 *)
Definition restake_for_another_period_after_old_is_expired (t : Z) : list cmd :=
  [new_pool; user ALICE; own ALICE 100 L3M; Advance (91 * 86400); extend ALICE ALICE LFlex L1Y t 100 100;
   modifier ALICE (ends 365 (t + 91 * 86400)) 1000; share ALICE 1200].
(** extend_stake.rs 160-221 *)
Definition just_prolong_without_adding_tokes (t : Z) : list cmd :=
  [new_pool; user ALICE; own ALICE 100 L3M; Advance (10 * 86400); extend ALICE ALICE L3M L3M t 100 0;
   modifier ALICE (ends 90 t) 0; modifier ALICE (ends 90 (t + 10 * 86400)) 100; share ALICE 200].
(** extend_stake.rs 224-280 *)
Definition restake_after_its_expired_with_no_additional_tokens (t : Z) : list cmd :=
  [new_pool; user ALICE; own ALICE 100 L3M; Advance (91 * 86400); extend ALICE ALICE LFlex L3M t 100 0;
   modifier ALICE (ends 90 (t + 91 * 86400)) 100; share ALICE 200].
(** extend_stake.rs 283-339 *)
Definition restake_in_expiration_day (t : Z) : list cmd :=
  [new_pool; user ALICE; own ALICE 100 L3M; Advance (90 * 86400); extend ALICE ALICE LFlex L3M t 100 0;
   modifier ALICE (ends 90 (t + 90 * 86400)) 100; share ALICE 200].
(** extend_stake.rs 342-445 *)
Definition prolong_with_delegate (t : Z) : list cmd :=
  [new_pool; user ALICE; user BOB; own BOB 3000000 L1Y; share BOB 18000000; others BOB 0;
   deposit ALICE 100 L3M BOB; share ALICE 200; others ALICE 0; share BOB 18000000; others BOB 100;
   total 18000300; Advance (10 * 86400); extend ALICE BOB L3M L3M t 100 0;
   modifier ALICE (ends 90 t) 0; modifier ALICE (ends 90 (t + 10 * 86400)) 100; share ALICE 200].
(** fill_vault.rs 20-53 *)
Definition fill_setup : list cmd := [new_pool; user ALICE; own ALICE 100 L3M].
(** fill_vault.rs 56-106; the source has 5000000000 here and 100 there *)
Definition fill_success (t : Z) : list cmd :=
  fill_setup ++ [Filling 100 100; See (fun L => amount_in (vault_of POOL) L =? 100);
                 See (fun L => amount_in SOURCE L =? 4999999900)].
(** fill_vault.rs 109-151 *)
Definition zero_amount_of_rewards (t : Z) : list cmd :=
  fill_setup ++ [RefusedWith 7 (fill_until 0 (t + 100 * 86400))].
(** fill_vault.rs 154-209 *)
Definition only_dao_can_top_up_pool (t : Z) : list cmd :=
  fill_setup ++ [user BOB; own BOB 100 L3M;
    Refused (b_fill_vault env0 POOL MINT (vault_of POOL) MALLORY SOURCE 100 (t + 100 * 86400))].
(** fill_vault.rs 212-300 *)
Definition rewards_top_up_extend (t : Z) : list cmd :=
  fill_setup ++ [user BOB; own BOB 50 L3M; Filling 100 100; Filling 150 50;
    See (fun L => in_pool (fun w => p_ends_at (wp w)) (-1) L =?
                  (t + 150 * 86400) - (t + 150 * 86400) mod 86400)].
(** fill_vault.rs 303-377 *)
Definition rewards_top_up_second_time_with_earlier_distribution_ends_at (t : Z) : list cmd :=
  fill_setup ++ [user BOB; own BOB 50 L3M; Filling 100 100; Refused (fill_until 50 (t + 50 * 86400))].
(** initialize_mining.rs 26-41 *)
Definition initialize_mining_success (t : Z) : list cmd :=
  [new_pool; user ALICE; See (fun L => in_mining (fun w => m_pool (wm w)) (-1) ALICE L =? POOL);
   See (fun L => in_mining (fun w => m_owner (wm w)) (-1) ALICE L =? ALICE)].
(** initialize_pool.rs 22-42 *)
Definition initialize_pool_success (t : Z) : list cmd :=
  [new_pool; See (fun L => in_pool (fun w => p_deposit_auth (wp w)) (-1) L =? AUTH);
   See (fun L => in_pool (fun w => p_fill_auth (wp w)) (-1) L =? FILLER);
   See (fun L => in_pool (fun w => p_mint (wp w)) (-1) L =? MINT)].
(** precision.rs 43-116 *)
Definition precision_distribution (t : Z) : list cmd :=
  [new_pool; user BOB; own BOB (333333316 * 1000000) LFlex; user ALICE; own ALICE (17 * 1000000) LFlex;
   Filling 30 (5000 * 1000000)]
  ++ times 30 [distribute; Advance 86400] ++ [claims ALICE; has ALICE 254].
(** withdraw_mining.rs 30-64 *)
Definition withdraw_success (t : Z) : list cmd :=
  [new_pool; user ALICE; own ALICE 100 L3M; withdraw ALICE 30; total 170; share ALICE 170].
(** withdraw_mining.rs 67-103 *)
Definition success_with_5kkk_after_expiring (t : Z) : list cmd :=
  [new_pool; user ALICE; own ALICE 5000000000 L3M; Advance (100 * 86400); withdraw ALICE 5000000000;
   total 0; share ALICE 0].
(** penalties/slash.rs 31-119 *)
Definition one_stake_for_a_date (t : Z) : list cmd :=
  let d := (t + 86400 * 30 * 6) - (t + 86400 * 30 * 6) mod 86400 in
  [new_pool; user ALICE; own ALICE 150 L6M; total 600; pool_modifier d 450; share ALICE 600;
   modifier ALICE d 450; slash ALICE 50 200 (Some d); total 400; pool_modifier d 300; share ALICE 400;
   modifier ALICE d 300].
(** penalties/slash.rs 122-210 *)
Definition another_one_stake_for_a_date (t : Z) : list cmd :=
  let d := (t + 86400 * 30 * 3) - (t + 86400 * 30 * 3) mod 86400 in
  [new_pool; user ALICE; own ALICE 10000 L3M; total 20000; pool_modifier d 10000; share ALICE 20000;
   modifier ALICE d 10000; slash ALICE 5000 10000 (Some d); total 10000; pool_modifier d 5000;
   share ALICE 10000; modifier ALICE d 5000].
(** penalties/slash.rs 213-334 *)
Definition multiple_stakes_for_a_date_but_one_slashed (t : Z) : list cmd :=
  let d := (t + 86400 * 365) - (t + 86400 * 365) mod 86400 in
  [new_pool; user ALICE; own ALICE 200 L1Y; Advance (86400 * 185); own ALICE 150 L6M;
   own ALICE 100 LFlex; total 1900; pool_modifier d 1450; share ALICE 1900; modifier ALICE d 1450;
   slash ALICE 50 200 (Some d); total 1700; pool_modifier d 1300; share ALICE 1700;
   modifier ALICE d 1300].

Definition all_tests : list (Z -> list cmd) :=
  [with_two_users; flex_vs_three_months; multiple_consequantial_distributions_for_two_users;
   rewards_after_distribution_are_unclaimable; switch_to_flex_is_correct; two_deposits_vs_one;
   claim_tokens_after_deposit_expiration; claim_after_withdraw_is_correct; with_two_users_with_flex;
   claim_with_delegate; change_delegate_to_the_same; change_delegate_then_claim; close_success;
   close_when_has_stake_from_others; close_when_has_unclaimed_rewards; deposit_success;
   deposit_success_with_flex; delegating_success; distribute_happy_path;
   unauthorised_rewards_distribution_fail; happy_path_with_flex;
   happy_path_with_flex_continious_distribution;
   happy_path_with_flex_continious_distribution_with_two_users; restake_before_its_expired;
   restake_for_another_period_after_old_is_expired; just_prolong_without_adding_tokes;
   restake_after_its_expired_with_no_additional_tokens; restake_in_expiration_day;
   prolong_with_delegate; fill_success; zero_amount_of_rewards; only_dao_can_top_up_pool;
   rewards_top_up_extend; rewards_top_up_second_time_with_earlier_distribution_ends_at;
   initialize_mining_success; initialize_pool_success; precision_distribution; withdraw_success;
   success_with_5kkk_after_expiring; one_stake_for_a_date; another_one_stake_for_a_date;
   multiple_stakes_for_a_date_but_one_slashed].

Definition outcomes (t : Z) : list bool := map (fun test => follow t fresh (test t)) all_tests.

(** started at 22:13:20 one day, one second after midnight, at noon and in the last second of a day *)
Example repository_tests_pass :
  forallb (fun t => forallb (fun b => b) (outcomes t))
    [1700000000; 19675 * 86400 + 1; 19675 * 86400 + 43200; 19675 * 86400 + 86399] = true.
Proof. vm_compute. reflexivity. Qed.
(** run in the very second of midnight, twelve of them would fail: a distribution is stored
    under the start of its day, and a claim in that same second only looks at earlier entries
    (find_max_value_limited_by_key is strict) *)
Example at_midnight :
  length (filter negb (outcomes (19675 * 86400))) = 12%nat /\
  follow (19675 * 86400) fresh (with_two_users 0) = false /\
  follow (19675 * 86400) fresh
    [new_pool; user ALICE; own ALICE 100 L3M; user BOB; own BOB 100 L3M; Filling 1 100; distribute;
     claims ALICE; has ALICE 0; Advance 1; claims ALICE; has ALICE 50] = true.
Proof. repeat split; vm_compute; reflexivity. Qed.
Example repository_tests_count : length (outcomes 1700000000) = 42%nat.
Proof. vm_compute. reflexivity. Qed.

(** state/mod.rs 89-101 *)
Example test_find_max_value_limited_by_key :
  let tree := [(1, 10); (2, 20); (3, 30); (4, 40); (5, 50)] in
  (find_lt 3 tree, find_lt 6 tree, find_lt 0 tree)
  = (Some 20, Some 50, None).
Proof. reflexivity. Qed.

(** a test with a wrong expectation does not pass *)
Example a_wrong_expectation :
  follow 1700000000 fresh
    [new_pool; user ALICE; own ALICE 100 LFlex; total 101] = false /\
  follow 1700000000 fresh
    [new_pool; user ALICE; Refused (b_deposit POOL MA AUTH MA 100 LFlex ALICE ALICE)] = false.
Proof. split; vm_compute; reflexivity. Qed.
