(** C61: a call made in two parts. *)
From stdpp Require Import gmap.
From Verif Require Import Base OMap State Spec EffectSpec Ledger Program Clients LedgerLemmas LedgerSpec CodecLemmas
  History HistoryThms ReachThms Scenario Attacks ClientSpec EffectExamples LedgerOrderly CommuteExamples SplitSpec Split SplitThms.

(** two parts that go through reach what the whole call reaches *)
Theorem C61_join : forall e, env_ok e -> forall now ts ms i j k L L1 L2 r1 r2,
  reached e now L -> now <= ts -> ix_in_range i -> ix_in_range j -> in_two i j k ->
  delegates_up_to_date e ts ms k L -> total_covers e ms k L -> outside_source ms k ->
  exec e ts ms i L = Ok (L1, r1) -> exec e ts ms j L1 = Ok (L2, r2) -> exec e ts ms k L = Ok (L2, r2).
Proof. exact join. Qed.
Print Assumptions C61_join.

(** a call that goes through can be made in two parts instead *)
Theorem C61_split : forall e, env_ok e -> forall now ts ms i j k L L2 r,
  reached e now L -> now <= ts -> ix_in_range i -> ix_in_range j -> ix_in_range k -> in_two i j k ->
  sound_part i -> sound_part j -> flags_suffice k ms ->
  delegates_up_to_date e ts ms k L -> outside_source ms k -> stakes_fit e ms L -> stakes_fit e ms L2 ->
  exec e ts ms k L = Ok (L2, r) ->
  exists L1 r1, exec e ts ms i L = Ok (L1, r1) /\ exec e ts ms j L1 = Ok (L2, r).
Proof. exact split. Qed.
Print Assumptions C61_split.

(** ** Concrete calls *)
Definition sched_b (s t : sched) : bool := if list_eq_dec (prod_eq_dec (EqDecision0 := Z.eq_dec) (EqDecision1 := Z.eq_dec)) s t then true else false.
Definition up_b (ts : Z) (ci : sched) (m : wmining) : bool :=
  (m_index (wm m) =? visible ts ci) && sched_b (after (day_start ts) (wm_diffs m)) (wm_diffs m).
Definition delegates_b (c : call) (L : ledger) : bool :=
  forallb (fun n =>
    (key_at (fst (snd c)) n =? key_at (fst (snd c)) 1) ||
    match data_of L (key_at (fst (snd c)) 0), data_of L (key_at (fst (snd c)) n) with
    | DPool w, DMining x => up_b (fst c) (wp_ci w) x
    | _, _ => true
    end) (delegate_positions (snd (snd c))).
Lemma delegates_b_ok c L : delegates_b c L = true -> delegates_up_to_date env0 (fst c) (fst (snd c)) (snd (snd c)) L.
Proof.
  intros H n P k D w x Hn AP Ak AD N [_ Hw] [_ Hx]. unfold delegates_b in H. rewrite forallb_forall in H. specialize (H n Hn).
  apply key_at_ok in AP, Ak, AD. rewrite AP, Ak, AD, Hw, Hx in H. destruct (Z.eqb_spec D k); [contradiction|]. cbn [orb] in H.
  apply andb_true_iff in H as [H1 H2]. unfold sched_b in H2. destruct (list_eq_dec _ _ _); [|discriminate]. split; [lia|assumption].
Qed.
Definition fits_b (c : call) (L : ledger) : bool :=
  forallb (fun m => match data_of L (mt_key m) with DMining x => m_share (wm x) + m_sfo (wm x) <? U64 | _ => true end) (fst (snd c)).
Lemma fits_b_ok c L : fits_b c L = true -> stakes_fit env0 (fst (snd c)) L.
Proof.
  intros H n k m A [_ D]. unfold fits_b in H. rewrite forallb_forall in H. unfold account_at in A. apply nth_error_In in A.
  apply in_map_iff in A as (x & E & I). specialize (H x I). rewrite E, D in H. unfold U64 in H. lia.
Qed.
Definition total_b (c : call) (L : ledger) : bool :=
  match snd (snd c), data_of L (key_at (fst (snd c)) 0) with ChangeDelegate a _, DPool w => a <=? p_total (wp w) | _, _ => true end.
Lemma total_b_ok c L : total_b c L = true -> total_covers env0 (fst (snd c)) (snd (snd c)) L.
Proof.
  unfold total_b, total_covers. destruct (snd (snd c)); try (intros; exact I).
  intros H P w A [_ D]. apply key_at_ok in A. rewrite A, D in H. lia.
Qed.
Definition source_b (c : call) : bool :=
  match snd (snd c) with FillVault _ _ => negb (key_at (fst (snd c)) 2 =? key_at (fst (snd c)) 4) | _ => true end.
Lemma source_b_ok c : source_b c = true -> outside_source (fst (snd c)) (snd (snd c)).
Proof.
  unfold source_b, outside_source. destruct (snd (snd c)); try (intros; exact I).
  intros H V S A B. apply key_at_ok in A, B. rewrite A, B in H. destruct (Z.eqb_spec V S); [discriminate|congruence].
Qed.

(** ALICE claimed on day 105 *)
Definition fresh : list call :=
  setup ++ later ++ [(at_noon 105, b_claim env0 POOL MINT (vault_of POOL) (mining_of ALICE POOL) ALICE AUTH ALICE_T)].
Definition LF : ledger := ledger_after fresh.
Definition bob_puts n : call := (at_noon 105, b_deposit POOL (mining_of BOB POOL) AUTH (mining_of ALICE POOL) n L6M BOB ALICE).
Definition bob_takes_out n : call := (at_noon 105, b_withdraw POOL (mining_of BOB POOL) AUTH (mining_of ALICE POOL) n BOB ALICE).
Definition bob_moves n : call :=
  (at_noon 105, b_change POOL (mining_of BOB POOL) AUTH BOB (mining_of ALICE POOL) (mining_of BOB POOL) BOB n).
Definition carol_slashed_locked n w : call :=
  (at_noon 105, b_slash AUTH POOL (mining_of CAROL POOL) CAROL n w (Some (465 * 86400))).
Definition bob_less n : call := (at_noon 105, b_decrease AUTH POOL (mining_of BOB POOL) BOB n).
Definition fill n : call := (at_noon 105, b_fill_vault env0 POOL MINT (vault_of POOL) FILLER SOURCE n (at_noon 120)).
Definition wholes : list call := [fill 500; bob_puts 60; bob_takes_out 50; bob_moves 70; carol_slashed_locked 9 40; bob_less 100].

Example C61_example :
  reached env0 (at_noon 105) LF /\
  Forall (fun c => runs LF c = true /\
                   delegates_up_to_date env0 (at_noon 105) (fst (snd c)) (snd (snd c)) LF /\
                   total_covers env0 (fst (snd c)) (snd (snd c)) LF /\ stakes_fit env0 (fst (snd c)) LF /\
                   outside_source (fst (snd c)) (snd (snd c))) wholes.
Proof.
  split; [apply plays_reached; vm_compute; reflexivity|].
  assert (forallb (fun c => runs LF c && ((fst c =? at_noon 105) && (delegates_b c LF && (total_b c LF && (fits_b c LF && source_b c))))) wholes = true)
    by (vm_compute; reflexivity).
  apply List.Forall_forall. intros c I. rewrite forallb_forall in H. specialize (H c I). rewrite !andb_true_iff in H.
  destruct H as (H1 & H2 & H3 & H4 & H5 & H6). assert (H2' : at_noon 105 = fst c) by lia. rewrite H2'.
  split; [assumption|]. split; [exact (delegates_b_ok _ _ H3)|]. split; [exact (total_b_ok _ _ H4)|].
  split; [exact (fits_b_ok _ _ H5)|exact (source_b_ok _ H6)].
Qed.
(** everything that the calls above can change *)
Definition seen (l : list call) (L : ledger) :=
  option_map (fun L' => (data_of L' POOL, map (fun w => data_of L' (mining_of w POOL)) [ALICE; BOB; CAROL],
                         map (tokens_of L') [vault_of POOL; SOURCE])) (calls l L).
Example C61_example_calls :
  seen [fill 123; fill 377] LF = seen [fill 500] LF /\
  seen [bob_puts 25; bob_puts 35] LF = seen [bob_puts 60] LF /\
  seen [bob_takes_out 1; bob_takes_out 49] LF = seen [bob_takes_out 50] LF /\
  seen [bob_moves 30; bob_moves 40] LF = seen [bob_moves 70] LF /\
  seen [carol_slashed_locked 4 10; carol_slashed_locked 5 30] LF = seen [carol_slashed_locked 9 40] LF /\
  seen [bob_less 37; bob_less 63] LF = seen [bob_less 100] LF.
Proof. vm_compute. auto 10. Qed.

(** ** Without the conditions the parts and the whole differ *)
(** a delegate that missed distributions is paid for the stake that arrives: for the part
    that arrives first *)
Theorem C61_stale_refuted : exists now ts ms i j k L L1 L2 L2' r1 r2 r2' D,
  reached env0 now L /\ now <= ts /\ ix_in_range i /\ ix_in_range j /\ in_two i j k /\
  exec env0 ts ms i L = Ok (L1, r1) /\ exec env0 ts ms j L1 = Ok (L2, r2) /\ exec env0 ts ms k L = Ok (L2', r2') /\
  unclaimed_of L2 D < unclaimed_of L2' D.
Proof.
  pose (ms := fst (snd (bob_puts 0))).
  pose (f := fun (r : res (ledger * option Z)) => match r with Ok (L, _) => L | Err _ => Scenario.L2 end).
  pose (g := fun n L => exec env0 (at_noon 105) ms (DepositMining n L6M BOB ALICE) L).
  assert (G : forall n L, success (g n L) = true -> exists r, g n L = Ok (f (g n L), r)).
  { intros n L. destruct (g n L) as [[L' r]|]; [|discriminate]. intros _. exists r. reflexivity. }
  assert (A : success (g 25 Scenario.L2) = true) by (vm_compute; reflexivity).
  assert (B : success (g 35 (f (g 25 Scenario.L2))) = true) by (vm_compute; reflexivity).
  assert (C : success (g 60 Scenario.L2) = true) by (vm_compute; reflexivity).
  destruct (G _ _ A) as [r1 X1], (G _ _ B) as [r2 X2], (G _ _ C) as [r3 X3].
  exists (at_noon 104), (at_noon 105), ms, (DepositMining 25 L6M BOB ALICE), (DepositMining 35 L6M BOB ALICE),
    (DepositMining 60 L6M BOB ALICE), Scenario.L2, (f (g 25 Scenario.L2)), (f (g 35 (f (g 25 Scenario.L2)))), (f (g 60 Scenario.L2)), r1, r2, r3, (mining_of ALICE POOL).
  split; [exists L0, (events (setup ++ later)); split; [exact genesis0|exact L2_reached]|].
  split; [unfold at_noon; lia|]. split; [apply range_b_ok; vm_compute; reflexivity|]. split; [apply range_b_ok; vm_compute; reflexivity|].
  split; [exact (two_deposits 25 35 L6M BOB ALICE)|]. split; [exact X1|]. split; [exact X2|]. split; [exact X3|].
  vm_compute. reflexivity.
Qed.
Print Assumptions C61_stale_refuted.

(** a vault filled from itself in two parts *)
Theorem C61_self_fill_refuted : exists now ts ms i j k L L1 L2 r1 r2 x,
  reached env0 now L /\ now <= ts /\ ix_in_range i /\ ix_in_range j /\ ix_in_range k /\ in_two i j k /\
  exec env0 ts ms i L = Ok (L1, r1) /\ exec env0 ts ms j L1 = Ok (L2, r2) /\ exec env0 ts ms k L = Err x.
Proof.
  pose (LS := ledger_after (own_pool 104 2 30)).
  pose (ms := fst (b_fill_vault env0 POOL2 MINT (vault_of POOL2) MALLORY (vault_of POOL2) 0 0)).
  pose (f := fun (r : res (ledger * option Z)) => match r with Ok (L, _) => L | Err _ => LS end).
  pose (g := fun n L => exec env0 (at_noon 104) ms (FillVault n (at_noon 110)) L).
  assert (G : forall n L, success (g n L) = true -> exists r, g n L = Ok (f (g n L), r)).
  { intros n L. destruct (g n L) as [[L' r]|]; [|discriminate]. intros _. exists r. reflexivity. }
  assert (A : success (g 20 LS) = true) by (vm_compute; reflexivity).
  assert (B : success (g 20 (f (g 20 LS))) = true) by (vm_compute; reflexivity).
  assert (C : success (g 40 LS) = false) by (vm_compute; reflexivity).
  destruct (G _ _ A) as [r1 X1], (G _ _ B) as [r2 X2]. destruct (g 40 LS) as [|x] eqn:X3; [discriminate C|].
  exists (at_noon 104), (at_noon 104), ms, (FillVault 20 (at_noon 110)), (FillVault 20 (at_noon 110)), (FillVault 40 (at_noon 110)),
    LS, (f (g 20 LS)), (f (g 20 (f (g 20 LS)))), r1, r2, x.
  split; [apply plays_reached; vm_compute; reflexivity|]. split; [lia|].
  do 3 (split; [apply range_b_ok; vm_compute; reflexivity|]).
  split; [refine (two_fills 20 20 _ _ _); discriminate|]. split; [exact X1|]. split; [exact X2|exact X3].
Qed.
Print Assumptions C61_self_fill_refuted.

(** stake taken in parts from a mining of another pool: more than the pool's total in all *)
Definition two_pools : list call :=
  before_snatch ++
  [(at_noon 105, b_initialize_mining POOL2 (mining_of BOB POOL2) MALLORY BOB);
   (at_noon 105, b_deposit POOL2 (mining_of BOB POOL2) MALLORY (mining_of BOB POOL2) 0 LFlex BOB BOB);
   strike 105 (mining_of ALICE POOL) 0].
Definition drain n : call :=
  (at_noon 105, b_change POOL2 (mining_of MALLORY POOL2) MALLORY MALLORY (mining_of ALICE POOL) (mining_of BOB POOL2) BOB n).
Theorem C61_total_refuted : exists now ts ms i j k L L1 L2 r1 r2 x,
  reached env0 now L /\ now <= ts /\ ix_in_range i /\ ix_in_range j /\ ix_in_range k /\ in_two i j k /\
  delegates_up_to_date env0 ts ms k L /\ stakes_fit env0 ms L /\
  exec env0 ts ms i L = Ok (L1, r1) /\ exec env0 ts ms j L1 = Ok (L2, r2) /\ exec env0 ts ms k L = Err x.
Proof.
  pose (LS := ledger_after two_pools). pose (ms := fst (snd (drain 0))).
  pose (f := fun (r : res (ledger * option Z)) => match r with Ok (L, _) => L | Err _ => LS end).
  pose (g := fun n L => exec env0 (at_noon 105) ms (ChangeDelegate n BOB) L).
  assert (G : forall n L, success (g n L) = true -> exists r, g n L = Ok (f (g n L), r)).
  { intros n L. destruct (g n L) as [[L' r]|]; [|discriminate]. intros _. exists r. reflexivity. }
  assert (A : success (g 2 LS) = true) by (vm_compute; reflexivity).
  assert (B : success (g 2 (f (g 2 LS))) = true) by (vm_compute; reflexivity).
  assert (C : success (g 4 LS) = false) by (vm_compute; reflexivity).
  destruct (G _ _ A) as [r1 X1], (G _ _ B) as [r2 X2]. destruct (g 4 LS) as [|x] eqn:X3; [discriminate C|].
  exists (at_noon 105), (at_noon 105), ms, (ChangeDelegate 2 BOB), (ChangeDelegate 2 BOB), (ChangeDelegate 4 BOB),
    LS, (f (g 2 LS)), (f (g 2 (f (g 2 LS)))), r1, r2, x.
  split; [apply plays_reached; vm_compute; reflexivity|]. split; [lia|].
  do 3 (split; [apply range_b_ok; vm_compute; reflexivity|]).
  split; [exact (two_changes 2 2 BOB)|].
  split; [apply (delegates_b_ok (drain 4)); vm_compute; reflexivity|]. split; [apply (fits_b_ok (drain 4)); vm_compute; reflexivity|].
  split; [exact X1|]. split; [exact X2|exact X3].
Qed.
Print Assumptions C61_total_refuted.
