(** Concrete calls that give a pool where a mining is expected.  Nothing here transcribes /repo. *)
From stdpp Require Import gmap.
From Verif Require Import Base OMap State Spec Ledger Program Clients CodecLemmas WfLemmas History HistoryLemmas
  LedgerLemmas LedgerSpec HistoryThms ReachThms Scenario Attacks Overlay OverlaySpec OverlayThms.

Definition pool_at (L : ledger) (k : pubkey) : wpool := match data_of L k with DPool w => w | _ => zero_wpool end.
(** some choice of what the model leaves open *)
Definition junk0 : junk := Junk (fun _ => Err EPanic) (fun w _ => (wp w, wp_diffs w)) (fun _ => zero_wmining).
Definition wide_runs (L : ledger) (c : call) : bool :=
  success (wide_exec junk0 env0 (fst c) (fst (snd c)) (snd (snd c)) L).
Definition wide_after (L : ledger) (c : call) : ledger :=
  match wide_exec junk0 env0 (fst c) (fst (snd c)) (snd (snd c)) L with Ok (L', _) => L' | Err _ => ∅ end.
Lemma wide_runs_ok L c : wide_runs L c = true ->
  exists r, wide_exec junk0 env0 (fst c) (fst (snd c)) (snd (snd c)) L = Ok (wide_after L c, r).
Proof.
  unfold wide_runs, wide_after. destruct (wide_exec _ _ _ _ _ _) as [[L' r]|]; [|discriminate]. intros _. exists r. reflexivity.
Qed.

Definition no_claim (i : ix) : bool := match i with Claim => false | _ => true end.
Lemma no_claim_none i j e ts ms L L' r : no_claim i = true -> open_position i <> None ->
  wide_exec j e ts ms i L = Ok (L', r) -> r = None.
Proof.
  intros Hn Ho H. apply wide_exec_inv in H as [H _].
  destruct i; try discriminate Hn; try (destruct Ho; reflexivity); cbn [wide_process] in H; apply no_ret_ok in H; apply H.
Qed.
(** such a call does the same whatever is left open *)
Lemma any_junk L c k p : open_position (snd (snd c)) = Some p -> account_at (fst (snd c)) p k ->
  owner_of L k = program_id env0 -> data_of L k = DPool (pool_at L k) -> no_claim (snd (snd c)) = true ->
  p_total (wp (pool_at L k)) mod 4294967296 = 0 -> wide_runs L c = true ->
  forall j, wide_exec j env0 (fst c) (fst (snd c)) (snd (snd c)) L = Ok (wide_after L c, None).
Proof.
  intros Hp Hk Ho Hd Hn Ht R j. apply wide_runs_ok in R as [r R].
  rewrite (nothing_open j junk0 _ _ _ _ _ k (pool_at L k)); [|exists p; split; assumption|split; assumption|exact Ht].
  rewrite R. f_equal. f_equal. eapply no_claim_none; [exact Hn| |exact R]. rewrite Hp. discriminate.
Qed.

(** ** Setting back the index of a pool with stakers.  MALLORY stakes in POOL, through its
    deposit authority as everybody does, so much that the total becomes 2^32, and gives POOL as
    the old delegate of a mining in their own pool. *)
Definition before_setback : list call :=
  setup ++ later ++
  [(at_noon 104, b_initialize_mining POOL (mining_of MALLORY POOL) MALLORY MALLORY);
   (at_noon 104, b_deposit POOL (mining_of MALLORY POOL) AUTH (mining_of MALLORY POOL) (4294967296 - 940) LFlex MALLORY MALLORY)]
  ++ own_pool 104 833333333333333333 1000.
Definition setback : call := strike 105 POOL 199979541734860883.
Definition then_distribute : call := (at_noon 106, b_distribute POOL DISTR).

Lemma before_setback_plays : plays before_setback (at_noon 104) = true.
Proof. vm_compute. reflexivity. Qed.

Lemma setback_witness :
  exists now L L', reached env0 now L /\ now <= fst setback /\
    (forall j, wide_exec j env0 (fst setback) (fst (snd setback)) (snd (snd setback)) L = Ok (L', None)) /\
    unsigned_by setback [ALICE; BOB; CAROL; AUTH; FILLER; DISTR; PAYER] = true /\
    p_index (wp (pool_at L POOL)) = 199979541734860883 /\ p_index (wp (pool_at L' POOL)) = 0 /\
    wp_ci (pool_at L' POOL) = wp_ci (pool_at L POOL) /\
    p_total (wp (pool_at L POOL)) = 4294967296 /\
    wide_runs L then_distribute = true /\ wide_runs L' then_distribute = true /\
    wide_runs (wide_after L then_distribute) (alice_claims 107) = true /\
    wide_runs (wide_after L' then_distribute) (alice_claims 107) = false /\
    wide_runs (wide_after L' then_distribute) (alice_claims 100000) = false.
Proof.
  exists (at_noon 104), (ledger_after before_setback), (wide_after (ledger_after before_setback) setback).
  split; [apply plays_reached; exact before_setback_plays|]. split; [vm_compute; discriminate|]. split.
  - apply (any_junk _ _ POOL 4%nat); vm_compute; reflexivity.
  - split; [vm_compute; reflexivity|]. split; [vm_compute; reflexivity|]. split; [vm_compute; reflexivity|].
    split; [vm_compute; reflexivity|]. split; [vm_compute; reflexivity|]. split; [vm_compute; reflexivity|].
    split; [vm_compute; reflexivity|]. split; [vm_compute; reflexivity|]. split; vm_compute; reflexivity.
Qed.

(** ** Changing the reward mint: as above, with another index in MALLORY's pool *)
Definition before_remint : list call :=
  [(at_noon 100, b_initialize_pool env0 POOL MINT (vault_of POOL) PAYER AUTH FILLER DISTR)] ++ own_pool 101 1 1.
Definition remint : call := strike 102 POOL 0.
Lemma before_remint_plays : plays before_remint (at_noon 101) = true.
Proof. vm_compute. reflexivity. Qed.
Lemma remint_witness :
  exists now L L', reached env0 now L /\ now <= fst remint /\
    (forall j, wide_exec j env0 (fst remint) (fst (snd remint)) (snd (snd remint)) L = Ok (L', None)) /\
    unsigned_by remint [AUTH; FILLER; DISTR; PAYER] = true /\
    p_mint (wp (pool_at L POOL)) = MINT /\ p_mint (wp (pool_at L' POOL)) = PRECISION.
Proof.
  exists (at_noon 101), (ledger_after before_remint), (wide_after (ledger_after before_remint) remint).
  split; [apply plays_reached; exact before_remint_plays|]. split; [vm_compute; discriminate|]. split.
  - apply (any_junk _ _ POOL 4%nat); vm_compute; reflexivity.
  - split; [vm_compute; reflexivity|]. split; vm_compute; reflexivity.
Qed.

(** ** Closing a pool: its distribute authority and MALLORY suffice, if nobody stakes in it, its
    index is zero and the last eight bytes of its mint are *)
Definition shut : call := (at_noon 102, b_close POOL DISTR MALLORY MALLORY POOL2).
Lemma shut_witness :
  exists now L L', reached env0 now L /\ now <= fst shut /\
    (forall j, wide_exec j env0 (fst shut) (fst (snd shut)) (snd (snd shut)) L = Ok (L', None)) /\
    unsigned_by shut [AUTH; FILLER; PAYER] = true /\
    p_type (wp (pool_at L POOL)) = TYPE_POOL /\ a_lamports (acc L POOL) = 700000 /\
    acc L' POOL = Account 0 (program_id env0) (DPool zero_wpool).
Proof.
  exists (at_noon 101), (ledger_after before_remint), (wide_after (ledger_after before_remint) shut).
  split; [apply plays_reached; exact before_remint_plays|]. split; [vm_compute; discriminate|]. split.
  - apply (any_junk _ _ POOL 0%nat); vm_compute; reflexivity.
  - split; [vm_compute; reflexivity|]. split; [vm_compute; reflexivity|]. split; vm_compute; reflexivity.
Qed.

(** ** Concrete cases for the theorems *)
(** without MALLORY's deposit in POOL the same call fails *)
Example protected_case :
  match pool_at (ledger_after (setup ++ later)) POOL with w => 50 < p_total (wp w) mod 4294967296 end /\
  wide_runs (ledger_after (setup ++ later ++ own_pool 104 833333333333333333 1000)) setback = false.
Proof. split; vm_compute; reflexivity. Qed.
(** the header of POOL as bytes *)
Example in_range_case : CodecLemmas.pool_in_range (wp (pool_at (ledger_after before_setback) POOL)).
Proof. vm_compute. repeat split; discriminate. Qed.
(** an ordinary history is plain: ALICE's claim in [later] *)
Example ordinary_case : gives (fst (snd (alice_claims 105))) Claim (mining_of ALICE POOL) /\
  ordinary (ledger_after (setup ++ later)) (mining_of ALICE POOL) /\
  runs (ledger_after (setup ++ later)) (alice_claims 105) = true.
Proof.
  split; [exists 3%nat; split; reflexivity|]. split; [left; eexists; vm_compute; reflexivity|vm_compute; reflexivity].
Qed.
(** POOL was never anybody's deposit authority *)
Example not_made_case : ~ made_authority (events (setup ++ later)) POOL.
Proof.
  intros (ts & ms & f & d & Hin & Ha). unfold events in Hin. apply in_map_iff in Hin as (c & Ec & Hin).
  repeat (destruct Hin as [<-|Hin]; [try discriminate Ec; cbn in Ec; injection Ec as <- <- <- <-; discriminate Ha|]).
  destruct Hin.
Qed.
(** a history with such a call, after which ALICE still claims from POOL *)
Example wide_history_case : exists L,
  wide_run env0 0 L0 (events before_setback ++ [EvIx (fst setback) (fst (snd setback)) (snd (snd setback))]) (fst setback) L /\
  wide_runs L (alice_claims 105) = true /\ POOL <> 0 /\
  ~ made_authority (events before_setback ++ [EvIx (fst setback) (fst (snd setback)) (snd (snd setback))]) POOL.
Proof.
  exists (wide_after (ledger_after before_setback) setback). split.
  - apply wide_app with (at_noon 104) (ledger_after before_setback).
    + apply run_is_wide, play_run, plays_ok. exact before_setback_plays.
    + econstructor; [|constructor]. apply (wide_ix env0 (at_noon 104) _ junk0 _ _ _ _ None).
      * vm_compute. discriminate.
      * split; vm_compute; [discriminate|reflexivity].
      * apply range_b_ok. vm_compute. reflexivity.
      * apply (any_junk _ _ POOL 4%nat); vm_compute; reflexivity.
  - split; [vm_compute; reflexivity|]. split; [discriminate|].
    intros (ts & ms & f & d & Hin & Ha). apply in_app_iff in Hin as [Hin|[E|[]]]; [|discriminate E].
    unfold events in Hin. apply in_map_iff in Hin as (c & Ec & Hin).
    repeat (destruct Hin as [<-|Hin]; [try discriminate Ec; cbn in Ec; injection Ec as <- <- <- <-; discriminate Ha|]).
    destruct Hin.
Qed.
(** an account that is neither pool nor mining as the old delegate: nothing can be taken from it *)
Definition with_other : ledger := <[999999 := Account 1 (program_id env0) (DOther 5000)]> (ledger_after before_remint).
Example other_account_case :
  gives (fst (snd (strike 102 999999 0))) (snd (snd (strike 102 999999 0))) 999999 /\
  (forall w, data_of with_other 999999 <> DPool w) /\ (forall m, data_of with_other 999999 <> DMining m) /\
  wide_runs with_other (strike 102 999999 0) = true /\ wide_runs with_other (strike 102 999999 1) = false.
Proof.
  split; [exists 4%nat; split; reflexivity|]. split; [intros w H; vm_compute in H; discriminate H|].
  split; [intros w H; vm_compute in H; discriminate H|]. split; vm_compute; reflexivity.
Qed.
