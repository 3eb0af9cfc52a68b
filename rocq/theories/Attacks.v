(** Concrete histories showing that the holes in pool isolation are real.  A stranger,
    MALLORY, makes a pool of their own.  Nothing here transcribes /repo. *)
From stdpp Require Import gmap.
From Verif Require Import Base OMap State Spec Ledger Program Clients CodecLemmas History HistoryLemmas
  LedgerLemmas LedgerSpec HistoryThms ReachThms Scenario.

Definition success {A} (r : res A) : bool := match r with Ok _ => true | Err _ => false end.
Definition runs (L : ledger) (c : call) : bool := success (exec env0 (fst c) (fst (snd c)) (snd (snd c)) L).
Definition tokens_of (L : ledger) (k : pubkey) : Z :=
  match data_of L k with DToken t => t_amount t | _ => 0 end.
Definition unclaimed_of (L : ledger) (k : pubkey) : Z :=
  match data_of L k with DMining m => m_unclaimed (wm m) | _ => 0 end.
Definition delegated_to (L : ledger) (k : pubkey) : Z :=
  match data_of L k with DMining m => m_sfo (wm m) | _ => 0 end.

(** signed by somebody other than the given people *)
Definition unsigned_by (c : call) (who : list pubkey) : bool :=
  forallb (fun k => negb (is_signer (fst (snd c)) k)) who.

(** the list plays to the end, at the given time *)
Definition plays (l : list call) (now : Z) : bool :=
  match play 0 L0 l with Ok (n, _) => n =? now | Err _ => false end.

Lemma plays_ok l now : plays l now = true -> play 0 L0 l = Ok (now, ledger_after l).
Proof.
  unfold plays, ledger_after. destruct (play 0 L0 l) as [[n L]|]; [|discriminate].
  intros H. apply Z.eqb_eq in H. subst. reflexivity.
Qed.
Lemma plays_reached l now : plays l now = true -> reached env0 now (ledger_after l).
Proof.
  intros H. apply plays_ok in H. exists L0, (events l). split; [exact genesis0|].
  apply play_run. exact H.
Qed.
Lemma play_app a : forall b now L, play now L (a ++ b) = let? (n, L1) := play now L a in play n L1 b.
Proof.
  induction a as [|[ts [ms i]] a IH]; intros b now L; cbn [play app]; [reflexivity|].
  destruct (ensure _ _); [|reflexivity]. cbn. destruct (exec env0 ts ms i L) as [[L1 x]|]; [|reflexivity].
  cbn. apply IH.
Qed.
Lemma plays_then a b now now' :
  plays a now = true -> plays (a ++ b) now' = true -> play now (ledger_after a) b = Ok (now', ledger_after (a ++ b)).
Proof.
  intros Ha Hb. apply plays_ok in Ha, Hb. rewrite play_app, Ha in Hb. cbn in Hb. exact Hb.
Qed.

(** ** Freezing a stranger's claim *)
Definition own_pool (day stake fill : Z) : list call :=
  [(at_noon day, b_initialize_pool env0 POOL2 MINT (vault_of POOL2) MALLORY MALLORY MALLORY MALLORY);
   (at_noon day, b_initialize_mining POOL2 (mining_of MALLORY POOL2) MALLORY MALLORY);
   (at_noon day, b_deposit POOL2 (mining_of MALLORY POOL2) MALLORY (mining_of MALLORY POOL2) stake LFlex MALLORY MALLORY);
   (at_noon day, b_fill_vault env0 POOL2 MINT (vault_of POOL2) MALLORY MALLORY_T fill (at_noon day));
   (at_noon day, b_distribute POOL2 MALLORY)].
(** MALLORY names [victim] as the old delegate of their own mining *)
Definition strike (day : Z) (victim : pubkey) (amount : Z) : call :=
  (at_noon day, b_change POOL2 (mining_of MALLORY POOL2) MALLORY MALLORY victim (mining_of MALLORY POOL2) MALLORY amount).

Definition before_freeze : list call := setup ++ later ++ own_pool 104 1 1000.
Definition freeze : call := strike 105 (mining_of ALICE POOL) 0.
Definition alice_claims (day : Z) : call :=
  (at_noon day, b_claim env0 POOL MINT (vault_of POOL) (mining_of ALICE POOL) ALICE AUTH ALICE_T).

Lemma freeze_witness :
  exists now L now' L', reached env0 now L /\ reached env0 now' L' /\
    play now L [freeze] = Ok (now', L') /\ unsigned_by freeze [ALICE; AUTH; FILLER; DISTR; PAYER] = true /\
    runs L (alice_claims 106) = true /\ runs L' (alice_claims 106) = false /\
    runs L' (alice_claims 100000) = false.
Proof.
  exists (at_noon 104), (ledger_after before_freeze), (at_noon 105), (ledger_after (before_freeze ++ [freeze])).
  assert (A : plays before_freeze (at_noon 104) = true) by (vm_compute; reflexivity).
  assert (B : plays (before_freeze ++ [freeze]) (at_noon 105) = true) by (vm_compute; reflexivity).
  split; [apply plays_reached; exact A|]. split; [apply plays_reached; exact B|].
  split; [apply plays_then; assumption|]. vm_compute. auto.
Qed.

(** ** Freezing a stranger's withdrawal: the delegated-in stake of ALICE is taken away,
    so that BOB, who delegated it, cannot withdraw *)
Definition before_snatch : list call := setup ++ later ++ own_pool 104 2 30.
Definition snatch : call := strike 105 (mining_of ALICE POOL) 1.
Definition bob_withdraws : call :=
  (at_noon 110, b_withdraw POOL (mining_of BOB POOL) AUTH (mining_of ALICE POOL) 250 BOB ALICE).
Lemma snatch_witness :
  exists now L now' L', reached env0 now L /\ reached env0 now' L' /\
    play now L [snatch] = Ok (now', L') /\ unsigned_by snatch [ALICE; BOB; AUTH; FILLER; DISTR; PAYER] = true /\
    delegated_to L (mining_of ALICE POOL) = 250 /\ delegated_to L' (mining_of ALICE POOL) = 249 /\
    runs L bob_withdraws = true /\ runs L' bob_withdraws = false.
Proof.
  exists (at_noon 104), (ledger_after before_snatch), (at_noon 105), (ledger_after (before_snatch ++ [snatch])).
  assert (A : plays before_snatch (at_noon 104) = true) by (vm_compute; reflexivity).
  assert (B : plays (before_snatch ++ [snatch]) (at_noon 105) = true) by (vm_compute; reflexivity).
  split; [apply plays_reached; exact A|]. split; [apply plays_reached; exact B|].
  split; [apply plays_then; assumption|]. vm_compute. auto.
Qed.

(** ** Taking more than one's share: MALLORY's stake in POOL lost its bonus on day 190.
    POOL pays only after that day.  MALLORY has their mining refreshed with the history of
    POOL2, which has the same index but reached it before day 190, so the bonus counts. *)
Definition before_theft : list call :=
  [(at_noon 100, b_initialize_pool env0 POOL MINT (vault_of POOL) PAYER AUTH FILLER DISTR);
   (at_noon 100, b_initialize_mining POOL (mining_of MALLORY POOL) PAYER MALLORY);
   (at_noon 100, b_initialize_mining POOL (mining_of BOB POOL) PAYER BOB);
   (at_noon 100, b_deposit POOL (mining_of MALLORY POOL) AUTH (mining_of MALLORY POOL) 100 L3M MALLORY MALLORY);
   (at_noon 100, b_deposit POOL (mining_of BOB POOL) AUTH (mining_of BOB POOL) 100 LFlex BOB BOB)]
  ++ own_pool 101 1 10 ++
  [(at_noon 195, b_fill_vault env0 POOL MINT (vault_of POOL) FILLER SOURCE 2000 (at_noon 195));
   (at_noon 195, b_distribute POOL DISTR)].
Definition theft : list call :=
  [strike 200 (mining_of MALLORY POOL) 0;
   (at_noon 200, b_claim env0 POOL MINT (vault_of POOL) (mining_of MALLORY POOL) MALLORY AUTH MALLORY_T)].
Definition honest : list call :=
  [(at_noon 200, b_claim env0 POOL MINT (vault_of POOL) (mining_of MALLORY POOL) MALLORY AUTH MALLORY_T)].
Definition bob_claims : call :=
  (at_noon 200, b_claim env0 POOL MINT (vault_of POOL) (mining_of BOB POOL) BOB AUTH BOB_T).

Lemma theft_witness :
  exists now L L1 L2, reached env0 now L /\
    play now L honest = Ok (at_noon 200, L1) /\ play now L theft = Ok (at_noon 200, L2) /\
    reached env0 (at_noon 200) L2 /\
    tokens_of L (vault_of POOL) = 2000 /\
    tokens_of L1 MALLORY_T = tokens_of L MALLORY_T + 1000 /\ runs L1 bob_claims = true /\
    tokens_of L2 MALLORY_T = tokens_of L MALLORY_T + 2000 /\ runs L2 bob_claims = false /\
    tokens_of L2 (vault_of POOL) = 0.
Proof.
  exists (at_noon 195), (ledger_after before_theft), (ledger_after (before_theft ++ honest)), (ledger_after (before_theft ++ theft)).
  assert (A : plays before_theft (at_noon 195) = true) by (vm_compute; reflexivity).
  assert (B : plays (before_theft ++ honest) (at_noon 200) = true) by (vm_compute; reflexivity).
  assert (C : plays (before_theft ++ theft) (at_noon 200) = true) by (vm_compute; reflexivity).
  split; [apply plays_reached; exact A|]. split; [apply plays_then; assumption|].
  split; [apply plays_then; assumption|]. split; [apply plays_reached; exact C|].
  vm_compute. auto 10.
Qed.

(** ** A close with another pool's authority: MALLORY owns a mining with stake in POOL whose
    rewards are all claimed; no authority of POOL agrees to the close. *)
Definition before_close : list call :=
  setup ++
  [(at_noon 100, b_initialize_pool env0 POOL2 MINT (vault_of POOL2) MALLORY MALLORY MALLORY MALLORY);
   (at_noon 100, b_initialize_mining POOL (mining_of MALLORY POOL) MALLORY MALLORY);
   (at_noon 100, b_deposit POOL (mining_of MALLORY POOL) AUTH (mining_of MALLORY POOL) 100 LFlex MALLORY MALLORY)].
Definition foreign_close : call :=
  (at_noon 100, b_close (mining_of MALLORY POOL) MALLORY MALLORY MALLORY POOL2).
Lemma close_witness :
  exists now L now' L', reached env0 now L /\ play now L [foreign_close] = Ok (now', L') /\
    unsigned_by foreign_close [AUTH; FILLER; DISTR; PAYER] = true /\
    match data_of L (mining_of MALLORY POOL) with DMining m => m_pool (wm m) = POOL /\ m_share (wm m) = 100 | _ => False end /\
    acc L' (mining_of MALLORY POOL) = Account 0 (program_id env0) (DMining zero_wmining).
Proof.
  exists (at_noon 100), (ledger_after before_close), (at_noon 100), (ledger_after (before_close ++ [foreign_close])).
  assert (A : plays before_close (at_noon 100) = true) by (vm_compute; reflexivity).
  assert (B : plays (before_close ++ [foreign_close]) (at_noon 100) = true) by (vm_compute; reflexivity).
  split; [apply plays_reached; exact A|].
  split; [apply plays_then; assumption|]. vm_compute. auto.
Qed.
