(** A concrete environment and a concrete history of the whole ledger, used as
    the non-trivial instance beside the theorems.  Nothing here transcribes /repo. *)
From stdpp Require Import gmap countable.
From Verif Require Import Base OMap State Spec Ledger Program Clients CodecLemmas WfLemmas History HistoryLemmas LedgerLemmas.

(** Derived addresses: an injective code of the seeds.  Derived minings are 1 mod 4,
    derived vaults 3 mod 4. *)
Definition code (a b c : Z) : Z := Zpos (encode (a, b, c)).
#[global] Arguments code : simpl never.
Definition env0 : env := {|
  program_id := 2; spl_token_id := 4; rent_id := 6;
  cpa_mining := fun o p b => Some (4 * code o p b + 1);
  find_mining := fun o p => (4 * code o p 255 + 1, 255);
  cpa_vault := fun p m b => Some (4 * code p m b + 3);
  find_vault := fun p m => (4 * code p m 255 + 3, 255);
  rent_min := fun n => 10 * Z.max 0 (128 + n) |}.

Lemma env0_ok : env_ok env0.
Proof.
  split; try discriminate; cbn.
  - intros o p k b [= <- <-]. split; [reflexivity|lia].
  - intros o p k b [= <- <-]. split; [reflexivity|lia].
  - intros n. lia.
Qed.

Lemma code_inj a b c a' b' c' : code a b c = code a' b' c' -> a = a' /\ b = b' /\ c = c'.
Proof.
  unfold code. intros [= H]. apply (inj encode) in H. injection H. auto.
Qed.

Lemma env0_inj : env_inj env0.
Proof.
  split; cbn [cpa_mining cpa_vault env0]; intros; rewrite <- H in H0; apply (inj Some) in H0.
  - symmetry in H0. apply code_inj. lia.
  - symmetry in H0. apply code_inj. lia.
  - lia.
Qed.

(** ** Accounts *)
Definition POOL : pubkey := 10.
Definition MINT : pubkey := 12.
Definition PAYER : pubkey := 14.
Definition AUTH : pubkey := 16.      (* deposit authority *)
Definition FILLER : pubkey := 18.
Definition DISTR : pubkey := 20.
Definition SOURCE : pubkey := 22.    (* token account of FILLER *)
Definition ALICE : pubkey := 30.
Definition BOB : pubkey := 32.
Definition CAROL : pubkey := 34.
Definition ALICE_T : pubkey := 40.   (* their token accounts *)
Definition BOB_T : pubkey := 42.
Definition CAROL_T : pubkey := 44.
Definition POOL2 : pubkey := 50.     (* a pool of MALLORY, who is all its authorities *)
Definition MALLORY : pubkey := 52.
Definition MALLORY_T : pubkey := 54.
Definition mining_of (who pool : pubkey) : pubkey := 4 * code who pool 255 + 1.
Definition vault_of (pool : pubkey) : pubkey := 4 * code pool MINT 255 + 3.

Definition wallet (n : Z) : account := Account n system_id DEmpty.
Definition tokens (who n : Z) : account := Account 2000 4 (DToken (Token MINT who n)).

Definition L0 : ledger :=
  <[POOL := Account 700000 2 (DPool zero_wpool)]> $ <[POOL2 := Account 700000 2 (DPool zero_wpool)]> $
  <[MINT := Account 1500 4 DMint]> $ <[PAYER := wallet 10000000]> $
  <[SOURCE := tokens FILLER 1000000]> $ <[ALICE_T := tokens ALICE 0]> $ <[BOB_T := tokens BOB 7]> $ <[CAROL_T := tokens CAROL 0]> $
  <[MALLORY_T := tokens MALLORY 1000]> $ <[MALLORY := wallet 10000000]> $ ∅.

Lemma genesis_insert e L k a :
  genesis e L -> account_bytes_ok a ->
  (a_owner a = program_id e -> all_zero (a_data a) = true) -> genesis e (<[k := a]> L).
Proof.
  intros H Ha Hz k'. destruct (Z.eq_dec k k') as [->|].
  - rewrite acc_insert. auto.
  - rewrite acc_insert_ne by assumption. apply H.
Qed.

Lemma genesis0 : genesis env0 L0.
Proof.
  unfold L0.
  repeat (apply genesis_insert;
    [|split; cbn; unfold is_u64, U64; first [exact I|lia]|intros; first [discriminate|reflexivity]]).
  intros k. unfold acc, ledger. rewrite lookup_empty.
  split; [split; cbn; unfold is_u64, U64; [lia|exact I]|discriminate].
Qed.

(** ** Playing a list of instructions *)
Definition key_b (k : Z) : bool := (0 <=? k) && (k <? 2 ^ 256).
Definition u64_b (k : Z) : bool := (0 <=? k) && (k <? U64).
Definition range_b (i : ix) : bool :=
  match i with
  | InitializePool f d => key_b f && key_b d
  | FillVault r x => u64_b r && u64_b x
  | InitializeMining o => key_b o
  | DepositMining a _ o d => u64_b a && (key_b o && key_b d)
  | WithdrawMining a o d => u64_b a && (key_b o && key_b d)
  | ExtendStake _ _ s b a o d => u64_b s && (u64_b b && (u64_b a && (key_b o && key_b d)))
  | ChangeDelegate a n => u64_b a && key_b n
  | Slash o n w dt =>
      key_b o && (u64_b n && (u64_b w && match dt with Some x => u64_b x | None => true end))
  | DecreaseRewards o n => key_b o && u64_b n
  | Claim | DistributeRewards | CloseMining => true
  end.

Lemma range_b_ok i : range_b i = true -> ix_in_range i.
Proof.
  destruct i; cbn [range_b ix_in_range]; unfold key_b, u64_b, is_key, is_u64; intros H;
    repeat match goal with
    | H : _ && _ = true |- _ => apply andb_true_iff in H as [? ?]
    | |- _ /\ _ => split
    | o : option Z |- _ => destruct o
    end; try exact I; lia.
Qed.

Definition call := (Z * (list meta * ix))%type.
Fixpoint play (now : Z) (L : ledger) (l : list call) : res (Z * ledger) :=
  match l with
  | [] => Ok (now, L)
  | (ts, (ms, i)) :: r =>
      check? (now <=? ts) && u64_b ts && range_b i else EInvalidArgument in
      let? (L', _) := exec env0 ts ms i L in
      play ts L' r
  end.

Definition events (l : list call) : list event := map (fun c => EvIx (fst c) (fst (snd c)) (snd (snd c))) l.

Lemma play_run l : forall now L now' L', play now L l = Ok (now', L') -> run env0 now L (events l) now' L'.
Proof.
  induction l as [|[ts [ms i]] r IH]; cbn [play events map fst snd]; intros now L now' L' H.
  - injection H as <- <-. constructor.
  - destruct ((now <=? ts) && u64_b ts && range_b i) eqn:E; [|discriminate].
    destruct (exec env0 ts ms i L) as [[L1 x]|] eqn:Ex; [|discriminate]. cbn in H.
    apply andb_true_iff in E as [E Er]. apply andb_true_iff in E as [E1 E2].
    unfold u64_b in E2. econstructor; [|apply IH; exact H].
    eapply step_ix; [lia|unfold is_u64; lia|apply range_b_ok; exact Er|exact Ex].
Qed.

(** noon of day n *)
Definition at_noon (n : Z) : Z := n * 86400 + 43200.

(** ** A history: pool, three stakers, a delegation, rewards, a claim *)
Definition setup : list call :=
  [(at_noon 100, b_initialize_pool env0 POOL MINT (vault_of POOL) PAYER AUTH FILLER DISTR);
   (at_noon 100, b_initialize_mining POOL (mining_of ALICE POOL) PAYER ALICE);
   (at_noon 100, b_initialize_mining POOL (mining_of BOB POOL) PAYER BOB);
   (at_noon 100, b_initialize_mining POOL (mining_of CAROL POOL) PAYER CAROL);
   (at_noon 100, b_deposit POOL (mining_of ALICE POOL) AUTH (mining_of ALICE POOL) 100 L3M ALICE ALICE);
   (at_noon 100, b_deposit POOL (mining_of BOB POOL) AUTH (mining_of ALICE POOL) 300 LFlex BOB ALICE);
   (at_noon 100, b_deposit POOL (mining_of CAROL POOL) AUTH (mining_of CAROL POOL) 40 L1Y CAROL CAROL);
   (at_noon 100, b_fill_vault env0 POOL MINT (vault_of POOL) FILLER SOURCE 50000 (at_noon 110))].
Definition later : list call :=
  [(at_noon 101, b_distribute POOL DISTR);
   (at_noon 102, b_distribute POOL DISTR);
   (at_noon 103, b_claim env0 POOL MINT (vault_of POOL) (mining_of ALICE POOL) ALICE AUTH ALICE_T);
   (at_noon 103, b_withdraw POOL (mining_of BOB POOL) AUTH (mining_of ALICE POOL) 50 BOB ALICE);
   (at_noon 104, b_distribute POOL DISTR)].

Definition ledger_after (l : list call) : ledger :=
  match play 0 L0 l with Ok (_, L) => L | Err _ => ∅ end.
Definition L1 : ledger := ledger_after setup.
Definition L2 : ledger := ledger_after (setup ++ later).

Lemma after_run l : (exists x, play 0 L0 l = Ok x) -> exists now, run env0 0 L0 (events l) now (ledger_after l).
Proof. intros [[now L] H]. exists now. unfold ledger_after. rewrite H. apply play_run. exact H. Qed.

Lemma L2_reached : run env0 0 L0 (events (setup ++ later)) (at_noon 104) L2.
Proof.
  assert (H : exists L, play 0 L0 (setup ++ later) = Ok (at_noon 104, L)).
  { vm_compute. eexists. reflexivity. }
  destruct H as [L H]. unfold L2, ledger_after. rewrite H. apply play_run. exact H.
Qed.
