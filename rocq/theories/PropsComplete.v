(** C68: the description of the instructions in CompleteSpec.v and SuccessSpec.v is complete. *)
From stdpp Require Import gmap.
From Verif Require Import Base OMap State Spec EffectSpec Ledger Program Clients ClientSpec ClientLemmas LedgerLemmas LedgerSpec
  CodecLemmas History HistoryLemmas HistoryThms ReachThms Scenario Attacks EffectExamples SuccessSpec SuccessThms CompleteSpec Complete.

(** ** C68 *)
Theorem C68_exactly : forall e, env_ok e -> forall now ts ms i L L' r,
  reached e now L -> now <= ts -> ix_in_range i ->
  ((exists L1, exec e ts ms i L = Ok (L1, r) /\ forall q, acc L1 q = acc L' q) <->
   allowed e ts ms i L /\ effect e ts ms i L L' r /\
   (forall k, hands_on e ts ms i L k -> writable ms k) /\
   (forall k, In k (map mt_key ms) -> acc L' k <> acc L k -> writable ms k)).
Proof. exact complete. Qed.
Print Assumptions C68_exactly.

Theorem C68_exactly_writable : forall e, env_ok e -> forall now ts ms i L L' r,
  reached e now L -> now <= ts -> ix_in_range i ->
  (forall n k, In n (may_change i) -> account_at ms n k -> writable ms k) ->
  ((exists L1, exec e ts ms i L = Ok (L1, r) /\ forall q, acc L1 q = acc L' q) <->
   allowed e ts ms i L /\ effect e ts ms i L L' r).
Proof. exact complete_writable. Qed.
Print Assumptions C68_exactly_writable.

Theorem C68_effect : forall e, env_ok e -> forall now ts ms i L L' r,
  reached e now L -> now <= ts -> ix_in_range i -> exec e ts ms i L = Ok (L', r) -> effect e ts ms i L L' r.
Proof. exact exec_effect. Qed.
Print Assumptions C68_effect.

Theorem C68_one_effect : forall e, env_ok e -> forall now ts ms i L A B ra rb,
  reached e now L -> effect e ts ms i L A ra -> effect e ts ms i L B rb -> ra = rb /\ forall q, acc A q = acc B q.
Proof. exact effect_fun. Qed.
Print Assumptions C68_one_effect.

Theorem C68_histories : forall e, env_ok e -> forall now L, described e now L <-> reached e now L.
Proof. exact described_iff. Qed.
Print Assumptions C68_histories.

(** one call of every kind succeeds after the same history, and the theorems apply to them *)
Definition each_kind : list call :=
  map (pair (at_noon 105))
  [b_initialize_pool env0 POOL2 MINT (vault_of POOL2) PAYER MALLORY MALLORY MALLORY;
   b_fill_vault env0 POOL MINT (vault_of POOL) FILLER SOURCE 777 (at_noon 111);
   b_initialize_mining POOL (mining_of MALLORY POOL) PAYER MALLORY;
   b_deposit POOL (mining_of BOB POOL) AUTH (mining_of ALICE POOL) 7 L6M BOB ALICE;
   b_withdraw POOL (mining_of BOB POOL) AUTH (mining_of ALICE POOL) 250 BOB ALICE;
   b_claim env0 POOL MINT (vault_of POOL) (mining_of BOB POOL) BOB AUTH BOB_T;
   b_extend POOL (mining_of CAROL POOL) AUTH (mining_of CAROL POOL) L1Y L1Y (at_noon 100) 40 5 CAROL CAROL;
   b_distribute POOL DISTR;
   b_slash AUTH POOL (mining_of ALICE POOL) ALICE 100 200 (Some (expiry L3M (at_noon 100)));
   b_decrease AUTH POOL (mining_of CAROL POOL) CAROL 30;
   b_change POOL (mining_of BOB POOL) AUTH BOB (mining_of ALICE POOL) (mining_of CAROL POOL) CAROL 250].
Definition joined : list call := setup ++ later ++ [(at_noon 105, b_initialize_mining POOL (mining_of MALLORY POOL) PAYER MALLORY)].
Definition leaves : call := (at_noon 105, b_close (mining_of MALLORY POOL) MALLORY PAYER AUTH POOL).
Lemma call_effect now l c : plays l now = true -> now <= fst c -> range_b (snd (snd c)) = true -> runs (ledger_after l) c = true ->
  exists L' r, exec env0 (fst c) (fst (snd c)) (snd (snd c)) (ledger_after l) = Ok (L', r) /\
    effect env0 (fst c) (fst (snd c)) (snd (snd c)) (ledger_after l) L' r.
Proof.
  intros Hp Ht Hr H. unfold runs in H. destruct (exec env0 _ _ _ _) as [[L' r]|] eqn:E; [|discriminate].
  exists L', r. split; [reflexivity|]. eapply exec_effect; [exact env0_ok|exact (plays_reached _ _ Hp)|exact Ht|apply range_b_ok; exact Hr|exact E].
Qed.
Example C68_example :
  plays (setup ++ later) (at_noon 104) = true /\ map (runs L2) each_kind = repeat true 11 /\
  plays joined (at_noon 105) = true /\ runs (ledger_after joined) leaves = true /\
  (forall c, In c each_kind -> exists L' r, exec env0 (fst c) (fst (snd c)) (snd (snd c)) L2 = Ok (L', r) /\
     effect env0 (fst c) (fst (snd c)) (snd (snd c)) L2 L' r).
Proof.
  do 4 (split; [vm_compute; reflexivity|]). intros c Hc. apply (call_effect (at_noon 104) (setup ++ later) c).
  - vm_compute. reflexivity.
  - cbn in Hc. repeat destruct Hc as [<-|Hc]; [..|contradiction]; cbn; unfold at_noon; lia.
  - cbn in Hc. repeat destruct Hc as [<-|Hc]; [..|contradiction]; vm_compute; reflexivity.
  - cbn in Hc. repeat destruct Hc as [<-|Hc]; [..|contradiction]; vm_compute; reflexivity.
Qed.

(** accounts given as not writable: a claim that pays needs the vault and the destination
    writable, one that pays nothing does not; what is changed has to be writable *)
Definition read_only (ks : list pubkey) (c : call) : call :=
  (fst c, (map (fun m => Meta (mt_key m) (mt_signer m) (mt_writable m && negb (existsb (Z.eqb (mt_key m)) ks))) (fst (snd c)), snd (snd c))).
Definition bob_claims : call := (at_noon 105, b_claim env0 POOL MINT (vault_of POOL) (mining_of BOB POOL) BOB AUTH BOB_T).
Example C68_example_flags :
  runs L2 bob_claims = true /\ runs L2 (read_only [vault_of POOL] bob_claims) = false /\ runs L2 (read_only [BOB_T] bob_claims) = false /\
  runs (ledger_after (setup ++ later ++ [bob_claims])) (read_only [vault_of POOL; BOB_T; mining_of BOB POOL] bob_claims) = true /\
  runs L2 (read_only [mining_of BOB POOL] bob_claims) = false /\
  runs L2 (at_noon 105, b_distribute POOL DISTR) = true /\ runs L2 (read_only [POOL] (at_noon 105, b_distribute POOL DISTR)) = false /\
  runs L2 (read_only [POOL] (at_noon 104, b_distribute POOL DISTR)) = true.
Proof. vm_compute. auto 10. Qed.
