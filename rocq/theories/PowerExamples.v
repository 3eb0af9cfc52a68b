(** Concrete histories for C57.  Nothing here transcribes /repo. *)
From stdpp Require Import gmap.
From Verif Require Import Base OMap State Ledger Program Clients LedgerLemmas LedgerSpec
  CodecLemmas History HistoryLemmas HistoryThms ReachThms Scenario Attacks PowerSpec.

(** [k] signs none of the calls *)
Definition silent_b (k : pubkey) (l : list call) : bool :=
  forallb (fun c => negb (existsb (fun m => (mt_key m =? k) && mt_signer m) (fst (snd c)))) l.

Lemma silent_b_ok k l : silent_b k l = true -> Forall (silent k) (events l).
Proof.
  unfold silent_b, events. intros H. rewrite forallb_forall in H. apply Forall_forall. intros ev Hin.
  apply in_map_iff in Hin as (c & <- & Hin). specialize (H c Hin). cbn.
  apply negb_true_iff in H. intros (m & Hm & <- & Hs).
  assert (existsb (fun m0 => (mt_key m0 =? mt_key m) && mt_signer m0) (fst (snd c)) = true); [|congruence].
  apply existsb_exists. exists m. rewrite Z.eqb_refl, Hs. auto.
Qed.

Lemma unchecked_witness :
  exists now L now' L', reached env0 now L /\ run env0 now L (events [snatch]) now' L' /\
    (forall k, In k [ALICE; AUTH; FILLER; DISTR] -> Forall (silent k) (events [snatch])) /\
    delegated_to L (mining_of ALICE POOL) = 250 /\ delegated_to L' (mining_of ALICE POOL) = 249.
Proof.
  destruct snatch_witness as (now & L & now' & L' & A & _ & B & _ & C & D & _).
  exists now, L, now', L'. split; [assumption|]. split; [apply play_run; assumption|].
  split; [|split; assumption].
  assert (forallb (fun k => silent_b k [snatch]) [ALICE; AUTH; FILLER; DISTR] = true) as H by (vm_compute; reflexivity).
  rewrite forallb_forall in H. intros k Hk. apply silent_b_ok. apply H. exact Hk.
Qed.

Lemma later_run : run env0 (at_noon 100) L1 (events later) (at_noon 104) L2.
Proof. apply play_run. apply plays_then; vm_compute; reflexivity. Qed.
Lemma setup_reached : reached env0 (at_noon 100) L1.
Proof. apply plays_reached. vm_compute. reflexivity. Qed.

(** MALLORY makes a pool of their own next to POOL, and stakes, fills and distributes there *)
Lemma own_pool_run :
  run env0 (at_noon 104) L2 (events (own_pool 104 2 30)) (at_noon 104) (ledger_after before_snatch).
Proof. apply play_run. unfold before_snatch. rewrite app_assoc. apply plays_then; vm_compute; reflexivity. Qed.
Lemma L2_is_reached : reached env0 (at_noon 104) L2.
Proof. apply plays_reached. vm_compute. reflexivity. Qed.
