(** A concrete history in which one pool is damaged and another is not.  Nothing here transcribes /repo. *)
From stdpp Require Import gmap.
From Verif Require Import Base OMap State Spec Ledger Program Clients CodecLemmas WfLemmas History HistoryLemmas
  LedgerLemmas LedgerSpec HistoryThms ReachThms Scenario Attacks Overlay OverlaySpec OverlayThms OverlayMore OverlayExamples ContainSpec Contain.

(** MALLORY's unused pool is given where a mining is to be closed; AUTH signs as the deposit authority of POOL *)
Definition before_ruin : list call :=
  setup ++ later ++ [(at_noon 104, b_initialize_pool env0 POOL2 MINT (vault_of POOL2) MALLORY MALLORY MALLORY MALLORY)].
Definition ruin : call := (at_noon 105, b_close POOL2 MALLORY MALLORY AUTH POOL).
Definition just (k : pubkey) : pubkey -> bool := fun q => q =? k.
Definition as_event (c : call) : event := EvIx (fst c) (fst (snd c)) (snd (snd c)).

Lemma before_ruin_plays : plays before_ruin (at_noon 104) = true.
Proof. vm_compute. reflexivity. Qed.
Lemma ruin_runs : forall j, wide_exec j env0 (fst ruin) (fst (snd ruin)) (snd (snd ruin)) (ledger_after before_ruin) = Ok (wide_after (ledger_after before_ruin) ruin, None).
Proof. apply (any_junk _ _ POOL2 0%nat); vm_compute; reflexivity. Qed.
Lemma ruin_spread :
  spread env0 0 L0 nobody (events before_ruin ++ [as_event ruin]) (fst ruin) (wide_after (ledger_after before_ruin) ruin) (just POOL2).
Proof.
  apply spread_app with (at_noon 104) (ledger_after before_ruin) nobody; [apply run_spread, play_run, plays_ok; exact before_ruin_plays|].
  econstructor; [|intros k|constructor].
  - apply (wide_ix env0 (at_noon 104) _ junk0 _ _ _ _ None).
    + vm_compute. discriminate.
    + split; vm_compute; [discriminate|reflexivity].
    + exact I.
    + apply ruin_runs.
  - unfold just. rewrite Z.eqb_eq. split.
    + intros ->. right. split; [|split; [vm_compute; discriminate|left; vm_compute; reflexivity]].
      intros C. apply cleanb_ok in C. vm_compute in C. discriminate C.
    + intros [H|(_ & Hne & Ho)]; [discriminate H|].
      destruct (wide_changed _ _ _ _ _ _ _ _ _ (ruin_runs junk0) Hne) as [(n & [<-|[<-|[]]] & Hn) _]; [injection Hn as <-; reflexivity|].
      injection Hn as <-. vm_compute in Ho. destruct Ho; discriminate.
Qed.
(** POOL and ALICE's mining are outside, and ALICE claims *)
Example outside_case : just POOL2 POOL = false /\ just POOL2 (mining_of ALICE POOL) = false /\
  cleanb (just POOL2) (wide_after (ledger_after before_ruin) ruin) (fst (snd (alice_claims 106))) (snd (snd (alice_claims 106))) = true /\
  wide_runs (wide_after (ledger_after before_ruin) ruin) (alice_claims 106) = true /\
  acc (wide_after (ledger_after before_ruin) ruin) POOL2 = Account 0 (program_id env0) (DPool zero_wpool).
Proof. split; [vm_compute; reflexivity|]. split; [vm_compute; reflexivity|]. split; [vm_compute; reflexivity|]. split; vm_compute; reflexivity. Qed.
