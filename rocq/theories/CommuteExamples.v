(** Concrete calls for C55.  Nothing here transcribes /repo. *)
From stdpp Require Import gmap.
From Verif Require Import Base OMap State Spec EffectSpec Ledger Program Clients LedgerLemmas LedgerSpec
  CodecLemmas History HistoryLemmas HistoryThms ReachThms Scenario Attacks EffectThms EffectExamples CommuteSpec.

(** CAROL's withdrawal and BOB's deposit, on the same pool *)
Definition carol_out : call := (at_noon 105, b_withdraw POOL (mining_of CAROL POOL) AUTH (mining_of CAROL POOL) 7 CAROL CAROL).
Definition bob_in : call := (at_noon 105, b_deposit POOL (mining_of BOB POOL) AUTH (mining_of ALICE POOL) 60 L6M BOB ALICE).
Definition bob_takes : call := (at_noon 105, b_claim env0 POOL MINT (vault_of POOL) (mining_of BOB POOL) BOB AUTH BOB_T).
Definition carol_takes : call := (at_noon 105, b_claim env0 POOL MINT (vault_of POOL) (mining_of CAROL POOL) CAROL AUTH CAROL_T).
Definition pool_and (who : list pubkey) (L : ledger) :=
  Some (shares L POOL, map (stake L) (map (fun w => mining_of w POOL) who), map (tokens_of L) [vault_of POOL; BOB_T; CAROL_T]).
(** BOB and CAROL delegate to the same person: the later one brings less to the delegate *)
Definition carol_too : call := (at_noon 105, b_deposit POOL (mining_of CAROL POOL) AUTH (mining_of ALICE POOL) 500 L3M CAROL ALICE).

Definition calls_ok (l : list call) (L : ledger) : bool := match calls l L with Some _ => true | None => false end.
Definition calls_to (l : list call) (L : ledger) : ledger := match calls l L with Some L' => L' | None => L end.
Lemma calls_reach l L : calls_ok l L = true -> calls l L = Some (calls_to l L).
Proof. unfold calls_ok, calls_to. destruct (calls l L); [reflexivity|discriminate]. Qed.

Lemma delegate_order_matters :
  exists now L L12 L21, reached env0 now L /\
    calls [bob_in; carol_too] L = Some L12 /\ calls [carol_too; bob_in] L = Some L21 /\
    unclaimed_of L12 (mining_of ALICE POOL) < unclaimed_of L21 (mining_of ALICE POOL).
Proof.
  exists (at_noon 104), L2, (calls_to [bob_in; carol_too] L2), (calls_to [carol_too; bob_in] L2).
  split; [exists L0, (events (setup ++ later)); split; [exact genesis0|exact L2_reached]|].
  split; [apply calls_reach; vm_compute; reflexivity|]. split; [apply calls_reach; vm_compute; reflexivity|].
  vm_compute. reflexivity.
Qed.

(** a pool with 365 expiry dates: room is made by whoever calls first *)
Definition full_pool : list call :=
  many_deposits L3M 366 ++
  [(at_noon 465, b_initialize_mining POOL (mining_of ALICE POOL) PAYER ALICE);
   (at_noon 465, b_deposit POOL (mining_of ALICE POOL) AUTH (mining_of ALICE POOL) 5 LFlex ALICE ALICE)].
Definition alice_leaves : call := (at_noon 470, b_withdraw POOL (mining_of ALICE POOL) AUTH (mining_of ALICE POOL) 5 ALICE ALICE).
Definition bob_again : call := (at_noon 470, b_deposit POOL (mining_of BOB POOL) AUTH (mining_of BOB POOL) 10 L3M BOB BOB).
Lemma full_pool_order_matters :
  exists now L L12 L21, reached env0 now L /\
    unrelated (fst (snd alice_leaves)) (snd (snd alice_leaves)) (fst (snd bob_again)) (snd (snd bob_again)) /\
    calls [alice_leaves; bob_again] L = Some L12 /\ calls [bob_again; alice_leaves] L = Some L21 /\
    shares L12 POOL <> shares L21 POOL.
Proof.
  exists (at_noon 465), (ledger_after full_pool), (calls_to [alice_leaves; bob_again] (ledger_after full_pool)),
    (calls_to [bob_again; alice_leaves] (ledger_after full_pool)).
  split; [apply plays_reached; vm_compute; reflexivity|].
  split; [split|].
  - intros n n' k Hn Hk Hn' Hk'. cbn in Hn, Hn'.
    destruct Hn as [<-|[<-|[<-|[]]]], Hn' as [<-|[<-|[<-|[]]]]; vm_compute in Hk, Hk'; try (split; reflexivity); congruence.
  - cbn. auto.
  - split; [apply calls_reach; vm_compute; reflexivity|]. split; [apply calls_reach; vm_compute; reflexivity|].
    vm_compute. discriminate.
Qed.
