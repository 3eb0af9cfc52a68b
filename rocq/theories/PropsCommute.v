(** C55: the order of unrelated calls does not matter. *)
From stdpp Require Import gmap.
From Verif Require Import Base OMap State Spec EffectSpec Ledger Program Clients LedgerLemmas LedgerSpec
  CodecLemmas History HistoryLemmas HistoryThms ReachThms Scenario Attacks EffectThms EffectExamples CommuteSpec Commute CommuteExamples.

(** ** C55 *)
Theorem C55_order : forall e, env_ok e -> forall now ts ms i ms' j L L1 r1 L12 r2 L2 r2' L21 r1',
  reached e now L -> now <= ts -> is_u64 ts -> ix_in_range i -> ix_in_range j ->
  unrelated ms i ms' j ->
  (forall P, account_at ms (pool_position i) P -> account_at ms' (pool_position j) P -> room_for_two e L P) ->
  exec e ts ms i L = Ok (L1, r1) -> exec e ts ms' j L1 = Ok (L12, r2) ->
  exec e ts ms' j L = Ok (L2, r2') -> exec e ts ms i L2 = Ok (L21, r1') ->
  r1 = r1' /\ r2 = r2' /\ forall k, acc L12 k = acc L21 k.
Proof. exact calls_commute. Qed.
Print Assumptions C55_order.

(** two claims share the vault, and possibly the destination *)
Theorem C55_claims : forall e ts ms ms' k k' L L1 r1 L12 r2 L2 r2' L21 r1',
  account_at ms 3 k -> account_at ms' 3 k' -> k <> k' ->
  exec e ts ms Claim L = Ok (L1, r1) -> exec e ts ms' Claim L1 = Ok (L12, r2) ->
  exec e ts ms' Claim L = Ok (L2, r2') -> exec e ts ms Claim L2 = Ok (L21, r1') ->
  r1 = r1' /\ r2 = r2' /\ forall q, acc L12 q = acc L21 q.
Proof. exact claims_commute. Qed.
Print Assumptions C55_claims.

Example C55_example :
  reached env0 (at_noon 104) Scenario.L2 /\
  unrelated (fst (snd carol_out)) (snd (snd carol_out)) (fst (snd bob_in)) (snd (snd bob_in)) /\
  room_for_two env0 Scenario.L2 POOL.
Proof.
  split; [exists L0, (events (setup ++ later)); split; [exact genesis0|exact L2_reached]|].
  split; [split|].
  - intros n n' k Hn Hk Hn' Hk'. cbn in Hn, Hn'.
    destruct Hn as [<-|[<-|[<-|[]]]], Hn' as [<-|[<-|[<-|[]]]]; vm_compute in Hk, Hk'; try (split; reflexivity); congruence.
  - cbn. auto.
  - intros w [_ H]. vm_compute in H. injection H as <-. vm_compute. discriminate.
Qed.
Example C55_example_orders :
  let see l := match calls l Scenario.L2 with Some L => pool_and [ALICE; BOB; CAROL] L | None => None end in
  see [carol_out; bob_in] = see [bob_in; carol_out] /\ see [carol_out; bob_in] <> None /\
  see [carol_takes; bob_takes] = see [bob_takes; carol_takes] /\ see [carol_takes; bob_takes] <> None.
Proof. vm_compute. repeat split; discriminate. Qed.

(** a delegate in common, or a full pool schedule, make the order matter *)
Theorem C55_shared_delegate_refuted :
  exists now L L12 L21, reached env0 now L /\
    calls [bob_in; carol_too] L = Some L12 /\ calls [carol_too; bob_in] L = Some L21 /\
    unclaimed_of L12 (mining_of ALICE POOL) < unclaimed_of L21 (mining_of ALICE POOL).
Proof. exact delegate_order_matters. Qed.
Print Assumptions C55_shared_delegate_refuted.
Theorem C55_full_pool_refuted :
  exists now L L12 L21, reached env0 now L /\
    unrelated (fst (snd alice_leaves)) (snd (snd alice_leaves)) (fst (snd bob_again)) (snd (snd bob_again)) /\
    calls [alice_leaves; bob_again] L = Some L12 /\ calls [bob_again; alice_leaves] L = Some L21 /\
    shares L12 POOL <> shares L21 POOL.
Proof. exact full_pool_order_matters. Qed.
Print Assumptions C55_full_pool_refuted.
