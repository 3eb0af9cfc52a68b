(** C66: what calls that give a longer account can damage.  Only statements; proofs in Contain.v. *)
From stdpp Require Import gmap.
From Verif Require Import Base OMap State Spec Ledger Program History LedgerLemmas LedgerSpec HistoryLemmas ReachThms
  Scenario Attacks Overlay OverlaySpec OverlayExamples ContainSpec Contain ContainExamples.

(** every history has a set of accounts hit, which only grows *)
Theorem C66_set e now L T evs now' L' :
  wide_run e now L evs now' L' -> exists T', spread e now L T evs now' L' T' /\ forall k, T k = true -> T' k = true.
Proof.
  intros H. destruct (spread_exists e now L T evs now' L' H) as [T' HT]. exists T'. split; [exact HT|]. apply (spread_run _ _ _ _ _ _ _ _ HT).
Qed.
Print Assumptions C66_set.

(** it stays empty as long as no such call occurs *)
Theorem C66_empty e now L evs now' L' : run e now L evs now' L' -> spread e now L nobody evs now' L' nobody.
Proof. exact (run_spread e now L evs now' L'). Qed.
Print Assumptions C66_empty.

(** outside it, the accounts are those of a history without such calls *)
Theorem C66_contained e L T evs now' L' T' : env_ok e -> genesis e L -> spread e 0 L T evs now' L' T' ->
  exists M, reached e now' M /\ same_outside T' L' M.
Proof. exact (contained_genesis e L T evs now' L' T'). Qed.
Print Assumptions C66_contained.

(** namely of the same history, the calls that touch the set counting as calls of other programs *)
Theorem C66_history e L T evs now' L' T' : env_ok e -> genesis e L -> spread e 0 L T evs now' L' T' ->
  exists evs' M, Forall2 (fun ev ev' => ev' = ev \/ ev' = EvExt (time_of ev)) evs evs' /\
    run e 0 L evs' now' M /\ same_outside T' L' M.
Proof.
  intros He G. exact (contained e 0 L T evs now' L' T' L He (genesis_bytes e L G) (genesis_bytes e L G) (fun k _ => eq_refl)).
Qed.
Print Assumptions C66_history.

(** a call outside it answers as it would there, and the accounts stay the same *)
Theorem C66_same_call T L M j e ts ms i : same_outside T L M -> clean_call T L ms i ->
  match wide_exec j e ts ms i L, exec e ts ms i M with
  | Ok (L', r), Ok (M', s) => r = s /\ same_outside T L' M'
  | Err x, Err y => x = y
  | _, _ => False
  end.
Proof. exact (same_call T L M j e ts ms i). Qed.
Print Assumptions C66_same_call.

(** what a call does depends on the accounts it names and on nothing else *)
Theorem C66_locality e ts ms i L M : (forall k, names ms k -> acc L k = acc M k) ->
  match exec e ts ms i L, exec e ts ms i M with
  | Ok (L', r), Ok (M', s) => r = s /\ (forall k, names ms k -> acc L' k = acc M' k) /\
      (forall k, ~ names ms k -> acc L' k = acc L k /\ acc M' k = acc M k)
  | Err x, Err y => x = y
  | _, _ => False
  end.
Proof. exact (locality e ts ms i L M). Qed.
Print Assumptions C66_locality.

(** an initialised pool is changed only where it is given as a mining, or as the pool of the
    instruction, and then the authority the instruction needs signs *)
Theorem C66_pool_hit j e ts ms i L L' r k w : env_ok e ->
  wide_exec j e ts ms i L = Ok (L', r) -> is_pool e L k w -> p_type (wp w) = TYPE_POOL -> acc L' k <> acc L k ->
  gives ms i k \/ account_at ms (pool_position i) k /\ exists ro, role_of i = Some ro /\ signed ms (holder w ro).
Proof. exact (pool_hit j e ts ms i L L' r k w). Qed.
Print Assumptions C66_pool_hit.

(** so what is stored outside the set is well formed *)
Theorem C66_well_formed e L T evs now' L' T' : env_ok e -> genesis e L -> spread e 0 L T evs now' L' T' ->
  forall k, T' k = false -> account_ok e now' (acc L' k).
Proof. exact (well_formed_outside e L T evs now' L' T'). Qed.
Print Assumptions C66_well_formed.

(** MALLORY's pool is closed as if it were a mining; POOL and its stakers are outside, and ALICE claims *)
Example C66_example : env_ok env0 /\ genesis env0 L0 /\
  spread env0 0 L0 nobody (events before_ruin ++ [as_event ruin]) (fst ruin) (wide_after (ledger_after before_ruin) ruin) (just POOL2) /\
  clean_call (just POOL2) (wide_after (ledger_after before_ruin) ruin) (fst (snd (alice_claims 106))) (snd (snd (alice_claims 106))) /\
  wide_runs (wide_after (ledger_after before_ruin) ruin) (alice_claims 106) = true /\
  acc (wide_after (ledger_after before_ruin) ruin) POOL2 = Account 0 (program_id env0) (DPool zero_wpool) /\
  acc (ledger_after before_ruin) POOL2 <> Account 0 (program_id env0) (DPool zero_wpool).
Proof.
  split; [exact env0_ok|]. split; [exact genesis0|]. split; [exact ruin_spread|].
  destruct outside_case as (_ & _ & C & R & A). split; [apply cleanb_ok; exact C|]. split; [exact R|]. split; [exact A|]. vm_compute. discriminate.
Qed.
