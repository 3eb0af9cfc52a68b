(** C71: open minings keep the rent they were opened with, and closing refunds it. *)
From stdpp Require Import gmap.
From Verif Require Import Base OMap State Spec Ledger Program Clients LedgerLemmas LedgerSpec
  CodecLemmas History HistoryLemmas HistoryThms ReachThms Scenario Attacks LedgerView LedgerOrderly EffectThms EffectExamples Rent.

Theorem C71_rent_kept : forall e, env_ok e -> forall now L k m,
  reached e now L -> is_mining e L k m -> m_type (wm m) = TYPE_MINING -> rent_min e 1776 <= lamports_of L k.
Proof. exact rent_kept. Qed.
Print Assumptions C71_rent_kept.

Theorem C71_refund : forall e, env_ok e -> forall now ts ms L L' r k t m,
  reached e now L -> exec e ts ms CloseMining L = Ok (L', r) -> account_at ms 0 k -> account_at ms 2 t ->
  is_mining e L k m -> m_type (wm m) = TYPE_MINING ->
  lamports_of L t + rent_min e 1776 <= lamports_of L' t /\ lamports_of L' k = 0.
Proof. exact refund. Qed.
Print Assumptions C71_refund.

Theorem C71_never_drained : forall e, env_ok e -> forall now L evs now' L' k m,
  reached e now L -> run e now L evs now' L' -> (forall ev, In ev evs -> ~ closes k ev) -> 0 < rent_min e 1776 ->
  is_mining e L k m -> m_type (wm m) = TYPE_MINING -> lamports_of L k <= lamports_of L' k.
Proof. exact never_drained. Qed.
Print Assumptions C71_never_drained.

(** ALICE's mining with the 19040 lamports it was opened with; BOB's is closed for them *)
Definition bob_leaves : list call := [bob_withdraws; (at_noon 105, b_claim env0 POOL MINT (vault_of POOL) (mining_of BOB POOL) BOB AUTH BOB_T);
  (at_noon 105, b_close (mining_of BOB POOL) BOB PAYER AUTH POOL)].
Example C71_example :
  reached env0 (at_noon 104) L2 /\ rent_min env0 1776 = 19040 /\
  lamports_of L2 (mining_of ALICE POOL) = 19040 /\
  match data_of L2 (mining_of ALICE POOL) with DMining m => m_type (wm m) = TYPE_MINING | _ => False end /\
  option_map (fun L => (lamports_of L PAYER - lamports_of L2 PAYER, lamports_of L (mining_of BOB POOL))) (calls bob_leaves L2)
    = Some (19040, 0).
Proof. split; [apply plays_reached; vm_compute; reflexivity|]. vm_compute. auto. Qed.
