(** C37: instructions as the clients build them. *)
From stdpp Require Import gmap.
From Verif Require Import Base OMap State Ledger Program LedgerLemmas LedgerSpec History Codec Clients
  ClientSpec ClientLemmas Scenario ReachThms Attacks EffectExamples.

(** ** C37 *)
Theorem C37_builders_complete : forall e ts ms ms' i L x,
  built e ms i -> same_accounts i ms' ms ->
  exec e ts ms' i L = Ok x -> exec e ts ms i L = Ok x.
Proof. exact built_complete. Qed.
Print Assumptions C37_builders_complete.

Theorem C37_flags_suffice : forall e ts ms ms' i L x,
  same_accounts i ms ms' -> flags_suffice i ms' ->
  exec e ts ms i L = Ok x -> exec e ts ms' i L = Ok x.
Proof. exact exec_flags. Qed.
Print Assumptions C37_flags_suffice.

Theorem C37_generated_data : forall i, g_data i = encode i.
Proof. exact g_data_ok. Qed.
Print Assumptions C37_generated_data.

Theorem C37_generated_extend_rejected :
  forall e ts pool mining mint auth dm op np st b a o d L,
  owner_of L mint <> program_id e ->
  exists er, exec e ts (fst (g_extend pool mining mint auth dm op np st b a o d))
                 (ExtendStake op np st b a o d) L = Err er.
Proof. exact g_extend_rejected. Qed.
Print Assumptions C37_generated_extend_rejected.

Theorem C37_generated_close : forall e ts mining owner target auth pool L x,
  env_ok e ->
  exec e ts (fst (g_close mining owner target auth pool)) CloseMining L = Ok x ->
  acc L mining = Account 0 (program_id e) (DMining zero_wmining) /\ owner = 0.
Proof. exact g_close_result. Qed.
Print Assumptions C37_generated_close.

Theorem C37_generated_deposit : forall e ts pool mining auth dm a p o d L L' r,
  dm <> mining ->
  exec e ts (fst (g_deposit pool mining auth dm a p o d)) (DepositMining a p o d) L = Ok (L', r) ->
  acc L' dm = acc L dm /\ a = 0.
Proof. exact g_deposit_delegate. Qed.
Print Assumptions C37_generated_deposit.

Theorem C37_generated_withdraw : forall e ts pool mining auth dm a o d L L' r,
  dm <> mining ->
  exec e ts (fst (g_withdraw pool mining auth dm a o d)) (WithdrawMining a o d) L = Ok (L', r) ->
  acc L' dm = acc L dm /\ a = 0.
Proof. exact g_withdraw_delegate. Qed.
Print Assumptions C37_generated_withdraw.

(** what the requests ask for is what they were built from *)
Theorem C37_generated_arguments :
  (forall pool mining auth dm a p o d, snd (g_deposit pool mining auth dm a p o d) = DepositMining a p o d) /\
  (forall pool mining auth dm a o d, snd (g_withdraw pool mining auth dm a o d) = WithdrawMining a o d) /\
  (forall pool mining mint auth dm op np st b a o d,
     snd (g_extend pool mining mint auth dm op np st b a o d) = ExtendStake op np st b a o d) /\
  (forall mining owner target auth pool, snd (g_close mining owner target auth pool) = CloseMining).
Proof. exact generated_arguments. Qed.
Print Assumptions C37_generated_arguments.

(** the same requests through the crate's builders and the generated ones *)
Example C37_example :
  reached env0 (at_noon 104) L2 /\
  (runs L2 (at_noon 105, b_deposit POOL (mining_of BOB POOL) AUTH (mining_of ALICE POOL) 10 LFlex BOB ALICE),
   runs L2 (at_noon 105, g_deposit POOL (mining_of BOB POOL) AUTH (mining_of ALICE POOL) 10 LFlex BOB ALICE),
   runs L2 (at_noon 105, g_deposit POOL (mining_of BOB POOL) AUTH (mining_of BOB POOL) 10 LFlex BOB BOB),
   runs L2 (at_noon 105, b_extend POOL (mining_of BOB POOL) AUTH (mining_of BOB POOL) LFlex L3M (at_noon 100) 5 0 BOB BOB),
   runs L2 (at_noon 105, g_extend POOL (mining_of BOB POOL) MINT AUTH (mining_of BOB POOL) LFlex L3M (at_noon 100) 5 0 BOB BOB))
  = (true, false, true, true, false).
Proof. split; [apply plays_reached; vm_compute; reflexivity|]. vm_compute. reflexivity. Qed.

Example C37_example_close_withdraw :
  (runs L1 (at_noon 100, b_close (mining_of BOB POOL) BOB BOB AUTH POOL),
   runs L1 (at_noon 100, g_close (mining_of BOB POOL) BOB BOB AUTH POOL),
   runs L2 (at_noon 105, b_withdraw POOL (mining_of BOB POOL) AUTH (mining_of ALICE POOL) 10 BOB ALICE),
   runs L2 (at_noon 105, g_withdraw POOL (mining_of BOB POOL) AUTH (mining_of ALICE POOL) 10 BOB ALICE),
   runs L2 (at_noon 105, g_withdraw POOL (mining_of BOB POOL) AUTH (mining_of BOB POOL) 10 BOB BOB))
  = (true, false, true, false, true).
Proof. vm_compute. reflexivity. Qed.
