(** C50: the errors tell the truth. *)
From stdpp Require Import gmap.
From Verif Require Import Base OMap State Spec EffectSpec Ledger Program Clients ClientSpec LedgerLemmas LedgerSpec
  CodecLemmas History HistoryLemmas HistoryThms ReachThms Scenario Attacks SuccessSpec ErrorSpec ErrorThms ErrorExact.

(** whatever the program complains about is so *)
Theorem C50_errors_have_reasons : forall e, env_ok e -> forall now ts ms i L x,
  reached e now L -> now <= ts -> ix_in_range i ->
  exec e ts ms i L = Err x -> explained x = true -> reason e ts ms L i x.
Proof. exact exec_reason. Qed.
Print Assumptions C50_errors_have_reasons.

(** and no other codes are used; that of RetreivingZeroCopyAccountFailire never is *)
Theorem C50_codes : forall e, env_ok e -> forall now ts ms i L n,
  reached e now L -> now <= ts -> ix_in_range i ->
  exec e ts ms i L = Err (ECustom n) -> 0 <= n <= 15 /\ n <> 11.
Proof. exact codes_known. Qed.
Print Assumptions C50_codes.

(** these conditions lead to these errors; in particular the first account in the list that
    is not as the instruction wants it decides *)
Theorem C50_certain_errors : forall e, env_ok e -> forall now ts ms i L x,
  reached e now L -> now <= ts -> ix_in_range i ->
  returns e ts ms L i x -> exec e ts ms i L = Err x.
Proof. exact exec_returns. Qed.
Print Assumptions C50_certain_errors.

(** the errors of nineteen calls after the history of Scenario.v *)
Definition error_of (L : ledger) (c : call) : option err :=
  match exec env0 (fst c) (fst (snd c)) (snd (snd c)) L with Ok _ => None | Err x => Some x end.
Definition unsigned (c : list meta * ix) : list meta * ix :=
  (map (fun m => Meta (mt_key m) false (mt_writable m)) (fst c), snd c).
Definition readonly (c : list meta * ix) : list meta * ix :=
  (map (fun m => Meta (mt_key m) (mt_signer m) false) (fst c), snd c).
Definition cut (n : nat) (c : list meta * ix) : list meta * ix := (firstn n (fst c), snd c).
Definition wrong_calls : list (list meta * ix * err) :=
  let own := mining_of ALICE POOL in
  [(b_deposit SOURCE own AUTH own 5 L3M ALICE ALICE, ECustom 0);
   (b_withdraw POOL own AUTH own 1000000 ALICE ALICE, ECustom 1);
   (b_deposit POOL own AUTH own 0 LNone ALICE ALICE, ECustom 3);
   (b_extend POOL own AUTH own LNone L3M (at_noon 100) 100 0 ALICE ALICE, ECustom 3);
   (b_fill_vault env0 POOL MINT (vault_of POOL) FILLER SOURCE 10 (at_noon 104), ECustom 4);
   (b_close (mining_of CAROL POOL) CAROL PAYER AUTH POOL, ECustom 6);
   (b_fill_vault env0 POOL MINT (vault_of POOL) FILLER SOURCE 0 (at_noon 120), ECustom 7);
   (b_close own ALICE PAYER AUTH POOL, ECustom 8);
   (b_extend POOL own AUTH own L6M L1Y (at_noon 100) 100 0 ALICE ALICE, ECustom 9);
   (b_slash AUTH POOL own ALICE 10 20 (Some (at_noon 150)), ECustom 9);
   (b_change POOL own AUTH ALICE own own ALICE 10, ECustom 10);
   (b_initialize_pool env0 POOL MINT 78 PAYER AUTH FILLER DISTR, ECustom 12);
   (b_deposit POOL own AUTH (mining_of BOB POOL) 5 L3M ALICE CAROL, ECustom 13);
   (b_decrease AUTH POOL own ALICE 201, ECustom 15);
   (unsigned (b_distribute POOL DISTR), EMissingSignature);
   (cut 3 (b_deposit POOL own AUTH own 5 L3M ALICE ALICE), ENotEnoughKeys);
   (readonly (b_deposit POOL own AUTH own 5 L3M ALICE ALICE), EReadonly);
   (b_distribute own DISTR, EPanic);
   (b_initialize_mining POOL own PAYER ALICE, EAlreadyInit)].
Example C50_example :
  reached env0 (at_noon 104) L2 /\
  map (fun c => error_of L2 (at_noon 105, fst c)) wrong_calls = map (fun c => Some (snd c)) wrong_calls.
Proof.
  split; [exists L0, (events (setup ++ later)); split; [exact genesis0|exact L2_reached]|]. vm_compute. reflexivity.
Qed.
(** one of them through the theorem *)
Example C50_example_returns :
  let c := b_deposit POOL (mining_of ALICE POOL) AUTH (mining_of BOB POOL) 5 L3M ALICE CAROL in
  returns env0 (at_noon 105) (fst c) L2 (snd c) (ECustom 13).
Proof.
  cbv zeta. eapply (ret_wrong_delegate env0 _ _ _ _ POOL (mining_of ALICE POOL) AUTH (mining_of BOB POOL)); [reflexivity| | | | | |].
  - exists []. reflexivity.
  - constructor; [split; vm_compute; reflexivity|split; vm_compute; reflexivity|vm_compute; reflexivity| |vm_compute; reflexivity..].
    exists (Meta AUTH true false). cbn. auto.
  - split; vm_compute; reflexivity.
  - vm_compute. discriminate.
  - vm_compute. reflexivity.
  - vm_compute. discriminate.
Qed.
