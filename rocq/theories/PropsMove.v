(** C64 and C65: only differences between dates matter, and no key is special. *)
From stdpp Require Import gmap.
From Verif Require Import Base OMap State Ledger Program Clients CodecLemmas LedgerLemmas History HistoryLemmas ReachThms Scenario Attacks MoveSpec Move MoveProcess.

Lemma metas_same ms : map (move_meta same) ms = ms.
Proof. induction ms as [|[k s w] r IH]; [reflexivity|]. cbn. rewrite IH. reflexivity. Qed.

(** the same call some whole days later, on accounts whose dates are as many days later, gives the
    same error, or the same answer and accounts whose dates are as many days later *)
Theorem C64_call : forall e, env_ok e -> forall d, whole_days d -> forall now ts ms i L,
  reached e now L -> now <= ts -> ix_movable d ts i ->
  exec e (ts + d) ms (move_ix same d i) (move_ledger same d L) = move_answer same d (exec e ts ms i L).
Proof.
  intros e He d Hd now ts ms i L HR Hts Hi. rewrite <- (metas_same ms) at 1.
  apply (exec_move same d renaming_id Hd e e (unmoved e)); [|right|exact Hi];
    destruct HR as (L0 & evs & HG & HR); pose proof (genesis_ok e 0 L0 (Z.le_refl 0) HG) as H0;
    destruct (run_ok e He 0 L0 evs now L (Z.le_refl 0) HR H0) as [HL Hn]; [lia|].
  eapply ends_pos. exact HL.
Qed.
Print Assumptions C64_call.

(** and so for whole histories *)
Theorem C64_history : forall e, env_ok e -> forall d, whole_days d -> forall L0 evs now L,
  genesis e L0 -> run e 0 L0 evs now L -> Forall (event_movable d) evs ->
  genesis e (move_ledger same d L0) /\
  run e d (move_ledger same d L0) (map (move_event same d) evs) (now + d) (move_ledger same d L).
Proof.
  intros e He d Hd L0 evs now L HG HR Hm. split; [exact (genesis_move same d renaming_id Hd e e (unmoved e) L0 HG)|].
  apply (run_move same d renaming_id Hd e e (unmoved e) 0 L0 evs now L); [lia| |right; exact Hm|exact HR].
  right. split; [exact He|]. apply genesis_ok; [lia|exact HG].
Qed.
Print Assumptions C64_history.

(** nothing but dates has moved, and before the program was used, nothing of its *)
Theorem C64_accounts : forall d, whole_days d -> forall e L k,
  acc (move_ledger same d L) k = move_account same d (acc L k) /\
  (genesis e L -> a_owner (acc L k) = program_id e -> acc (move_ledger same d L) k = acc L k).
Proof.
  intros d Hd e L k. split; [exact (acc_move same d renaming_id L k)|]. exact (genesis_same d e L k Hd).
Qed.
Print Assumptions C64_accounts.

(** part of a day does make a difference: the second distribution of a day pays nothing, unless midnight lies between *)
Theorem C64_part_day_refuted : exists ts ms i,
  ix_movable 43200 ts i /\
  exec env0 (ts + 43200) ms (move_ix same 43200 i) (move_ledger same 43200 L2) <> move_answer same 43200 (exec env0 ts ms i L2).
Proof.
  exists (at_noon 104), (fst (b_distribute POOL DISTR)), (snd (b_distribute POOL DISTR)). split.
  - right. unfold movable, at_noon. cbn. lia.
  - intros H. apply (f_equal (fun r => match r with Ok (L, _) => match data_of L POOL with DPool w => p_avail (wp w) | _ => 0 end | Err _ => -1 end)) in H.
    vm_compute in H. discriminate H.
Qed.
Print Assumptions C64_part_day_refuted.

(** the same call under other keys, whatever the ledger *)
Theorem C65_call : forall f, renaming f -> forall e e', env_moved f e e' -> forall ts ms i L, 0 <= ts ->
  exec e' ts (map (move_meta f) ms) (move_ix f 0 i) (move_ledger f 0 L) = move_answer f 0 (exec e ts ms i L).
Proof.
  intros f Hf e e' He ts ms i L Hts. rewrite <- (Z.add_0_r ts) at 1.
  apply (exec_move f 0 Hf whole_zero e e' He); [exact Hts|left; reflexivity|left; reflexivity].
Qed.
Print Assumptions C65_call.

(** and so for whole histories *)
Theorem C65_history : forall f, renaming f -> forall e e', env_moved f e e' -> forall L0 evs now L,
  genesis e L0 -> run e 0 L0 evs now L ->
  genesis e' (move_ledger f 0 L0) /\
  run e' 0 (move_ledger f 0 L0) (map (move_event f 0) evs) now (move_ledger f 0 L).
Proof.
  intros f Hf e e' He L0 evs now L HG HR. split; [exact (genesis_move f 0 Hf whole_zero e e' He L0 HG)|].
  pose proof (run_move f 0 Hf whole_zero e e' He 0 L0 evs now L (Z.le_refl 0) (or_introl eq_refl) (or_introl eq_refl) HR) as H.
  rewrite !Z.add_0_r in H. exact H.
Qed.
Print Assumptions C65_history.

(** nothing but keys has changed *)
Theorem C65_accounts : forall f, renaming f -> forall L k, acc (move_ledger f 0 L) (f k) = move_account f 0 (acc L k).
Proof. intros f Hf L k. exact (acc_move f 0 Hf L k). Qed.
Print Assumptions C65_accounts.

(** every exchange of keys that keeps the system program has its environment *)
Theorem C65_environment : forall f g, renaming f -> (forall k, g (f k) = k) -> (forall k, f (g k) = k) -> forall e,
  env_moved f e (renamed_env f g e) /\
  (env_ok e -> env_ok (renamed_env f g e)) /\ (env_inj e -> env_inj (renamed_env f g e)).
Proof.
  intros f g R H H' e. split; [exact (renamed_env_moved f g e H)|]. split; [exact (renamed_env_ok f g e R H H')|exact (renamed_env_inj f g e R H')].
Qed.
Print Assumptions C65_environment.

(** ** Instances *)
(** the scenario three years later *)
Definition THREE : Z := 1095 * 86400.
Lemma three_days : whole_days THREE.
Proof. split; [unfold THREE; lia|reflexivity]. Qed.
Lemma scenario_movable : Forall (event_movable THREE) (events (setup ++ later)).
Proof.
  unfold events, setup, later. cbn [app map fst snd].
  repeat (apply List.Forall_cons;
    [right; split; [unfold at_noon; lia|split; [unfold movable, at_noon, THREE; lia|first [exact I|unfold THREE; cbn; unfold at_noon; lia]]]|]).
  apply List.Forall_nil.
Qed.
Example later_history : run env0 THREE (move_ledger same THREE L0) (map (move_event same THREE) (events (setup ++ later))) (at_noon 1199) (move_ledger same THREE L2).
Proof. exact (proj2 (C64_history env0 env0_ok THREE three_days L0 _ _ L2 genesis0 L2_reached scenario_movable)). Qed.
(** there, the claim made three years later pays the same sum *)
Example later_claim :
  let c := b_claim env0 POOL MINT (vault_of POOL) (mining_of CAROL POOL) CAROL AUTH CAROL_T in
  match exec env0 (at_noon 105) (fst c) (snd c) L2, exec env0 (at_noon 1200) (fst c) (snd c) (move_ledger same THREE L2) with
  | Ok (_, Some x), Ok (_, Some y) => x = y /\ 0 < x
  | _, _ => False
  end.
Proof. vm_compute. split; reflexivity. Qed.

(** every key between 2 and 54 exchanged with another: programs, mint, pools, people *)
Definition turn (k : pubkey) : pubkey := if (2 <=? k) && (k <=? 54) then 56 - k else k.
Lemma turn_turn k : turn (turn k) = k.
Proof. unfold turn. destruct ((2 <=? k) && (k <=? 54)) eqn:E; [|rewrite E; reflexivity]. replace ((2 <=? 56 - k) && (56 - k <=? 54)) with true by lia. lia. Qed.
Lemma turn_renaming : renaming turn.
Proof.
  split.
  - intros a b H. rewrite <- (turn_turn a), <- (turn_turn b), H. reflexivity.
  - reflexivity.
  - intros a. unfold is_key, turn. destruct ((2 <=? a) && (a <=? 54)) eqn:E; lia.
Qed.
Definition env_turned : env := renamed_env turn turn env0.
Example turned_history : run env_turned 0 (move_ledger turn 0 L0) (map (move_event turn 0) (events (setup ++ later))) (at_noon 104) (move_ledger turn 0 L2).
Proof.
  exact (proj2 (C65_history turn turn_renaming env0 env_turned (renamed_env_moved turn turn env0 turn_turn) L0 _ _ L2 genesis0 L2_reached)).
Qed.
Example turned_claim :
  let c := b_claim env0 POOL MINT (vault_of POOL) (mining_of CAROL POOL) CAROL AUTH CAROL_T in
  match exec env0 (at_noon 105) (fst c) (snd c) L2, exec env_turned (at_noon 105) (map (move_meta turn) (fst c)) (snd c) (move_ledger turn 0 L2) with
  | Ok (_, Some x), Ok (_, Some y) => x = y /\ 0 < x
  | _, _ => False
  end.
Proof. vm_compute. split; reflexivity. Qed.
