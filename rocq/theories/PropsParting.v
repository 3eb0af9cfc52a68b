(** C97: delegates can leave after those who delegate to them. *)
From stdpp Require Import gmap.
From Verif Require Import Base OMap State Spec EffectSpec Core CoreRun Witness Ledger Program Clients LedgerLemmas LedgerSpec
  CodecLemmas History HistoryLemmas HistoryThms Scenario Attacks LedgerView LedgerCore LedgerCoreThms LedgerOrderly EffectThms EffectExamples SuccessSpec
  Leave PropsLeave WindUpSpec WindUp PropsWindUp LedgerDust PartingSpec Parting.

(** any number of stakers, in any order in which a delegate comes after those who delegate to it *)
Theorem C97_part : forall e, env_ok e -> env_inj e -> 0 < rent_min e MINING_LEN ->
  forall P, P <> 0 -> forall l now ts L V w,
  orderly e P disciplined now L -> pool_vault e L P V w -> now <= ts -> is_u64 ts ->
  owner_of L (p_mint (wp w)) = spl_token_id e -> p_deposit_auth (wp w) <> system_id ->
  List.NoDup (map d_mining l) -> List.NoDup (map d_to l) ->
  (forall before d after, l = before ++ d :: after -> may_part e L P V w l before d) ->
  exists L' xs w', departures e ts P (p_mint (wp w)) V (p_deposit_auth (wp w)) l L = Ok (L', xs) /\
    Forall2 (has_parted e ts P w L L' l) l xs /\
    balance L' V = balance L V - zsum xs /\
    (forall t, In t (map d_target l) -> lamports_of L' t = lamports_of L t + refund L t l) /\
    pool_vault e L' P V w' /\ only_total w w' /\
    (forall d, day_start ts <= d -> p_total (wp w') - due d (wp_diffs w') = p_total (wp w) - due d (wp_diffs w) - leaving l) /\
    (forall q, q <> P -> q <> V -> ~ In q (map d_to l) -> ~ In q (map d_mining l) -> ~ In q (map d_dm l) ->
       ~ In q (map d_target l) -> acc L' q = acc L q) /\
    (forall q m, mining_in e L' P q m -> ~ In q (map d_mining l) /\ exists m0, mining_in e L P q m0) /\
    (l <> [] -> orderly e P disciplined ts L').
Proof. exact part_all. Qed.
Print Assumptions C97_part.

(** all of them, delegates included, when the bonuses have expired: nothing is left of the stakes, the budget still is *)
Theorem C97_all_part : forall e, env_ok e -> env_inj e -> 0 < rent_min e MINING_LEN ->
  forall P, P <> 0 -> forall l now ts L V w,
  orderly e P exact_disciplined now L -> pool_vault e L P V w -> now <= ts -> is_u64 ts ->
  owner_of L (p_mint (wp w)) = spl_token_id e -> p_deposit_auth (wp w) <> system_id ->
  List.NoDup (map d_mining l) -> List.NoDup (map d_to l) ->
  (forall before d after, l = before ++ d :: after -> may_part e L P V w l before d) ->
  (forall k m, mining_in e L P k m -> exists d, In d l /\ d_mining d = k /\ d_stake d = unlocked_stake m /\
     forall x v, In (x, v) (wm_diffs m) -> x <= day_start ts) ->
  exists L' xs w', departures e ts P (p_mint (wp w)) V (p_deposit_auth (wp w)) l L = Ok (L', xs) /\
    Forall2 (has_parted e ts P w L L' l) l xs /\
    pool_vault e L' P V w' /\ (forall k m, ~ mining_in e L' P k m) /\
    (forall d, day_start ts <= d -> p_total (wp w') - due d (wp_diffs w') = 0) /\
    p_avail (wp w') = p_avail (wp w) /\ p_avail (wp w) <= balance L' V /\ balance L' V = balance L V - zsum xs.
Proof. exact all_part. Qed.
Print Assumptions C97_all_part.

(** BOB has 300 delegated to ALICE: first CAROL leaves, then BOB, then ALICE *)
Definition parting : list departure :=
  [Departure (mn 3) CAROL CAROL_T (mn 3) CAROL 40 CAROL; Departure (mn 2) BOB BOB_T (mn 1) ALICE 300 PAYER;
   Departure (mn 1) ALICE ALICE_T (mn 1) ALICE 120 PAYER].
Example C97_may_part : forall before d after, parting = before ++ d :: after -> may_part env0 LG POOL (vault_of POOL) (pool_now LG) parting before d.
Proof.
  intros before d after H. unfold parting in H.
  destruct before as [|x1 [|x2 [|x3 before]]]; cbn [app] in H; [injection H as <- _|injection H as <- <- _|injection H as <- <- <- _|injection H as _ _ _ H; destruct before; discriminate].
  all: match goal with |- may_part _ _ _ _ _ _ _ ?d => exists (mining_now LG (d_mining d)) end.
  all: split; [split; [split; vm_compute; reflexivity|vm_compute; reflexivity]|].
  all: split; [vm_compute; reflexivity|]. all: split; [vm_compute; discriminate|].
  all: split; [vm_compute; split; [discriminate|reflexivity]|]. all: split; [vm_compute; split; [discriminate|reflexivity]|].
  all: split; [match goal with |- payable _ _ _ _ _ ?T => exists (token_now LG T) end; split; [split; vm_compute; reflexivity|];
    split; [vm_compute; reflexivity|]; split; [vm_compute; reflexivity|]; split; [vm_compute; discriminate|vm_compute; reflexivity]|].
  all: split; [vm_compute; reflexivity|]. all: split; [split; vm_compute; discriminate|].
  all: split; [|split; vm_compute; reflexivity].
  - left. reflexivity.
  - right. split; [vm_compute; discriminate|]. split; [vm_compute; intuition discriminate|]. exists (mining_now LG (mn 1)).
    split; [split; [split; vm_compute; reflexivity|vm_compute; reflexivity]|]. split; [vm_compute; reflexivity|vm_compute; discriminate].
  - left. reflexivity.
Qed.

Definition parting_b (k : pubkey) (m : wmining) : bool :=
  existsb (fun d => (d_mining d =? k) && (d_stake d =? unlocked_stake m)) parting && forallb (fun x => fst x <=? day_start (noon 600)) (wm_diffs m).
Example C97_example :
  orderly env0 POOL exact_disciplined (noon 195) LG /\
  pool_vault env0 LG POOL (vault_of POOL) (pool_now LG) /\
  List.NoDup (map d_mining parting) /\ List.NoDup (map d_to parting) /\
  (forall k m, mining_in env0 LG POOL k m -> exists d, In d parting /\ d_mining d = k /\ d_stake d = unlocked_stake m /\
     forall x v, In (x, v) (wm_diffs m) -> x <= day_start (noon 600)) /\
  first_back (mn 1) parting = 300 /\ leaving parting = 760 /\
  match departures env0 (noon 600) POOL MINT (vault_of POOL) FILLER parting LG with
  | Ok (L, xs) => xs = [5406; 5834; 10591] /\
      balance LG (vault_of POOL) = 88518 /\ balance L (vault_of POOL) = 66687 /\ p_avail (wp (pool_now L)) = 53009 /\
      p_total (wp (pool_now LG)) = 1320 /\ p_total (wp (pool_now L)) = 0
  | Err _ => False
  end.
Proof.
  split; [apply (orderly_play_ok _ _ _ _ _ exact_b_ok); vm_compute; reflexivity|].
  split; [apply has_pool_ok; vm_compute; reflexivity|].
  split; [repeat constructor; vm_compute; intuition discriminate|]. split; [repeat constructor; vm_compute; intuition discriminate|].
  split; [|vm_compute; auto 12].
  assert (H : forallb (fun x => parting_b (fst x) (snd x)) (map_to_list (minings_of env0 POOL LG)) = true) by (vm_compute; reflexivity).
  intros k m Hm. apply (proj2 (minings_listed env0 LG POOL)) in Hm. rewrite forallb_forall in H. specialize (H _ Hm). unfold parting_b in H. cbn [fst snd] in H.
  apply andb_true_iff in H as [H1 H2]. apply existsb_exists in H1 as (d & Hd & H1). apply andb_true_iff in H1 as [H0 H1]. apply Z.eqb_eq in H0, H1.
  exists d. split; [exact Hd|]. split; [exact H0|]. split; [exact H1|]. intros x v Hin. rewrite forallb_forall in H2. specialize (H2 _ Hin). cbn [fst] in H2. lia.
Qed.

(** The delegate need not get all that was due when the first began to leave: ALICE gets 10591 and not 15092. *)
Theorem C97_all_due_refuted : exists P now ts L V w l d m L' xs,
  orderly env0 P disciplined now L /\ pool_vault env0 L P V w /\ now <= ts /\
  (forall before d after, l = before ++ d :: after -> may_part env0 L P V w l before d) /\ In d l /\ mining_in env0 L P (d_mining d) m /\
  departures env0 ts P (p_mint (wp w)) V (p_deposit_auth (wp w)) l L = Ok (L', xs) /\
  tokens_at ts (wp_ci w) m = 15092 /\ balance L' (d_to d) - balance L (d_to d) = 10591.
Proof.
  assert (X : match departures env0 (noon 600) POOL (p_mint (wp (pool_now LG))) (vault_of POOL) (p_deposit_auth (wp (pool_now LG))) parting LG with
    Ok (L', _) => balance L' ALICE_T - balance LG ALICE_T = 10591 | Err _ => False end) by (vm_compute; reflexivity).
  destruct (departures _ _ _ _ _ _ _ _) as [[L' xs]|] eqn:E; [|contradiction].
  exists POOL, (noon 195), (noon 600), LG, (vault_of POOL), (pool_now LG), parting, (Departure (mn 1) ALICE ALICE_T (mn 1) ALICE 120 PAYER), (mining_now LG (mn 1)), L', xs.
  split; [apply (orderly_play_ok _ _ _ _ _ disciplined_b_ok); vm_compute; reflexivity|].
  split; [apply has_pool_ok; vm_compute; reflexivity|]. split; [vm_compute; discriminate|].
  split; [exact C97_may_part|]. split; [right; right; left; reflexivity|].
  split; [split; [split; vm_compute; reflexivity|vm_compute; reflexivity]|]. split; [exact E|]. split; [vm_compute; reflexivity|exact X].
Qed.
Print Assumptions C97_all_due_refuted.
