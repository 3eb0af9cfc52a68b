(** C49 for instructions and accounts. *)
From stdpp Require Import gmap.
From Verif Require Import Base OMap State Spec Core CoreRun Witness DustSpec DustRun Ledger Program Clients LedgerLemmas LedgerSpec
  CodecLemmas History Scenario Attacks LedgerView LedgerCore LedgerOrderly LossView LedgerDust.

Theorem C49_ledger_nothing_lost : forall e P now L x V w l,
  env_ok e -> env_inj e -> 0 < rent_min e MINING_LEN -> P <> 0 ->
  losing e P careful now L x -> pool_vault e L P V w -> lists_minings e L P l ->
  10000000000000000 * balance L V <=
  10000000000000000 * p_avail (wp w) + zsum (map (fun y => owed (wp_ci w) (snd y)) l) + x.
Proof. exact ledger_nothing_lost. Qed.
Print Assumptions C49_ledger_nothing_lost.

Theorem C49_ledger_claimable : forall e P now ts L x V w l a,
  env_ok e -> env_inj e -> 0 < rent_min e MINING_LEN -> P <> 0 ->
  losing e P careful now L x -> pool_vault e L P V w -> lists_minings e L P l ->
  now <= ts -> (forall i, ~ In (ts, i) (wp_ci w)) ->
  (forall k m, In (k, m) l -> claim_returns e ts L P k (a k)) ->
  10000000000000000 * balance L V <=
  10000000000000000 * p_avail (wp w) + 10000000000000000 * zsum (map (fun y => a (fst y)) l)
  + 10000000000000000 * zsum (map (fun y => 1 + count_due (day_start ts) (wm_diffs (snd y))) l) + x.
Proof. exact ledger_all_claimable. Qed.
Print Assumptions C49_ledger_claimable.

(** ** A history with every kind of instruction but the penalty DecreaseRewards *)
Definition tidy : list call := as_calls
  [init 1; init 2; init 3;
   (noon 100, ODeposit 1 100 L3M None);
   (noon 100, ODeposit 2 1000 LFlex (Some 1));
   (noon 100, ODeposit 3 50 L1Y None);
   (noon 100, OFill 100000 (noon 200) false);
   (noon 101, ODistribute);
   (noon 102, OClaim 1);
   (noon 102, ODistribute);
   (noon 103, OClaim 3);
   (noon 103, OClaim 1);
   (noon 103, OChange 2 (Some 1) (Some 3) 400);
   (noon 103, OWithdraw 2 300 (Some 1));
   (noon 103, OSlash 3 10 60 (Some (noon 465)));
   (noon 104, ODistribute);
   (noon 191, ODistribute);
   (noon 192, OExtend 1 L3M L6M (noon 100) 100 20 None);
   (noon 193, ODistribute);
   (noon 194, OClaim 2)].
Definition LT : ledger := ledger_after tidy.

(** the losses of such a history *)
Fixpoint losses (now : Z) (L : ledger) (l : list call) : Z :=
  match l with
  | [] => 0
  | (ts, (ms, i)) :: r =>
      match exec env0 ts ms i L with
      | Ok (L', x) => ix_loss env0 POOL now ts ms i L L' x + losses ts L' r
      | Err _ => 0
      end
  end.
Lemma losses_run b (D : Z -> op -> core -> Prop) (Hb : forall ts o c, b ts o c = true -> D ts o c) l :
  forall now L now' L', play now L l = Ok (now', L') -> orderly_b POOL b now L l = true ->
  losing_run env0 POOL D now L now' L' (losses now L l).
Proof.
  induction l as [|[ts [ms i]] r IH]; cbn [play orderly_b losses]; intros now L now' L' H HB.
  - injection H as <- <-. constructor.
  - destruct ((now <=? ts) && u64_b ts && range_b i) eqn:E; [|discriminate].
    destruct (exec env0 ts ms i L) as [[L1 x]|] eqn:Ex; [|discriminate]. cbn [ensure rbind] in H.
    apply andb_true_iff in E as [E Er]. apply andb_true_iff in E as [E1 E2].
    apply andb_true_iff in HB as [HB1 HB2]. unfold u64_b in E2.
    apply (lr_ix env0 POOL D now L ts ms i L1 x); [lia|unfold is_u64; lia|apply range_b_ok; exact Er|exact Ex| |apply IH; eassumption].
    eapply orderly_ix_ok; eassumption.
Qed.

(** 88029 tokens are left: 70678 to be distributed, 17347 that can be claimed and 4 that are
    lost, where the theorem allows 16 *)
Definition returned (k : pubkey) : Z :=
  match list_find (fun x => fst x = k) (due_now (noon 195) LT [1; 2; 3]) with Some (_, x) => snd x | None => 0 end.
Example C49_ledger_example :
  losing env0 POOL careful (noon 194) LT (losses 0 L0 tidy) /\
  pool_vault env0 LT POOL (vault_of POOL) (pool_now LT) /\
  lists_minings env0 LT POOL (map_to_list (minings_of env0 POOL LT)) /\
  (forall i, ~ In (noon 195, i) (wp_ci (pool_now LT))) /\
  (forall k m, In (k, m) (map_to_list (minings_of env0 POOL LT)) -> claim_returns env0 (noon 195) LT POOL k (returned k)) /\
  zsum (map (fun y => returned (fst y)) (map_to_list (minings_of env0 POOL LT))) = 17347 /\
  p_avail (wp (pool_now LT)) = 70678 /\ balance LT (vault_of POOL) = 88029 /\
  losses 0 L0 tidy / 10000000000000000 = 13.
Proof.
  split.
  { exists L0. split; [exact genesis0|]. split; [exact genesis0_derived|].
    apply (losses_run careful_b careful careful_b_ok); [apply plays_ok|]; vm_compute; reflexivity. }
  split; [apply has_pool_ok; vm_compute; reflexivity|].
  split; [apply minings_listed|]. split.
  { intros i Hin. vm_compute in Hin. repeat (destruct Hin as [Hin|Hin]; [discriminate|]). exact Hin. }
  split; [|vm_compute; auto].
  assert (H : forallb (fun x => existsb (fun j => (mn j =? fst x) &&
    match claim_now (noon 195) LT j with Some a => a =? returned (fst x) | None => false end) [1; 2; 3])
    (map_to_list (minings_of env0 POOL LT)) = true) by (vm_compute; reflexivity).
  intros k m Hin. rewrite forallb_forall in H. specialize (H _ Hin). cbn [fst] in H.
  apply existsb_exists in H as (j & _ & H). apply andb_true_iff in H as [Hj H]. apply Z.eqb_eq in Hj. subst k.
  unfold claim_now in H. destruct (exec env0 (noon 195) (fst (call_of (OClaim j))) Claim LT) as [[L' r]|] eqn:E; [|discriminate].
  destruct r as [a|]; [|discriminate]. apply Z.eqb_eq in H. subst a.
  exists (fst (call_of (OClaim j))), L'. split; [reflexivity|]. split; [reflexivity|assumption].
Qed.
