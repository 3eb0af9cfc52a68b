(** C56 for instructions and accounts. *)
From stdpp Require Import gmap.
From Verif Require Import Base OMap State Spec Core CoreRun Witness DustSpec DustRun FairSpec Fair Ledger Program Clients LedgerLemmas LedgerSpec
  CodecLemmas History Scenario Attacks LedgerView LedgerCore LedgerCoreThms LedgerOrderly LossView LedgerDust FairView LedgerFair PropsFair.

(** what a mining was paid, even if it is closed by now *)
Theorem C56_ledger_paid_at_most : forall e P now L x V w k,
  env_ok e -> env_inj e -> 0 < rent_min e MINING_LEN -> P <> 0 ->
  earning e P disciplined now L x -> pool_vault e L P V w ->
  10000000000000000 * t_paid (x k) <= t_fair (x k).
Proof. exact ledger_paid_at_most. Qed.
Print Assumptions C56_ledger_paid_at_most.

(** with what it can claim now *)
Theorem C56_ledger_never_more : forall e P now ts L x V w k m a,
  env_ok e -> env_inj e -> 0 < rent_min e MINING_LEN -> P <> 0 ->
  earning e P disciplined now L x -> pool_vault e L P V w -> mining_in e L P k m ->
  now <= ts -> claim_returns e ts L P k a ->
  10000000000000000 * (t_paid (x k) + a) <= t_fair (x k).
Proof. exact ledger_never_more. Qed.
Print Assumptions C56_ledger_never_more.

Theorem C56_ledger_hardly_less : forall e P now ts L x V w k m a,
  env_ok e -> env_inj e -> 0 < rent_min e MINING_LEN -> P <> 0 ->
  earning e P careful now L x -> pool_vault e L P V w -> mining_in e L P k m ->
  now <= ts -> (forall i, ~ In (ts, i) (wp_ci w)) -> claim_returns e ts L P k a ->
  t_fair (x k) <= 10000000000000000 * (t_paid (x k) + a) + t_lost (x k)
    + 10000000000000000 * (1 + count_due (day_start ts) (wm_diffs m)).
Proof. exact ledger_hardly_less. Qed.
Print Assumptions C56_ledger_hardly_less.

(** who has left was paid everything before *)
Theorem C56_ledger_all_paid : forall e P now L x V w k,
  env_ok e -> env_inj e -> 0 < rent_min e MINING_LEN -> P <> 0 ->
  earning e P careful now L x -> pool_vault e L P V w -> (forall m, ~ mining_in e L P k m) ->
  t_fair (x k) <= 10000000000000000 * t_paid (x k) + t_lost (x k).
Proof. exact ledger_all_paid. Qed.
Print Assumptions C56_ledger_all_paid.

(** who never has less at stake than another does not get less *)
Theorem C56_ledger_no_favours : forall e P now ts L x V w j k mj mk a b,
  env_ok e -> env_inj e -> 0 < rent_min e MINING_LEN -> P <> 0 ->
  earning e P (fun ts o c => careful ts o c /\ smaller_stake j k ts o c) now L x -> pool_vault e L P V w ->
  mining_in e L P j mj -> mining_in e L P k mk ->
  now <= ts -> (forall i, ~ In (ts, i) (wp_ci w)) -> claim_returns e ts L P j a -> claim_returns e ts L P k b ->
  10000000000000000 * (t_paid (x j) + a) <= 10000000000000000 * (t_paid (x k) + b) + t_lost (x k)
    + 10000000000000000 * (1 + count_due (day_start ts) (wm_diffs mk)).
Proof. exact ledger_not_less_than. Qed.
Print Assumptions C56_ledger_no_favours.

(** ** A history in which the third staker leaves *)
Definition fair_calls : list call := as_calls
  [init 1; init 2; init 3;
   (noon 100, ODeposit 1 100 L3M None);
   (noon 100, ODeposit 2 1000 LFlex (Some 1));
   (noon 100, ODeposit 3 500 LFlex None);
   (noon 100, OFill 100000 (noon 200) false);
   (noon 101, ODistribute);
   (noon 102, OClaim 1);
   (noon 102, ODistribute);
   (noon 103, OClaim 3);
   (noon 103, OClaim 1);
   (noon 103, OChange 2 (Some 1) None 400);
   (noon 103, OWithdraw 2 300 None);
   (noon 103, OSlash 3 10 10 None);
   (noon 104, ODistribute);
   (noon 105, OClaim 3);
   (noon 105, OWithdraw 3 490 None);
   (noon 105, OClose 3);
   (noon 191, ODistribute);
   (noon 192, OExtend 1 L3M L6M (noon 100) 100 20 None);
   (noon 193, ODistribute);
   (noon 194, OClaim 2)].
Definition LF : ledger := ledger_after fair_calls.

(** the tallies of such a history *)
Fixpoint earnings (now : Z) (L : ledger) (l : list call) (x : pubkey -> tally) : pubkey -> tally :=
  match l with
  | [] => x
  | (ts, (ms, i)) :: r =>
      match exec env0 ts ms i L with
      | Ok (L', a) => earnings ts L' r (fun k => ix_tally env0 POOL now ts ms i L L' a k (x k))
      | Err _ => x
      end
  end.
Lemma earnings_run b (D : Z -> op -> core -> Prop) (Hb : forall ts o c, b ts o c = true -> D ts o c) l :
  forall now L x now' L', play now L l = Ok (now', L') -> orderly_b POOL b now L l = true ->
  earning_run env0 POOL D now L x now' L' (earnings now L l x).
Proof.
  induction l as [|[ts [ms i]] r IH]; cbn [play orderly_b earnings]; intros now L x now' L' H HB.
  - injection H as <- <-. constructor.
  - destruct ((now <=? ts) && u64_b ts && range_b i) eqn:E; [|discriminate].
    destruct (exec env0 ts ms i L) as [[L1 a]|] eqn:Ex; [|discriminate]. cbn [ensure rbind] in H.
    apply andb_true_iff in E as [E Er]. apply andb_true_iff in E as [E1 E2].
    apply andb_true_iff in HB as [HB1 HB2]. unfold u64_b in E2.
    apply (er_ix env0 POOL D now L x ts ms i L1 a); [lia|unfold is_u64; lia|apply range_b_ok; exact Er|exact Ex| |apply IH; eassumption].
    eapply orderly_ix_ok; eassumption.
Qed.
Definition earned_by (l : list call) (j : Z) : tally := earnings 0 L0 l (fun _ => no_tally) (mn j).
Definition show (l : list call) (ts : Z) (j : Z) : Z * option Z * Z * Z :=
  let x := earned_by l j in
  (t_paid x, claim_now ts (ledger_after l) j, t_fair x / 10000000000000000, t_lost x / 10000000000000000).

(** a run as a theorem wants it *)
Lemma earning_ok b (D : Z -> op -> core -> Prop) l now :
  (forall ts o c, b ts o c = true -> D ts o c) ->
  plays l now = true -> orderly_b POOL b 0 L0 l = true ->
  earning env0 POOL D now (ledger_after l) (earnings 0 L0 l (fun _ => no_tally)).
Proof.
  intros Hb Hp Ho. exists L0. split; [exact genesis0|]. split; [exact genesis0_derived|].
  apply (earnings_run b D Hb); [apply plays_ok; exact Hp|exact Ho].
Qed.
Definition mining_b (L : ledger) (k : pubkey) : bool :=
  match minings_of env0 POOL L !! k with Some _ => true | None => false end.
Lemma mining_b_ok L k : mining_b L k = true -> exists m, mining_in env0 L POOL k m.
Proof.
  unfold mining_b. destruct (minings_of env0 POOL L !! k) as [m|] eqn:E; [|discriminate].
  intros _. exists m. apply in_view. exact E.
Qed.
Lemma claim_now_ok ts L j a : claim_now ts L j = Some a -> claim_returns env0 ts L POOL (mn j) a.
Proof.
  unfold claim_now. intros H.
  destruct (exec env0 ts (fst (call_of (OClaim j))) Claim L) as [[L' r]|] eqn:E; [|discriminate]. subst r.
  exists (fst (call_of (OClaim j))), L'. split; [reflexivity|]. split; [reflexivity|assumption].
Qed.

(** paid, claimable, share and the bound on what rounding took, in whole tokens: the first
    staker got 2 tokens less than the share, the others 1 *)
Example C56_ledger_example :
  earning env0 POOL careful (noon 194) LF (earnings 0 L0 fair_calls (fun _ => no_tally)) /\
  earning env0 POOL disciplined (noon 194) LF (earnings 0 L0 fair_calls (fun _ => no_tally)) /\
  pool_vault env0 LF POOL (vault_of POOL) (pool_now LF) /\
  (forall i, ~ In (noon 195, i) (wp_ci (pool_now LF))) /\
  (exists m, mining_in env0 LF POOL (mn 1) m) /\ claim_returns env0 (noon 195) LF POOL (mn 1) 15047 /\
  (exists m, mining_in env0 LF POOL (mn 2) m) /\ claim_returns env0 (noon 195) LF POOL (mn 2) 0 /\
  (forall m, ~ mining_in env0 LF POOL (mn 3) m) /\
  map (show fair_calls (noon 195)) [1; 2; 3] =
    [(906, Some 15047, 15955, 5); (12733, Some 0, 12734, 5); (630, None, 631, 7)].
Proof.
  split; [apply (earning_ok careful_b); [exact careful_b_ok| |]; vm_compute; reflexivity|].
  split; [apply (earning_ok disciplined_b); [exact disciplined_b_ok| |]; vm_compute; reflexivity|].
  split; [apply has_pool_ok; vm_compute; reflexivity|]. split.
  { intros i Hin. vm_compute in Hin. repeat (destruct Hin as [Hin|Hin]; [discriminate|]). exact Hin. }
  split; [apply mining_b_ok; vm_compute; reflexivity|]. split; [apply claim_now_ok; vm_compute; reflexivity|].
  split; [apply mining_b_ok; vm_compute; reflexivity|]. split; [apply claim_now_ok; vm_compute; reflexivity|].
  split; [|vm_compute; reflexivity].
  intros m Hm. apply in_view in Hm.
  assert (E : mining_b LF (mn 3) = false) by (vm_compute; reflexivity).
  unfold mining_b in E. unfold pubkey in *. rewrite Hm in E. discriminate.
Qed.

(** the two equal stakers of C56_example_two, one claiming every day and one never *)
Example C56_ledger_example_two :
  earning env0 POOL (fun ts o c => careful ts o c /\ smaller_stake (mn 1) (mn 2) ts o c) (noon 103) (ledger_after (as_calls h_two))
    (earnings 0 L0 (as_calls h_two) (fun _ => no_tally)) /\
  earning env0 POOL (fun ts o c => careful ts o c /\ smaller_stake (mn 2) (mn 1) ts o c) (noon 103) (ledger_after (as_calls h_two))
    (earnings 0 L0 (as_calls h_two) (fun _ => no_tally)) /\
  map (show (as_calls h_two) (noon 103)) [1; 2] = [(927, Some 0, 929, 4); (0, Some 929, 929, 1)].
Proof.
  split; [apply (earning_ok (both_b (mn 1) (mn 2))); [apply both_b_ok| |]; vm_compute; reflexivity|].
  split; [apply (earning_ok (both_b (mn 2) (mn 1))); [apply both_b_ok| |]; vm_compute; reflexivity|].
  vm_compute; reflexivity.
Qed.

(** ** Without the conditions *)
(** the delegate of a new stake, not refreshed before, is paid for the days before *)
Theorem C56_ledger_stale_delegate_refuted :
  exists e P now L x V w k m a,
    env_ok e /\ env_inj e /\ 0 < rent_min e MINING_LEN /\ P <> 0 /\
    earning e P (all_but FreshDelegate) now L x /\ pool_vault e L P V w /\ mining_in e L P k m /\
    claim_returns e now L P k a /\ t_fair (x k) < 10000000000000000 * (t_paid (x k) + a).
Proof.
  assert (H : exists m, mining_in env0 (ledger_after (as_calls h_stale_delegate)) POOL (mn 3) m)
    by (apply mining_b_ok; vm_compute; reflexivity).
  destruct H as [m Hm].
  destruct (claim_now (noon 103) (ledger_after (as_calls h_stale_delegate)) 3) as [a|] eqn:Ha;
    [|exfalso; revert Ha; vm_compute; discriminate].
  exists env0, POOL, (noon 103), (ledger_after (as_calls h_stale_delegate)),
    (earnings 0 L0 (as_calls h_stale_delegate) (fun _ => no_tally)), (vault_of POOL),
    (pool_now (ledger_after (as_calls h_stale_delegate))), (mn 3), m, a.
  split; [exact env0_ok|]. split; [exact env0_inj|]. split; [reflexivity|]. split; [discriminate|].
  split; [apply (earning_ok (all_but_b FreshDelegate)); [apply all_but_b_ok| |]; vm_compute; reflexivity|].
  split; [apply has_pool_ok; vm_compute; reflexivity|]. split; [exact Hm|].
  split; [apply claim_now_ok; exact Ha|].
  revert Ha. vm_compute. intros Ha. injection Ha as <-. reflexivity.
Qed.
Print Assumptions C56_ledger_stale_delegate_refuted.
