(** C81: what a pool owes beyond its vault is exactly the sum of what its events added. *)
From stdpp Require Import gmap.
From Verif Require Import Base OMap State Spec Core CoreRun Witness DustSpec DustRun Ledger Program Clients LedgerLemmas LedgerSpec
  CodecLemmas History Scenario Attacks LedgerView LedgerCore LedgerOrderly LossView LedgerDust PropsLedgerDust DebtSpec DebtLedger.

Theorem C81_debt : forall e P now L x y V w l,
  env_ok e -> env_inj e -> 0 < rent_min e MINING_LEN -> P <> 0 ->
  owing e P now L x y -> pool_vault e L P V w -> lists_minings e L P l ->
  exists q, 0 <= q <= y /\
    10000000000000000 * p_avail (wp w) + zsum (map (fun z => owed (wp_ci w) (snd z)) l) =
    10000000000000000 * balance L V + x - q.
Proof. intros e P now L x y V w l H1 H2 H3 H4. exact (debt_is e H1 H2 H3 P H4 now L x y V w l). Qed.
Print Assumptions C81_debt.

Theorem C81_claims : forall e P now ts L x y V w l a,
  env_ok e -> env_inj e -> 0 < rent_min e MINING_LEN -> P <> 0 ->
  owing e P now L x y -> pool_vault e L P V w -> lists_minings e L P l -> now <= ts ->
  (forall k m, In (k, m) l -> claim_returns e ts L P k (a k)) ->
  10000000000000000 * (p_avail (wp w) + zsum (map (fun z => a (fst z)) l)) <= 10000000000000000 * balance L V + x /\
  ((forall i, ~ In (ts, i) (wp_ci w)) ->
   10000000000000000 * balance L V + x <=
   10000000000000000 * (p_avail (wp w) + zsum (map (fun z => a (fst z)) l)) + y
   + (10000000000000000 - 1) * zsum (map (fun z => 1 + count_due (day_start ts) (wm_diffs (snd z))) l)).
Proof. intros e P now ts L x y V w l a H1 H2 H3 H4. exact (debt_claims e H1 H2 H3 P H4 now ts L x y V w l a). Qed.
Print Assumptions C81_claims.

(** ** Histories *)
Fixpoint sums (now : Z) (L : ledger) (l : list call) : Z * Z :=
  match l with
  | [] => (0, 0)
  | (ts, (ms, i)) :: r =>
      match exec env0 ts ms i L with
      | Ok (L', x) =>
          let s := sums ts L' r in
          (ix_adds env0 POOL now ts ms i L L' x + fst s, ix_slack env0 POOL now ts ms i L + snd s)
      | Err _ => (0, 0)
      end
  end.
Definition any_b (ts : Z) (o : op) (c : core) : bool := true.
Lemma any_b_ok ts o c : any_b ts o c = true -> anything ts o c.
Proof. intros _. exact I. Qed.
Lemma sums_run l :
  forall now L now' L', play now L l = Ok (now', L') -> orderly_b POOL any_b now L l = true ->
  owing_run env0 POOL now L now' L' (fst (sums now L l)) (snd (sums now L l)).
Proof.
  induction l as [|[ts [ms i]] r IH]; cbn [play orderly_b sums]; intros now L now' L' H HB.
  - injection H as <- <-. constructor.
  - destruct ((now <=? ts) && u64_b ts && range_b i) eqn:E; [|discriminate].
    destruct (exec env0 ts ms i L) as [[L1 x]|] eqn:Ex; [|discriminate]. cbn [ensure rbind] in H.
    apply andb_true_iff in E as [E Er]. apply andb_true_iff in E as [E1 E2].
    apply andb_true_iff in HB as [HB1 HB2]. unfold u64_b in E2. cbv zeta. cbn [fst snd].
    apply (ow_ix env0 POOL now L ts ms i L1 x); [lia|unfold is_u64; lia|apply range_b_ok; exact Er|exact Ex| |apply IH; eassumption].
    eapply orderly_ix_ok; [exact any_b_ok|eassumption].
Qed.

(** The events C20 forbids, among others: stake delegated to a mining that is behind, the vault
    filled from itself, a penalty, an extension before the day, minings of a pool without stake *)
Definition wild : list call := as_calls
  [init 1; init 2; init 3;
   (noon 100, ODeposit 1 100 L3M None);
   (noon 100, ODeposit 2 1000 LFlex None);
   (noon 100, OFill 100000 (noon 200) false);
   (noon 101, ODistribute);
   (noon 102, ODistribute);
   (noon 103, ODeposit 2 500 L1Y (Some 1));
   (noon 103, ODeposit 3 50 L1Y None);
   (noon 104, OChange 2 (Some 1) (Some 3) 200);
   (noon 105, OFill 5000 (noon 220) true);
   (noon 105, OWithdraw 2 200 (Some 3));
   (86400 * 106, ODistribute);
   (86400 * 106, ODeposit 3 77 LFlex None);
   (noon 106, OSlash 3 7 7 None);
   (noon 107, OExtend 1 L3M L6M (noon 100) 100 20 None);
   (noon 108, ODistribute);
   (noon 109, ODecrease 2 700);
   (noon 109, OClaim 1)].
Definition LW : ledger := ledger_after wild.

(** The vault holds 98568 tokens, but 101138 are to be distributed and 3026 can be claimed: 5596
    are missing.  The events added 5597.74 (850 by the late delegation, 5000 by the vault filled
    from itself, 15.1 by the stake of the second of a distribution; the penalty took 267.4 away)
    and may have rounded 15 away. *)
Definition to_get (k : pubkey) : Z :=
  match list_find (fun x => fst x = k) (due_now (noon 110) LW [1; 2; 3]) with Some (_, x) => snd x | None => 0 end.
Example C81_example :
  owing env0 POOL (noon 109) LW 55977427953447519413 150000000000011931 /\
  pool_vault env0 LW POOL (vault_of POOL) (pool_now LW) /\
  lists_minings env0 LW POOL (map_to_list (minings_of env0 POOL LW)) /\
  (forall k m, In (k, m) (map_to_list (minings_of env0 POOL LW)) -> claim_returns env0 (noon 110) LW POOL k (to_get k)) /\
  (forall i, ~ In (noon 110, i) (wp_ci (pool_now LW))) /\
  zsum (map (fun z => to_get (fst z)) (map_to_list (minings_of env0 POOL LW))) = 3026 /\
  p_avail (wp (pool_now LW)) = 101138 /\ balance LW (vault_of POOL) = 98568.
Proof.
  split.
  { exists L0. split; [exact genesis0|]. split; [exact genesis0_derived|].
    assert (E : sums 0 L0 wild = (55977427953447519413, 150000000000011931)) by (vm_compute; reflexivity).
    change 55977427953447519413 with (fst (55977427953447519413, 150000000000011931)).
    change 150000000000011931 with (snd (55977427953447519413, 150000000000011931)) at 2. rewrite <- E.
    apply sums_run; [apply plays_ok|]; vm_compute; reflexivity. }
  split; [apply has_pool_ok; vm_compute; reflexivity|].
  split; [apply minings_listed|]. split.
  2:{ split; [|vm_compute; auto]. intros i Hin. vm_compute in Hin. repeat (destruct Hin as [Hin|Hin]; [discriminate|]). exact Hin. }
  assert (H : forallb (fun x => existsb (fun j => (mn j =? fst x) &&
    match claim_now (noon 110) LW j with Some a => a =? to_get (fst x) | None => false end) [1; 2; 3])
    (map_to_list (minings_of env0 POOL LW)) = true) by (vm_compute; reflexivity).
  intros k m Hin. rewrite forallb_forall in H. specialize (H _ Hin). cbn [fst] in H.
  apply existsb_exists in H as (j & _ & H). apply andb_true_iff in H as [Hj H]. apply Z.eqb_eq in Hj. subst k.
  unfold claim_now in H. destruct (exec env0 (noon 110) (fst (call_of (OClaim j))) Claim LW) as [[L' r]|] eqn:E; [|discriminate].
  destruct r as [a|]; [|discriminate]. apply Z.eqb_eq in H. subst a.
  exists (fst (call_of (OClaim j))), L'. split; [reflexivity|]. split; [reflexivity|assumption].
Qed.

(** without such events nothing is added and the vault covers everything *)
Definition lost_tidy : Z := Eval vm_compute in snd (sums 0 L0 tidy).
Example C81_example_tidy :
  owing env0 POOL (noon 194) LT 0 lost_tidy /\ lost_tidy / 10000000000000000 = 17.
Proof.
  assert (E : sums 0 L0 tidy = (0, lost_tidy)) by (vm_compute; reflexivity).
  split; [|vm_compute; reflexivity]. exists L0. split; [exact genesis0|]. split; [exact genesis0_derived|].
  assert (H : owing_run env0 POOL 0 L0 (noon 194) LT (fst (sums 0 L0 tidy)) (snd (sums 0 L0 tidy)))
    by (apply sums_run; [apply plays_ok|]; vm_compute; reflexivity).
  rewrite E in H. exact H.
Qed.
