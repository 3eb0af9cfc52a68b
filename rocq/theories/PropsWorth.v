(** C60: what lowers the tokens a mining stands for (WorthSpec.v). *)
From stdpp Require Import gmap.
From Verif Require Import Base OMap State Spec EffectSpec Core CoreRun Witness Ledger Program Clients LedgerLemmas
  LedgerSpec CodecLemmas History ReachThms Scenario Attacks SuccessSpec LedgerView LedgerCore LedgerCoreThms LedgerOrderly
  WorthSpec Worth ClientSpec Plain.

(** no instruction that spares a mining lowers what it stands for *)
Theorem C60_never_falls : forall e, env_ok e -> env_inj e -> forall now ts ms i L L' r k x x',
  reached e now L -> now <= ts -> is_u64 ts -> ix_in_range i -> exec e ts ms i L = Ok (L', r) -> spares k ms i ->
  worth e ts L k x -> worth e ts L' k x' -> x <= x'.
Proof. intros. eapply call_worth; eassumption. Qed.
Print Assumptions C60_never_falls.

(** only distributions and new delegated stake raise it *)
Theorem C60_unchanged : forall e, env_ok e -> env_inj e -> forall now ts ms i L L' r k x x',
  reached e now L -> now <= ts -> is_u64 ts -> ix_in_range i -> exec e ts ms i L = Ok (L', r) -> leaves_alone k ms i ->
  worth e ts L k x -> worth e ts L' k x' -> x' = x.
Proof. intros e He Hi now ts ms i L L' r k x x' ? ? ? ? ? Hl ? ?. eapply call_worth; try eassumption. apply Hl. Qed.
Print Assumptions C60_unchanged.

(** waiting does not lower it *)
Theorem C60_waiting : forall e, env_ok e -> forall now L ts ts' k x x',
  reached e now L -> ts <= ts' -> worth e ts L k x -> worth e ts' L k x' -> x <= x'.
Proof. exact wait_worth. Qed.
Print Assumptions C60_waiting.

(** a claim pays it in full *)
Theorem C60_claim : forall e, env_ok e -> forall now ts ms L L' r k x,
  reached e now L -> now <= ts -> is_u64 ts -> exec e ts ms Claim L = Ok (L', r) -> account_at ms 3 k ->
  worth e ts L k x -> r = Some x /\ worth e ts L' k 0.
Proof. exact claim_worth. Qed.
Print Assumptions C60_claim.

(** in orderly histories every mining of the pool stands for some amount at any time, and
    it never falls as long as the mining is spared *)
Theorem C60_defined : forall e, env_ok e -> env_inj e -> 0 < rent_min e MINING_LEN -> forall P, P <> 0 ->
  forall now ts L V w k m,
  orderly e P disciplined now L -> pool_vault e L P V w -> now <= ts -> mining_in e L P k m ->
  worth e ts L k (tokens_at ts (wp_ci w) m).
Proof.
  intros e He Hi Hr P HP.
  exact (worth_defined e He Hi Hr P HP disciplined disciplined_donate disciplined_init (fun _ _ _ H => H)).
Qed.
Print Assumptions C60_defined.

Theorem C60_history : forall e, env_ok e -> env_inj e -> 0 < rent_min e MINING_LEN -> forall P, P <> 0 ->
  forall k now L now' L', sparing e P disciplined k now L now' L' ->
  forall V w m x, orderly e P disciplined now L -> pool_vault e L P V w -> mining_in e L P k m -> worth e now L k x ->
  exists x', worth e now' L' k x' /\ x <= x'.
Proof.
  intros e He Hi Hr P HP.
  exact (sparing_worth e He Hi Hr P HP disciplined disciplined_donate disciplined_init (fun _ _ _ H => H)).
Qed.
Print Assumptions C60_history.

(** ** A concrete history *)
(** what the refresh of [k] gives *)
Definition stands (ts : Z) (L : ledger) (k : pubkey) : option Z :=
  match data_of L k with
  | DMining m =>
      match data_of L (m_pool (wm m)) with
      | DPool w =>
          if (owner_of L k =? 2) && (m_type (wm m) =? 2) && (owner_of L (m_pool (wm m)) =? 2) && (p_type (wp w) =? 1) then
            match refresh ts (wp_ci w) m with Ok m1 => Some (m_unclaimed (wm m1)) | Err _ => None end
          else None
      | _ => None
      end
  | _ => None
  end.
Lemma stands_ok now ts L k x : reached env0 now L -> stands ts L k = Some x -> worth env0 ts L k x.
Proof.
  intros HR H. unfold stands in H. destruct (data_of L k) as [| | |m| | |] eqn:Em; try discriminate.
  destruct (data_of L (m_pool (wm m))) as [| |w| | | |] eqn:Ew; try discriminate.
  destruct (_ && _) eqn:E; [|discriminate].
  apply andb_true_iff in E as [E E4]. apply andb_true_iff in E as [E E3]. apply andb_true_iff in E as [E1 E2].
  apply Z.eqb_eq in E1, E2, E3, E4.
  destruct (refresh ts (wp_ci w) m) as [m1|] eqn:R; [|discriminate]. injection H as <-.
  eapply worth_refresh; [exact env0_ok|exact HR|split; eassumption|exact E2|split; eassumption|exact E4|exact R].
Qed.

Definition at_b (ms : list meta) (n : nat) (k : pubkey) : bool :=
  match nth_error (map mt_key ms) n with Some x => x =? k | None => false end.
Lemma at_b_ok ms n k : at_b ms n k = true -> account_at ms n k.
Proof.
  unfold at_b, account_at. destruct (nth_error _ _); [|discriminate]. intros H. apply Z.eqb_eq in H. congruence.
Qed.
Definition spares_b (k : pubkey) (c : call) : bool :=
  let ms := fst (snd c) in
  match snd (snd c) with
  | Claim => negb (key_at ms 3 =? k)
  | CloseMining => negb (key_at ms 0 =? k)
  | DecreaseRewards _ _ => negb (key_at ms 2 =? k)
  | WithdrawMining _ _ _ | ExtendStake _ _ _ _ _ _ _ => negb (key_at ms 3 =? k) || at_b ms 1 k
  | ChangeDelegate _ _ => negb (key_at ms 4 =? k) || at_b ms 1 k
  | _ => true
  end.
Lemma spares_ok k c : spares_b k c = true -> spares k (fst (snd c)) (snd (snd c)).
Proof.
  destruct c as [ts [ms i]]. unfold spares_b. cbn [fst snd]. destruct i; cbn [spares]; intros H; auto;
    intros A; apply key_at_ok in A; rewrite A, Z.eqb_refl in H; cbn [negb orb] in H; try discriminate;
    apply at_b_ok; exact H.
Qed.
Lemma sparing_play k b (D : Z -> op -> core -> Prop) (Hb : forall ts o c, b ts o c = true -> D ts o c) l :
  forall now L now' L', play now L l = Ok (now', L') -> orderly_b POOL b now L l = true ->
  forallb (spares_b k) l = true -> sparing env0 POOL D k now L now' L'.
Proof.
  induction l as [|[ts [ms i]] r IH]; cbn [play orderly_b forallb]; intros now L now' L' H HB HS.
  - injection H as <- <-. constructor.
  - destruct ((now <=? ts) && u64_b ts && range_b i) eqn:E; [|discriminate].
    destruct (exec env0 ts ms i L) as [[L1 x]|] eqn:Ex; [|discriminate]. cbn [ensure rbind] in H.
    apply andb_true_iff in E as [E Er]. apply andb_true_iff in E as [E1 E2].
    apply andb_true_iff in HB as [HB1 HB2]. apply andb_true_iff in HS as [HS1 HS2]. unfold u64_b in E2.
    apply (sp_ix env0 POOL D k now L ts ms i L1 x); [lia|unfold is_u64; lia|apply range_b_ok; exact Er|exact Ex| | |apply IH; assumption].
    + eapply orderly_ix_ok; eassumption.
    + exact (spares_ok k (ts, (ms, i)) HS1).
Qed.

(** CAROL's mining is brought up to date, gets delegated stake, loses stake by a slash and a
    withdrawal, and lives through three distributions *)
Definition onwards : list call := map (fun x => (fst x, call_of (snd x)))
  [(noon 195, ODistribute); (noon 196, OWithdraw 3 5 None); (noon 196, ODeposit 2 5000 L3M (Some 3));
   (noon 196, OSlash 3 5 5 None); (noon 196, ODistribute); (noon 197, ODeposit 3 70 L3M None); (noon 197, ODistribute)].
Definition LW : ledger := ledger_after (rich ++ onwards).

Example C60_example :
  orderly env0 POOL disciplined (noon 194) LR /\ pool_vault env0 LR POOL (vault_of POOL) (pool_now LR) /\
  sparing env0 POOL disciplined (mn 3) (noon 194) LR (noon 197) LW /\
  worth env0 (noon 194) LR (mn 3) 9082 /\ worth env0 (noon 197) LW (mn 3) 26139.
Proof.
  assert (H1 : plays rich (noon 194) = true) by (vm_compute; reflexivity).
  assert (H2 : plays (rich ++ onwards) (noon 197) = true) by (vm_compute; reflexivity).
  split; [apply (orderly_play_ok _ _ _ _ _ disciplined_b_ok); vm_compute; reflexivity|].
  split; [apply has_pool_ok; vm_compute; reflexivity|].
  split; [apply (sparing_play _ _ _ disciplined_b_ok onwards);
            [exact (plays_then rich onwards _ _ H1 H2)|vm_compute; reflexivity|vm_compute; reflexivity]|].
  split; [apply (stands_ok (noon 194)); [exact (plays_reached _ _ H1)|vm_compute; reflexivity]|].
  apply (stands_ok (noon 197)); [exact (plays_reached _ _ H2)|vm_compute; reflexivity].
Qed.

(** single calls at one moment: a withdrawal and a slash of the mining itself change nothing,
    new delegated stake raises it, a distribution counts from the next day on *)
Definition stands_after (ts : Z) (L : ledger) (k : pubkey) (o : op) : option Z :=
  match exec env0 ts (fst (call_of o)) (snd (call_of o)) L with Ok (L', _) => stands ts L' k | Err _ => None end.
Example C60_example_calls :
  stands (noon 195) LR (mn 3) = Some 9082 /\
  map (stands_after (noon 195) LR (mn 3))
    [OWithdraw 3 40 None; OSlash 3 10 210 (Some (noon 465)); ODeposit 3 1000 L1Y None; ODeposit 2 100 LFlex (Some 3); ODistribute;
     OChange 2 None (Some 3) 100; OExtend 3 LFlex L3M (noon 100) 40 7 None]
  = [Some 9082; Some 9082; Some 9082; Some 10501; Some 14416; Some 10501; Some 9082] /\
  claim_now (noon 195) LR 3 = Some 9082 /\ stands_after (noon 195) LR (mn 3) (OClaim 3) = Some 0.
Proof. split; [|split; [|split]]; vm_compute; reflexivity. Qed.

(** the ledger after one more call *)
Lemma one_more l now ts ms i L' r :
  plays l now = true -> plays (l ++ [(ts, (ms, i))]) ts = true -> exec env0 ts ms i (ledger_after l) = Ok (L', r) ->
  L' = ledger_after (l ++ [(ts, (ms, i))]).
Proof.
  intros H1 H2 X. pose proof (plays_then _ _ _ _ H1 H2) as Q. cbn [play] in Q. rewrite X in Q.
  destruct (ensure _ _); [|discriminate Q]. cbn [rbind] in Q. injection Q as Q. exact Q.
Qed.

(** The exceptions are real, even in orderly histories: somebody who delegated to [k] takes
    tokens from [k] by leaving before [k] was brought up to date, and a penalty takes tokens
    already earned.  Neither needs the owner's signature. *)
Theorem C60_leaving_refuted : exists now ts L ms a o d L' r k m x x',
  orderly env0 POOL disciplined now L /\ now <= ts /\
  orderly_ix env0 POOL disciplined now ts ms (WithdrawMining a o d) L /\
  exec env0 ts ms (WithdrawMining a o d) L = Ok (L', r) /\
  mining_in env0 L POOL k m /\ ~ signed ms (m_owner (wm m)) /\ ~ account_at ms 1 k /\
  worth env0 ts L k x /\ worth env0 ts L' k x' /\ x' < x.
Proof.
  assert (H1 : plays rich (noon 194) = true) by (vm_compute; reflexivity).
  pose (ms := fst (call_of (OWithdraw 2 400 (Some 3)))).
  assert (HS : runs LR (noon 195, (ms, WithdrawMining 400 BOB CAROL)) = true) by (vm_compute; reflexivity). unfold runs in HS. cbn [fst snd] in HS.
  destruct (exec env0 (noon 195) ms (WithdrawMining 400 BOB CAROL) LR) as [[L' r]|] eqn:X; [|discriminate HS].
  destruct (data_of LR (mn 3)) as [| | |m| | |] eqn:Em; try (exfalso; vm_compute in Em; discriminate Em).
  exists (noon 194), (noon 195), LR, ms, 400, BOB, CAROL, L', r, (mn 3), m, 9082, 3405.
  split; [apply (orderly_play_ok _ _ _ _ _ disciplined_b_ok); vm_compute; reflexivity|].
  split; [unfold noon; lia|].
  split; [apply (orderly_ix_ok _ disciplined_b _ _ _ _ _ _ disciplined_b_ok); vm_compute; reflexivity|].
  split; [exact X|]. split; [split; [split; [vm_compute; reflexivity|exact Em]|vm_compute in Em; injection Em as <-; reflexivity]|].
  split; [vm_compute in Em; injection Em as <-; intros Hs; apply is_signer_ok in Hs; vm_compute in Hs; discriminate Hs|].
  split; [intros A; apply key_at_ok in A; vm_compute in A; discriminate A|].
  split; [apply (stands_ok (noon 194)); [exact (plays_reached _ _ H1)|vm_compute; reflexivity]|].
  assert (H2 : plays (rich ++ [(noon 195, (ms, WithdrawMining 400 BOB CAROL))]) (noon 195) = true) by (vm_compute; reflexivity).
  assert (E : L' = ledger_after (rich ++ [(noon 195, (ms, WithdrawMining 400 BOB CAROL))])).
  { exact (one_more _ _ _ _ _ _ _ H1 H2 X). }
  split; [|lia]. rewrite E. apply (stands_ok (noon 195)); [exact (plays_reached _ _ H2)|vm_compute; reflexivity].
Qed.
Print Assumptions C60_leaving_refuted.

Theorem C60_penalty_refuted : exists now ts L ms o n L' r k m x x',
  orderly env0 POOL disciplined now L /\ now <= ts /\
  orderly_ix env0 POOL disciplined now ts ms (DecreaseRewards o n) L /\
  exec env0 ts ms (DecreaseRewards o n) L = Ok (L', r) /\
  mining_in env0 L POOL k m /\ ~ signed ms (m_owner (wm m)) /\
  worth env0 ts L k x /\ worth env0 ts L' k x' /\ x' < x.
Proof.
  assert (H1 : plays rich (noon 194) = true) by (vm_compute; reflexivity).
  pose (ms := fst (call_of (ODecrease 3 240))).
  assert (HS : runs LR (noon 195, (ms, DecreaseRewards CAROL 240)) = true) by (vm_compute; reflexivity). unfold runs in HS. cbn [fst snd] in HS.
  destruct (exec env0 (noon 195) ms (DecreaseRewards CAROL 240) LR) as [[L' r]|] eqn:X; [|discriminate HS].
  destruct (data_of LR (mn 3)) as [| | |m| | |] eqn:Em; try (exfalso; vm_compute in Em; discriminate Em).
  exists (noon 194), (noon 195), LR, ms, CAROL, 240, L', r, (mn 3), m, 9082, 5676.
  split; [apply (orderly_play_ok _ _ _ _ _ disciplined_b_ok); vm_compute; reflexivity|].
  split; [unfold noon; lia|].
  split; [apply (orderly_ix_ok _ disciplined_b _ _ _ _ _ _ disciplined_b_ok); vm_compute; reflexivity|].
  split; [exact X|]. split; [split; [split; [vm_compute; reflexivity|exact Em]|vm_compute in Em; injection Em as <-; reflexivity]|].
  split; [vm_compute in Em; injection Em as <-; intros Hs; apply is_signer_ok in Hs; vm_compute in Hs; discriminate Hs|].
  split; [apply (stands_ok (noon 194)); [exact (plays_reached _ _ H1)|vm_compute; reflexivity]|].
  assert (H2 : plays (rich ++ [(noon 195, (ms, DecreaseRewards CAROL 240))]) (noon 195) = true) by (vm_compute; reflexivity).
  assert (E : L' = ledger_after (rich ++ [(noon 195, (ms, DecreaseRewards CAROL 240))])).
  { exact (one_more _ _ _ _ _ _ _ H1 H2 X). }
  split; [|lia]. rewrite E. apply (stands_ok (noon 195)); [exact (plays_reached _ _ H2)|vm_compute; reflexivity].
Qed.
Print Assumptions C60_penalty_refuted.
