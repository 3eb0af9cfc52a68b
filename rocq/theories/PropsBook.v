(** C76: the deposit authority can keep the discipline from its records of the calls. *)
From stdpp Require Import gmap.
From Verif Require Import Base OMap State Spec EffectSpec Core Ledger Program WfLemmas LedgerLemmas LedgerSpec CodecLemmas History HistoryLemmas
  Clients CoreRun Witness Scenario Attacks LedgerView LedgerCore LedgerCoreThms LedgerOrderly BookSpec Book.

(** Whoever checks every call against the books, and writes down what was called, keeps the
    discipline of Core.v: the hypothesis of C19-C22, C43 and C44 can be had without reading
    the program's accounts. *)
Theorem C76_books_suffice : forall e, env_ok e -> env_inj e -> 0 < rent_min e MINING_LEN ->
  forall P, P <> 0 -> forall now L b, kept_books e P now L b -> orderly e P disciplined now L.
Proof. intros e He Hi Hr P HP now L b H. exact (proj1 (books_orderly e He Hi Hr P HP now L b H)). Qed.
Print Assumptions C76_books_suffice.

(** What is on record is there: no more stake than is free to be withdrawn, every expiry date
    of the mining's schedule, and a mining on record as up to date is up to date. *)
Theorem C76_books_right : forall e, env_ok e -> env_inj e -> 0 < rent_min e MINING_LEN ->
  forall P, P <> 0 -> forall now L b k m, kept_books e P now L b -> mining_in e L P k m ->
  b_stake b k <= unlocked_stake m /\
  (forall d x, In (d, x) (wm_diffs m) -> In d (b_dates b k)) /\
  (b_seen b k = true -> forall w ts, is_pool e L P w -> now <= ts -> m_index (wm m) = visible ts (wp_ci w)).
Proof. exact books_right. Qed.
Print Assumptions C76_books_right.

(** So the vault covers all claims, and the stake on record can be withdrawn at any time. *)
Theorem C76_solvent : forall e, env_ok e -> env_inj e -> 0 < rent_min e MINING_LEN ->
  forall P, P <> 0 -> forall now ts L b V w l, kept_books e P now L b -> pool_vault e L P V w -> now <= ts ->
  List.NoDup (map fst l) -> (forall k a, In (k, a) l -> claim_returns e ts L P k a) ->
  p_avail (wp w) + zsum (map snd l) <= balance L V.
Proof.
  intros e He Hi Hr P HP now ts L b V w l H. eapply (solvent_returns e He Hi Hr P HP disciplined disciplined_donate disciplined_init (fun _ _ _ H => H)).
  exact (proj1 (books_orderly e He Hi Hr P HP now L b H)).
Qed.
Print Assumptions C76_solvent.

Theorem C76_stake_withdraws : forall e, env_ok e -> env_inj e -> 0 < rent_min e MINING_LEN ->
  forall P, P <> 0 -> forall now ts L b V w k m a, kept_books e P now L b -> pool_vault e L P V w -> now <= ts ->
  mining_in e L P k m -> 0 <= a <= b_stake b k ->
  exists L', exec e ts (fst (b_withdraw P k (p_deposit_auth (wp w)) k a (m_owner (wm m)) (m_owner (wm m))))
    (WithdrawMining a (m_owner (wm m)) (m_owner (wm m))) L = Ok (L', None).
Proof.
  intros e He Hi Hr P HP now ts L b V w k m a H HV Ht Hm Ha. pose proof (books_right e He Hi Hr P HP now L b k m H Hm) as (Hb & _ & _).
  eapply (withdraw_exec e He Hi Hr P HP disciplined disciplined_donate disciplined_init (fun _ _ _ H => H) now ts L V w k m a k m);
    try eassumption; [exact (proj1 (books_orderly e He Hi Hr P HP now L b H))| |left; reflexivity].
  unfold unlocked, unlocked_stake in *. lia.
Qed.
Print Assumptions C76_stake_withdraws.

(** ** A case *)
Definition few_b (ts d : Z) (l : list Z) : bool :=
  Z.of_nat (length (List.nodup Z.eq_dec (List.filter (fun x => (day_start ts <? x) && negb (x =? d)) l))) <? 50.
Definition seen_b (b : books) (d : option pubkey) : bool := match d with Some x => b_seen b x | None => true end.
Definition flex_b (p : lockup) : bool := match p with LFlex => true | _ => false end.
Definition kept_b (ts : Z) (o : op) (b : books) : bool :=
  match o with
  | ODeposit k _ p d => later_second ts && seen_b b d && few_b ts (expiry p ts) (b_dates b k)
  | OWithdraw k a _ => a <=? b_stake b k
  | OExtend k old p start base _ _ =>
      later_second ts && (flex_b old || (expiry old start <=? ts)) && (base <=? b_stake b k) && few_b ts (expiry p ts) (b_dates b k)
  | OChange _ _ d _ => later_second ts && seen_b b d
  | OSlash k _ w None => w <=? b_stake b k
  | OSlash k n _ (Some _) => n <=? b_stake b k
  | OFill _ _ from_vault => negb from_vault
  | _ => true
  end.
Lemma seen_b_ok b d : seen_b b d = true -> seen b d.
Proof. destruct d; cbn; auto. Qed.
Lemma few_b_ok ts d l : few_b ts d l = true -> few ts d l.
Proof. apply Z.ltb_lt. Qed.
Lemma kept_b_ok ts o b : kept_b ts o b = true -> kept ts o b.
Proof.
  destruct o as [k a p d|k a d|k op np st b0 a d|k od nd a|k n wt [dt|]|k n|k|r x fv|n| |k pool owner bump|k]; cbn [kept_b kept]; intros H;
    try exact I; try (apply Z.leb_le; exact H).
  - apply andb_true_iff in H as [H H3]. apply andb_true_iff in H as [H1 H2]. auto using seen_b_ok, few_b_ok.
  - apply andb_true_iff in H as [H H4]. apply andb_true_iff in H as [H H3]. apply andb_true_iff in H as [H1 H2].
    split; [exact H1|]. split; [|split; [apply Z.leb_le; exact H3|apply few_b_ok; exact H4]].
    apply orb_true_iff in H2 as [H2|H2]; [left; destruct op; discriminate || reflexivity|right; apply Z.leb_le; exact H2].
  - apply andb_true_iff in H as [H1 H2]. auto using seen_b_ok.
  - destruct fv; [discriminate|reflexivity].
Qed.

Fixpoint keeps (P : pubkey) (now : Z) (L : ledger) (b : books) (l : list call) : option books :=
  match l with
  | [] => Some b
  | (ts, (ms, i)) :: r =>
      if orderly_ix_b P (fun _ _ _ => true) now ts ms i L && match op_of env0 P ms i with Some o => kept_b ts o b | None => true end
      then match exec env0 ts ms i L with Ok (L', _) => keeps P ts L' (note_ix env0 P ts ms i b) r | Err _ => None end
      else None
  end.
Lemma keeps_run P l : forall now L b now' L' b', play now L l = Ok (now', L') -> keeps P now L b l = Some b' ->
  kept_run env0 P now L b now' L' b'.
Proof.
  induction l as [|[ts [ms i]] r IH]; cbn [play keeps]; intros now L b now' L' b' H HK.
  - injection H as <- <-. injection HK as <-. constructor.
  - destruct ((now <=? ts) && u64_b ts && range_b i) eqn:E; [|discriminate].
    destruct (orderly_ix_b _ _ _ _ _ _ _ && _) eqn:EK; [|discriminate].
    destruct (exec env0 ts ms i L) as [[L1 x]|] eqn:Ex; [|discriminate]. cbn [ensure rbind] in H.
    apply andb_true_iff in E as [E Er]. apply andb_true_iff in E as [E1 E2]. apply andb_true_iff in EK as [K1 K2]. unfold u64_b in E2.
    apply (kr_ix env0 P now L b ts ms i L1 x); [lia|unfold is_u64; lia|apply range_b_ok; exact Er|exact Ex| | |apply IH; assumption].
    + eapply orderly_ix_ok; [|exact K1]. intros; exact I.
    + unfold kept_ix. destruct (op_of env0 P ms i); [apply kept_b_ok; exact K2|exact I].
Qed.
Lemma keeps_ok P l now b : plays l now = true -> keeps P 0 L0 no_books l = Some b -> kept_books env0 P now (ledger_after l) b.
Proof.
  intros H HK. exists L0. split; [exact genesis0|]. split; [exact genesis0_derived|]. apply (keeps_run P l); [apply plays_ok; exact H|exact HK].
Qed.

(** the history of C18-C22, with every stake operation; then ALICE is brought up to date and
    BOB adds a delegated stake *)
Definition booked_calls : list call := rich ++ map (fun x => (fst x, call_of (snd x)))
  [(noon 194, OClaim 1); (noon 194, ODeposit 2 70 L3M (Some 1)); (noon 195, ODecrease 3 5)].
Definition read (b : books) (k : Z) : Z * list Z * bool := (b_stake b (mn k), b_dates b (mn k), b_seen b (mn k)).
Definition midnight (d : Z) : Z := d * 86400.
Example C76_example : exists b, kept_books env0 POOL (noon 195) (ledger_after booked_calls) b /\
  map (read b) [1; 2; 3] = [(120, [midnight 372; midnight 190], true); (770, [midnight 284; midnight 105], true); (35, [midnight 465], false)] /\
  map (fun k => match data_of (ledger_after booked_calls) (mn k) with DMining m => unlocked_stake m | _ => -1 end) [1; 2; 3] = [120; 770; 40] /\
  pool_vault env0 (ledger_after booked_calls) POOL (vault_of POOL) (pool_now (ledger_after booked_calls)).
Proof.
  destruct (keeps POOL 0 L0 no_books booked_calls) as [b|] eqn:E.
  - exists b. split; [apply keeps_ok; [vm_compute; reflexivity|exact E]|].
    assert (E' : option_map (fun b => map (read b) [1; 2; 3]) (keeps POOL 0 L0 no_books booked_calls) =
      Some [(120, [midnight 372; midnight 190], true); (770, [midnight 284; midnight 105], true); (35, [midnight 465], false)]) by (vm_compute; reflexivity).
    rewrite E in E'. cbn [option_map] in E'. apply (f_equal (fun o => match o with Some x => x | None => [] end)) in E'. split; [exact E'|].
    split; [vm_compute; reflexivity|]. apply has_pool_ok. vm_compute. reflexivity.
  - exfalso. assert (E' : match keeps POOL 0 L0 no_books booked_calls with Some _ => true | None => false end = true) by (vm_compute; reflexivity).
    rewrite E in E'. discriminate.
Qed.
