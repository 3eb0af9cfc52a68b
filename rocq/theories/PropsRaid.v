(** C80: a stake of one second collects the pool's whole past. *)
From stdpp Require Import gmap.
From Verif Require Import Base State Spec EffectSpec Ledger Program Clients LedgerLemmas LedgerSpec CodecLemmas History HistoryThms ReachThms
  SuccessSpec Scenario Attacks ClientSpec EffectExamples BackSpec RaidSpec Raid.

(** A staker of the pool deposits [a] without a lock, delegating it to a mining opened for the
    purpose, and withdraws it in the same second; the new mining claims.  All four calls succeed;
    [whole_past ts w a] tokens move from the vault to the accomplice, and every stake of the pool
    is as if nothing had happened. *)
Theorem C80_raid : forall e, env_ok e -> forall now ts L P w mint V v O k mk W j B D t a,
  reached e now L -> now <= ts -> is_u64 ts -> fits (expiry LFlex ts) ->
  raid e ts L P w mint V v O k mk W j B D t a ->
  exists L', History.run e now L (four_calls e ts (p_deposit_auth (wp w)) P mint V O k W j B D a) ts L' /\
    data_of L' V = DToken (Token (t_mint v) (t_owner v) (t_amount v - whole_past ts w a)) /\
    data_of L' D = DToken (Token (t_mint t) (t_owner t) (t_amount t + whole_past ts w a)) /\
    exists w' m' n', is_pool e L' P w' /\ only_expired ts w w' /\ is_mining e L' k m' /\ only_updated ts (wp_ci w) mk m' /\
      is_mining e L' j n' /\ m_share (wm n') = 0 /\ m_sfo (wm n') = 0 /\ m_unclaimed (wm n') = 0.
Proof. exact raid_pays. Qed.
Print Assumptions C80_raid.

(** Any target can be hit: for [x] tokens the amount is [x] over the index, and what is missed is
    at most what one unit of stake has earned in the pool's life, and a token.  With the vault as the
    target no more than that is left in it. *)
Theorem C80_target : forall i x, 0 < i -> 0 <= x ->
  let y := i * (x * 10000000000000000 / i) / 10000000000000000 in y <= x <= y + i / 10000000000000000 + 1.
Proof. intros i x Hi Hx. pose proof (loot_near i x Hi Hx) as H. cbv zeta in *. lia. Qed.
Print Assumptions C80_target.

Theorem C80_vault : forall e, env_ok e -> forall now ts L P w mint V v O k mk W j B D t,
  reached e now L -> now <= ts -> is_u64 ts -> fits (expiry LFlex ts) -> 0 < visible ts (wp_ci w) ->
  raid e ts L P w mint V v O k mk W j B D t (t_amount v * 10000000000000000 / visible ts (wp_ci w)) ->
  exists L' v', History.run e now L
      (four_calls e ts (p_deposit_auth (wp w)) P mint V O k W j B D (t_amount v * 10000000000000000 / visible ts (wp_ci w))) ts L' /\
    data_of L' V = DToken v' /\ 0 <= t_amount v' <= visible ts (wp_ci w) / 10000000000000000 + 1.
Proof.
  intros e He now ts L P w mint V v O k mk W j B D t HR Ht Hu Hx Hv R.
  destruct (raid_pays e He now ts L P w mint V v O k mk W j B D t _ HR Ht Hu Hx R) as (L' & H1 & H2 & _).
  eexists L', _. split; [exact H1|]. split; [exact H2|]. cbn [t_amount].
  assert (H0 : 0 <= t_amount v) by (destruct (ra_loot _ _ _ _ _ _ _ _ _ _ _ _ _ _ _ _ _ R); lia).
  pose proof (loot_near _ _ Hv H0) as N. cbv zeta in N. fold (whole_past ts w (t_amount v * 10000000000000000 / visible ts (wp_ci w))) in N. lia.
Qed.
Print Assumptions C80_vault.

(** The same stake can be used again and again in that second, with as many new wallets as one
    likes: a raid on a vault takes no large stake, only many wallets. *)
Theorem C80_again : forall e, env_ok e -> forall ts P mint V O k B a l, is_u64 ts -> fits (expiry LFlex ts) ->
  l <> [] -> forall now L w v mk, reached e now L -> now <= ts ->
  raids e ts L P w mint V v O k mk B a l ->
  exists L', History.run e now L (all_calls e ts (p_deposit_auth (wp w)) P mint V O k B a l) ts L' /\
    data_of L' V = DToken (Token (t_mint v) (t_owner v) (t_amount v - Z.of_nat (length l) * whole_past ts w a)) /\
    (forall x, In x l -> data_of L' (ac_purse x) =
       DToken (Token (t_mint (ac_tokens x)) (t_owner (ac_tokens x)) (t_amount (ac_tokens x) + whole_past ts w a))) /\
    forall q, owner_of L q = spl_token_id e -> q <> V -> (forall x, In x l -> q <> ac_purse x) -> acc L' q = acc L q.
Proof.
  intros e He ts P mint V O k B a l Hu Hx Hl now L w v mk HR Ht R.
  destruct (raids_pay e He ts P mint V O k B a l Hu Hx now L w v mk HR Ht R) as (L' & H1 & H2 & H3 & H4).
  exists L'. split; [destruct l; [congruence|exact H1]|]. split; [apply H2, Hl|]. split; [exact H3|exact H4].
Qed.
Print Assumptions C80_again.

(** ** MALLORY, who has no mining in POOL yet, and BOB, who stakes 250, on day 105 *)
Definition can_b (ts : Z) (ci : sched) (m : wmining) : bool :=
  (m_share (wm m) + m_sfo (wm m) <? 18446744073709551616) && (due (day_start ts) (wm_diffs m) <=? m_share (wm m)) &&
  (m_index (wm m) <=? visible ts ci) && forallb (fun x => m_index (wm m) <=? visible (fst x) ci) (wm_diffs m) &&
  (tokens_at ts ci m <? 18446744073709551616).
Lemma can_b_ok ts ci m : can_b ts ci m = true -> can_refresh ts ci m.
Proof.
  unfold can_b. rewrite !andb_true_iff. intros ((((H1 & H2) & H3) & H4) & H5).
  constructor; [lia|lia|lia| |lia]. intros d v Hi _. rewrite forallb_forall in H4. specialize (H4 _ Hi). cbn in H4. lia.
Qed.
Definition now_pool (L : ledger) : wpool := match data_of L POOL with DPool w => w | _ => zero_wpool end.
Definition now_mining (L : ledger) (k : pubkey) : wmining := match data_of L k with DMining m => m | _ => zero_wmining end.
Definition raided : ledger := ledger_after (setup ++ later).
Example C80_example :
  reached env0 (at_noon 104) raided /\
  raid env0 (at_noon 105) raided POOL (now_pool raided) MINT (vault_of POOL) (Token MINT AUTH 43991)
    BOB (mining_of BOB POOL) (now_mining raided (mining_of BOB POOL)) MALLORY (mining_of MALLORY POOL) MALLORY MALLORY_T
    (Token MINT MALLORY 1000) 2199 /\
  2199 = 43991 * 10000000000000000 / visible (at_noon 105) (wp_ci (now_pool raided)) /\
  whole_past (at_noon 105) (now_pool raided) 2199 = 43975.
Proof.
  split; [apply plays_reached; vm_compute; reflexivity|]. split; [|vm_compute; auto].
  constructor; try (vm_compute; repeat split; solve [reflexivity | discriminate | auto]).
  apply can_b_ok. vm_compute. reflexivity.
Qed.
(** the calls themselves: 16 tokens are left in the vault, and nobody else gets theirs *)
Definition raid_calls : list call :=
  [(at_noon 105, b_initialize_mining POOL (mining_of MALLORY POOL) MALLORY MALLORY);
   (at_noon 105, b_deposit POOL (mining_of BOB POOL) AUTH (mining_of MALLORY POOL) 2199 LFlex BOB MALLORY);
   (at_noon 105, b_withdraw POOL (mining_of BOB POOL) AUTH (mining_of MALLORY POOL) 2199 BOB MALLORY);
   (at_noon 105, b_claim env0 POOL MINT (vault_of POOL) (mining_of MALLORY POOL) MALLORY AUTH MALLORY_T)].
Example C80_example_calls :
  plays (setup ++ later ++ raid_calls) (at_noon 105) = true /\
  tokens_of (ledger_after (setup ++ later)) (vault_of POOL) = 43991 /\
  tokens_of (ledger_after (setup ++ later ++ raid_calls)) (vault_of POOL) = 16 /\
  tokens_of (ledger_after (setup ++ later ++ raid_calls)) MALLORY_T = 44975 /\
  runs (ledger_after (setup ++ later)) (alice_claims 105) = true /\
  runs (ledger_after (setup ++ later ++ raid_calls)) (alice_claims 105) = false.
Proof. vm_compute. auto 10. Qed.

(** ** BOB's 10 tokens beside ALICE's 990, with two accomplices *)
Definition before_raids : list call :=
  [(at_noon 100, b_initialize_pool env0 POOL MINT (vault_of POOL) PAYER AUTH FILLER DISTR);
   (at_noon 100, b_initialize_mining POOL (mining_of ALICE POOL) PAYER ALICE);
   (at_noon 100, b_initialize_mining POOL (mining_of BOB POOL) PAYER BOB);
   (at_noon 100, b_deposit POOL (mining_of ALICE POOL) AUTH (mining_of ALICE POOL) 990 LFlex ALICE ALICE);
   (at_noon 100, b_deposit POOL (mining_of BOB POOL) AUTH (mining_of BOB POOL) 10 LFlex BOB BOB);
   (at_noon 100, b_fill_vault env0 POOL MINT (vault_of POOL) FILLER SOURCE 5000 (at_noon 101));
   (at_noon 101, b_distribute POOL DISTR)].
Definition raided_twice : ledger := ledger_after before_raids.
Definition two : list accomplice :=
  [Accomplice MALLORY (mining_of MALLORY POOL) MALLORY_T (Token MINT MALLORY 1000);
   Accomplice CAROL (mining_of CAROL POOL) CAROL_T (Token MINT CAROL 0)].
Lemma can_b_two x : In x two ->
  raid env0 (at_noon 102) raided_twice POOL (now_pool raided_twice) MINT (vault_of POOL) (Token MINT AUTH 5000)
    BOB (mining_of BOB POOL) (now_mining raided_twice (mining_of BOB POOL)) (ac_wallet x) (ac_mining x) PAYER (ac_purse x) (ac_tokens x) 10.
Proof.
  intros [<-|[<-|[]]]; constructor; try (vm_compute; repeat split; solve [reflexivity | discriminate | auto]); apply can_b_ok; vm_compute; reflexivity.
Qed.
Example C80_example_again :
  reached env0 (at_noon 101) raided_twice /\
  raids env0 (at_noon 102) raided_twice POOL (now_pool raided_twice) MINT (vault_of POOL) (Token MINT AUTH 5000)
    BOB (mining_of BOB POOL) (now_mining raided_twice (mining_of BOB POOL)) PAYER 10 two /\
  whole_past (at_noon 102) (now_pool raided_twice) 10 = 50.
Proof.
  split; [apply plays_reached; vm_compute; reflexivity|]. split; [|vm_compute; reflexivity].
  constructor.
  - intros x Hx. apply can_b_two in Hx. exact Hx.
  - vm_compute. repeat constructor; cbn; intuition discriminate.
  - vm_compute. repeat constructor; cbn; intuition discriminate.
  - vm_compute. discriminate.
  - vm_compute. discriminate.
Qed.
