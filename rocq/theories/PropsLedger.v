(** Theorems about instructions and histories of the whole ledger: C03-C09, C39, C40, C45. *)
From stdpp Require Import gmap.
From Verif Require Import Base OMap State Spec Ledger Program LedgerLemmas LedgerSpec CodecLemmas History
  HistoryLemmas HistoryThms AccessLemmas ReachThms ConserveLemmas Clients Scenario Attacks.

(** the same call with the signature of [k] removed *)
Definition without_signature (k : pubkey) (c : call) : call :=
  (fst c, (map (fun m => if mt_key m =? k then Meta k false (mt_writable m) else m) (fst (snd c)), snd (snd c))).
(** the call succeeds on [L], and fails as soon as one of [ks] does not sign *)
Definition needs (L : ledger) (ks : list pubkey) (c : call) : bool :=
  runs L c && forallb (fun k => negb (runs L (without_signature k c))) ks.

(** ** C03 *)
Theorem C03_authority_signed : forall e ts ms i L L' r ro,
  exec e ts ms i L = Ok (L', r) -> role_of i = Some ro ->
  exists k w, account_at ms (pool_position i) k /\ is_pool e L k w /\ signed ms (holder w ro).
Proof. exact authority_signed. Qed.
Print Assumptions C03_authority_signed.

Theorem C03_owner_signed : forall e ts ms i L L' r,
  exec e ts ms i L = Ok (L', r) -> needs_owner i = true ->
  exists n k m, mining_position i = Some n /\ account_at ms n k /\ is_mining e L k m /\
    signed ms (m_owner (wm m)).
Proof. exact owner_signed. Qed.
Print Assumptions C03_owner_signed.

Example C03_example :
  forallb (fun x => needs L2 (fst x) (at_noon 105, snd x))
   [([FILLER], b_fill_vault env0 POOL MINT (vault_of POOL) FILLER SOURCE 5 (at_noon 111));
    ([AUTH], b_deposit POOL (mining_of BOB POOL) AUTH (mining_of ALICE POOL) 7 L6M BOB ALICE);
    ([AUTH], b_withdraw POOL (mining_of BOB POOL) AUTH (mining_of ALICE POOL) 7 BOB ALICE);
    ([AUTH; ALICE], b_claim env0 POOL MINT (vault_of POOL) (mining_of ALICE POOL) ALICE AUTH ALICE_T);
    ([AUTH], b_extend POOL (mining_of BOB POOL) AUTH (mining_of ALICE POOL) LFlex L3M (at_noon 100) 250 3 BOB ALICE);
    ([DISTR], b_distribute POOL DISTR);
    ([AUTH; BOB], b_change POOL (mining_of BOB POOL) AUTH BOB (mining_of ALICE POOL) (mining_of CAROL POOL) CAROL 250);
    ([AUTH], b_slash AUTH POOL (mining_of ALICE POOL) ALICE 5 10 (Some (at_noon 190)));
    ([AUTH], b_decrease AUTH POOL (mining_of ALICE POOL) ALICE 5)] = true /\
  needs L1 [AUTH; BOB] (at_noon 100, b_close (mining_of BOB POOL) BOB MALLORY AUTH POOL) = true.
Proof. vm_compute. auto. Qed.

(** ** C04 *)
Theorem C04_stake_accounts : forall e ts ms i L L' r o,
  exec e ts ms i L = Ok (L', r) -> staker ms i o ->
  exists n k m p w, mining_position i = Some n /\ account_at ms n k /\ is_mining e L k m /\
    account_at ms (pool_position i) p /\ is_pool e L p w /\ k <> p /\
    m_pool (wm m) = p /\ m_owner (wm m) = o /\ cpa_mining e o p (m_bump (wm m)) = Some k /\
    match delegate_of i with
    | None => True
    | Some (dn, d) => exists dk dm, account_at ms dn dk /\ is_mining e L dk dm /\
        (dk = k \/ cpa_mining e d p (m_bump (wm dm)) = Some dk)
    end.
Proof. exact stake_accounts. Qed.
Print Assumptions C04_stake_accounts.

(** right mining and delegate accepted; another wallet's mining, another pool's mining,
    another delegate's mining rejected *)
Definition before_C04 : list call := setup ++ later ++ own_pool 104 2 30.
Example C04_example :
  let L := ledger_after before_C04 in
  plays before_C04 (at_noon 104) = true /\
  runs L (at_noon 105, b_deposit POOL (mining_of BOB POOL) AUTH (mining_of ALICE POOL) 7 L6M BOB ALICE) = true /\
  runs L (at_noon 105, b_deposit POOL (mining_of CAROL POOL) AUTH (mining_of ALICE POOL) 7 L6M BOB ALICE) = false /\
  runs L (at_noon 105, b_deposit POOL (mining_of MALLORY POOL2) AUTH (mining_of MALLORY POOL2) 7 L6M MALLORY MALLORY) = false /\
  runs L (at_noon 105, b_deposit POOL (mining_of BOB POOL) AUTH (mining_of CAROL POOL) 7 L6M BOB ALICE) = false /\
  runs L (at_noon 105, b_deposit POOL (mining_of BOB POOL) AUTH (mining_of MALLORY POOL2) 7 L6M BOB MALLORY) = false.
Proof. vm_compute. auto 10. Qed.

(** ** C05 *)
Theorem C05_only_named_accounts : forall e ts ms i L L' r k,
  exec e ts ms i L = Ok (L', r) -> acc L' k <> acc L k ->
  (exists n, In n (may_change i) /\ account_at ms n k) /\ writable ms k.
Proof. exact changed_named. Qed.
Print Assumptions C05_only_named_accounts.

(** the claim changes vault, mining and destination, and nothing else *)
Definition differ (L L' : ledger) (ks : list pubkey) : list pubkey :=
  filter (fun k => negb (bool_decide (acc L k = acc L' k))) ks.
Example C05_example :
  match play (at_noon 104) L2 [alice_claims 105] with
  | Ok (_, L') =>
      differ L2 L' [POOL; MINT; PAYER; AUTH; FILLER; DISTR; SOURCE; ALICE; BOB; ALICE_T; BOB_T;
                    vault_of POOL; mining_of ALICE POOL; mining_of BOB POOL]
      = [ALICE_T; vault_of POOL; mining_of ALICE POOL]
  | Err _ => False
  end.
Proof. vm_compute. reflexivity. Qed.

(** ** C06 *)
Theorem C06_other_pools : forall e, env_ok e -> forall ts ms i L L' r P k w,
  exec e ts ms i L = Ok (L', r) -> account_at ms (pool_position i) P ->
  is_pool e L k w -> k <> P -> acc L' k = acc L k.
Proof. exact isolation_pool. Qed.
Print Assumptions C06_other_pools.

Theorem C06_other_minings : forall e, env_ok e -> env_inj e -> forall now ts ms i L L' r P k m,
  reached e now L -> exec e ts ms i L = Ok (L', r) -> account_at ms (pool_position i) P ->
  is_mining e L k m -> m_type (wm m) = TYPE_MINING -> m_pool (wm m) <> P ->
  ~ ((exists a n, i = ChangeDelegate a n) /\ account_at ms 4 k \/ i = CloseMining /\ account_at ms 0 k) ->
  acc L' k = acc L k.
Proof. exact other_minings. Qed.
Print Assumptions C06_other_minings.

(** the hole of ChangeDelegate: ALICE can claim before, not after *)
Theorem C06_hole_freezes_claim :
  exists now L now' L', reached env0 now L /\ reached env0 now' L' /\
    play now L [freeze] = Ok (now', L') /\ unsigned_by freeze [ALICE; AUTH; FILLER; DISTR; PAYER] = true /\
    runs L (alice_claims 106) = true /\ runs L' (alice_claims 106) = false /\
    runs L' (alice_claims 100000) = false.
Proof. exact freeze_witness. Qed.
Print Assumptions C06_hole_freezes_claim.

(** the same hole: ALICE's delegated-in stake is taken, BOB's withdrawal fails *)
Theorem C06_hole_freezes_withdrawal :
  exists now L now' L', reached env0 now L /\ reached env0 now' L' /\
    play now L [snatch] = Ok (now', L') /\ unsigned_by snatch [ALICE; BOB; AUTH; FILLER; DISTR; PAYER] = true /\
    delegated_to L (mining_of ALICE POOL) = 250 /\ delegated_to L' (mining_of ALICE POOL) = 249 /\
    runs L bob_withdraws = true /\ runs L' bob_withdraws = false.
Proof. exact snatch_witness. Qed.
Print Assumptions C06_hole_freezes_withdrawal.

(** the hole of CloseMining: no authority of POOL signs *)
Theorem C06_hole_closes :
  exists now L now' L', reached env0 now L /\ play now L [foreign_close] = Ok (now', L') /\
    unsigned_by foreign_close [AUTH; FILLER; DISTR; PAYER] = true /\
    match data_of L (mining_of MALLORY POOL) with DMining m => m_pool (wm m) = POOL /\ m_share (wm m) = 100 | _ => False end /\
    acc L' (mining_of MALLORY POOL) = Account 0 (program_id env0) (DMining zero_wmining).
Proof. exact close_witness. Qed.
Print Assumptions C06_hole_closes.

Example C06_example : env_ok env0 /\ env_inj env0 /\
  reached env0 (at_noon 104) (ledger_after before_C04) /\
  differ (ledger_after (setup ++ later)) (ledger_after before_C04)
    [POOL; mining_of ALICE POOL; mining_of BOB POOL; mining_of CAROL POOL; vault_of POOL; POOL2] = [POOL2].
Proof.
  split; [exact env0_ok|]. split; [exact env0_inj|].
  split; [apply plays_reached; vm_compute; reflexivity|]. vm_compute. reflexivity.
Qed.

(** ** C07 *)
Theorem C07_configuration_fixed : forall e, env_ok e -> forall now L evs now' L' k w,
  reached e now L -> run e now L evs now' L' ->
  is_pool e L k w -> p_type (wp w) = TYPE_POOL -> 0 < lamports_of L k ->
  exists w', is_pool e L' k w' /\ config w' = config w.
Proof. exact pool_config. Qed.
Print Assumptions C07_configuration_fixed.

Theorem C07_initialised_once : forall e ts ms f d L k w,
  account_at ms 0 k -> is_pool e L k w -> p_type (wp w) = TYPE_POOL ->
  exists err, exec e ts ms (InitializePool f d) L = Err err.
Proof. exact reinit_rejected. Qed.
Print Assumptions C07_initialised_once.

Example C07_example :
  reached env0 (at_noon 104) L2 /\ lamports_of L2 POOL = 700000 /\
  match data_of L2 POOL with DPool w => config w = [AUTH; DISTR; FILLER; MINT; 255; TYPE_POOL] | _ => False end /\
  runs L0 (at_noon 99, b_initialize_pool env0 POOL MINT (vault_of POOL) PAYER AUTH FILLER DISTR) = true /\
  runs L2 (at_noon 105, b_initialize_pool env0 POOL MINT (vault_of POOL) PAYER AUTH FILLER DISTR) = false.
Proof. split; [apply plays_reached; vm_compute; reflexivity|]. vm_compute. auto. Qed.

(** ** C08 *)
Theorem C08_created_at_derived_address : forall e, env_ok e -> forall ts ms o L L' r,
  exec e ts ms (InitializeMining o) L = Ok (L', r) ->
  exists pool k bump, account_at ms 0 pool /\ account_at ms 1 k /\
    owner_of L pool = program_id e /\
    find_mining e o pool = (k, bump) /\ cpa_mining e o pool bump = Some k /\
    lamports_of L k = 0 /\ owner_of L k = system_id /\
    is_mining e L' k (WMining (Mining pool o 0 0 0 0 0 bump TYPE_MINING) []) /\
    lamports_of L' k = rent_min e 1776.
Proof. exact mining_created. Qed.
Print Assumptions C08_created_at_derived_address.

Theorem C08_identity_fixed : forall e, env_ok e -> forall now L evs now' L' k m,
  reached e now L -> run e now L evs now' L' -> (forall ev, In ev evs -> ~ closes k ev) ->
  is_mining e L k m -> 0 < lamports_of L k ->
  exists m', is_mining e L' k m' /\ m_owner (wm m') = m_owner (wm m) /\ m_pool (wm m') = m_pool (wm m) /\
    m_bump (wm m') = m_bump (wm m) /\ m_type (wm m') = m_type (wm m).
Proof. exact mining_identity. Qed.
Print Assumptions C08_identity_fixed.

Example C08_example :
  reached env0 (at_noon 100) L1 /\ run env0 (at_noon 100) L1 (events later) (at_noon 104) L2 /\
  (forall ev, In ev (events later) -> ~ closes (mining_of ALICE POOL) ev) /\
  lamports_of L1 (mining_of ALICE POOL) = 19040 /\
  match data_of L1 (mining_of ALICE POOL), data_of L2 (mining_of ALICE POOL) with
  | DMining m, DMining m' => m_owner (wm m) = ALICE /\ m_owner (wm m') = ALICE /\ m_pool (wm m') = POOL
  | _, _ => False
  end.
Proof.
  split; [apply plays_reached; vm_compute; reflexivity|].
  split; [apply play_run; apply plays_then; vm_compute; reflexivity|].
  split; [intros ev Hin; cbn in Hin; decompose [or] Hin; subst; auto|].
  vm_compute. auto.
Qed.

(** ** C09 *)
Theorem C09_history_only_grows : forall e, env_ok e -> forall now L evs now' L' k w,
  reached e now L -> run e now L evs now' L' ->
  is_pool e L k w -> p_type (wp w) = TYPE_POOL -> 0 < lamports_of L k ->
  exists w', is_pool e L' k w' /\ p_index (wp w) <= p_index (wp w') /\
    (exists more, wp_ci w' = wp_ci w ++ more /\ dates (fun d => day_start now <= d) more) /\
    ascending (wp_ci w') /\ growing 0 (wp_ci w') /\
    (forall d i, In (d, i) (wp_ci w') -> d mod 86400 = 0 /\ i <= p_index (wp w') /\ d <= now').
Proof. exact pool_history. Qed.
Print Assumptions C09_history_only_grows.

Theorem C09_mining_index_only_grows : forall e, env_ok e -> forall now L evs now' L' k m,
  reached e now L -> run e now L evs now' L' -> (forall ev, In ev evs -> ~ closes k ev) ->
  is_mining e L k m -> 0 < lamports_of L k ->
  exists m', is_mining e L' k m' /\ m_index (wm m) <= m_index (wm m').
Proof. exact mining_index. Qed.
Print Assumptions C09_mining_index_only_grows.

Example C09_example :
  match data_of L1 POOL, data_of L2 POOL with
  | DPool w, DPool w' =>
      wp_ci w = [] /\ p_index (wp w') = 199979541734860883 /\
      wp_ci w' = [(86400 * 101, 60096153846153846); (86400 * 102, 120192307692307692); (86400 * 104, 199979541734860883)]
  | _, _ => False
  end.
Proof. vm_compute. auto. Qed.

(** ** C39 *)
Theorem C39_stored_in_range : forall e, env_ok e -> forall now L k,
  reached e now L ->
  is_u64 (lamports_of L k) /\
  (forall t, data_of L k = DToken t -> is_u64 (t_amount t)) /\
  (forall w, is_pool e L k w -> pool_in_range w) /\
  (forall m, is_mining e L k m -> mining_in_range m).
Proof. exact stored_in_range. Qed.
Print Assumptions C39_stored_in_range.

(** amounts that would overflow are rejected *)
Example C39_example :
  reached env0 (at_noon 104) L2 /\
  runs L2 (at_noon 105, b_deposit POOL (mining_of BOB POOL) AUTH (mining_of BOB POOL) (U64 - 941) LFlex BOB BOB) = true /\
  runs L2 (at_noon 105, b_deposit POOL (mining_of BOB POOL) AUTH (mining_of BOB POOL) (U64 - 940) LFlex BOB BOB) = false.
Proof. split; [apply plays_reached; vm_compute; reflexivity|]. vm_compute. auto. Qed.

(** ** C53 *)
Theorem C53_dates_are_days : forall e, env_ok e -> forall now L k,
  reached e now L ->
  (forall w, is_pool e L k w ->
     p_ends_at (wp w) mod 86400 = 0 /\
     (forall d v, In (d, v) (wp_diffs w) -> d mod 86400 = 0) /\
     (forall d v, In (d, v) (wp_ci w) -> d mod 86400 = 0 /\ d <= now)) /\
  (forall m, is_mining e L k m -> forall d v, In (d, v) (wm_diffs m) -> d mod 86400 = 0).
Proof. exact stored_dates. Qed.
Print Assumptions C53_dates_are_days.

(** every call of the history was made at noon *)
Example C53_example :
  reached env0 (at_noon 104) L2 /\ at_noon 104 mod 86400 = 43200 /\
  match data_of L2 POOL with
  | DPool w => p_ends_at (wp w) = 9504000 /\ wp_diffs w = [(9072000, 0); (16416000, 100); (40176000, 200)] /\
      map fst (wp_ci w) = [8726400; 8812800; 8985600]
  | _ => False
  end.
Proof. split; [apply plays_reached; vm_compute; reflexivity|]. vm_compute. auto. Qed.

(** ** C40 *)
Theorem C40_lamports_conserved : forall e ts ms i L L' r,
  env_ok e -> exec e ts ms i L = Ok (L', r) -> lamports_total L' = lamports_total L.
Proof. exact lamports_conserved. Qed.
Print Assumptions C40_lamports_conserved.

Theorem C40_tokens_conserved : forall e, env_ok e -> forall mint ts ms i L L' r,
  exec e ts ms i L = Ok (L', r) -> tokens_total e mint L' = tokens_total e mint L.
Proof. exact tokens_conserved. Qed.
Print Assumptions C40_tokens_conserved.

Example C40_example :
  tokens_total env0 MINT L0 = 1001007 /\ tokens_total env0 MINT L2 = 1001007 /\
  lamports_total L0 = 21411500 /\ lamports_total L2 = 21411500 /\
  tokens_of L2 (vault_of POOL) = 43991 /\ tokens_of L2 ALICE_T = 6009.
Proof. vm_compute. auto 10. Qed.

(** ** C45 *)
Theorem C45_cross_pool_overclaim :
  exists now L L1 L2, reached env0 now L /\
    play now L honest = Ok (at_noon 200, L1) /\ play now L theft = Ok (at_noon 200, L2) /\
    reached env0 (at_noon 200) L2 /\
    tokens_of L (vault_of POOL) = 2000 /\
    tokens_of L1 MALLORY_T = tokens_of L MALLORY_T + 1000 /\ runs L1 bob_claims = true /\
    tokens_of L2 MALLORY_T = tokens_of L MALLORY_T + 2000 /\ runs L2 bob_claims = false /\
    tokens_of L2 (vault_of POOL) = 0.
Proof. exact theft_witness. Qed.
Print Assumptions C45_cross_pool_overclaim.
