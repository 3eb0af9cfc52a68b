(** C58: what is proved of histories holds of raw transactions. *)
From stdpp Require Import gmap.
From Verif Require Import Base OMap State Spec Ledger Program Codec Clients LedgerLemmas LedgerSpec
  CodecLemmas History HistoryLemmas HistoryThms ReachThms Scenario Attacks LedgerView PowerExamples Tx TxLemmas.

(** the ledgers of the histories are exactly those of chains of raw transactions, each all
    or nothing, with arbitrary data and accounts *)
Theorem C58_same_ledgers : forall e, env_ok e -> forall now L,
  reached e now L <-> exists L0 txs, genesis e L0 /\ chain e 0 L0 txs now L.
Proof. exact reached_chain. Qed.
Print Assumptions C58_same_ledgers.

(** every chain is a history of calls found in its transactions *)
Theorem C58_chain_is_history : forall e, env_ok e -> forall now L txs now' L',
  reached e now L -> chain e now L txs now' L' ->
  exists evs, run e now L evs now' L' /\
    forall ev, In ev evs -> match ev with
      | EvIx ts ms i => exists items, In (ts, items) txs /\ In (Call ms (encode i)) items
      | EvExt ts => exists items, In (ts, items) txs
      end.
Proof. exact chain_history. Qed.
Print Assumptions C58_chain_is_history.

(** and every history is a chain, one transaction per event *)
Theorem C58_history_is_chain : forall e now L evs now' L',
  run e now L evs now' L' ->
  chain e now L (map (fun ev => match ev with EvIx ts ms i => (ts, [Call ms (encode i)]) | EvExt ts => (ts, [Other]) end) evs) now' L'.
Proof. exact run_chain. Qed.
Print Assumptions C58_history_is_chain.

(** one call that fails, wherever it stands, and the transaction changes nothing *)
Theorem C58_all_or_nothing : forall e now ts L pre ms data post L',
  (forall M, performs e ts L pre M -> exists x, exec_bytes e ts ms data M = Err x) ->
  settles e now L (ts, pre ++ Call ms data :: post) L' -> L' = L.
Proof. exact all_or_nothing. Qed.
Print Assumptions C58_all_or_nothing.

(** so does data that encodes no instruction *)
Theorem C58_junk : forall e now ts L pre ms data post L',
  (forall i, ix_in_range i -> data <> encode i) -> Forall byte data ->
  settles e now L (ts, pre ++ Call ms data :: post) L' -> L' = L.
Proof. exact junk_tx. Qed.
Print Assumptions C58_junk.

(** C57 for transactions: nobody else's transactions lower a staker's accounted rewards *)
Theorem C58_rewards : forall e, env_ok e -> forall now L txs now' L' k m,
  reached e now L -> chain e now L txs now' L' -> is_mining e L k m -> 0 < lamports_of L k ->
  Forall (tx_silent (m_owner (wm m))) txs ->
  exists m', is_mining e L' k m' /\ m_owner (wm m') = m_owner (wm m) /\ m_pool (wm m') = m_pool (wm m) /\
    m_unclaimed (wm m) <= m_unclaimed (wm m') /\ lamports_of L k <= lamports_of L' k.
Proof. exact rewards_chain. Qed.
Print Assumptions C58_rewards.

(** and nobody but its authorities changes a pool *)
Theorem C58_pool : forall e, env_ok e -> forall now L txs now' L' k w,
  reached e now L -> chain e now L txs now' L' -> is_pool e L k w -> p_type (wp w) = TYPE_POOL -> 0 < lamports_of L k ->
  (forall ro, Forall (tx_silent (holder w ro)) txs) -> is_pool e L' k w.
Proof. exact pool_chain. Qed.
Print Assumptions C58_pool.

(** a transaction of calls only has one outcome besides failing *)
Theorem C58_calls_only : forall e ts l, Forall (fun c => Forall byte (snd c)) l -> forall L L',
  performs e ts L (map (fun c => Call (fst c) (snd c)) l) L' <-> all_calls e ts l L = Ok L'.
Proof. exact all_calls_iff. Qed.
Print Assumptions C58_calls_only.

(** one transaction: a distribution and ALICE's claim, as bytes, on day 105; with one more
    call of unknown kind, nothing happens *)
Definition two_calls : list (list meta * bytes) :=
  [(fst (b_distribute POOL DISTR), [7]);
   (fst (b_claim env0 POOL MINT (vault_of POOL) (mining_of ALICE POOL) ALICE AUTH ALICE_T), [5])].
Definition items (l : list (list meta * bytes)) : list item := map (fun c => Call (fst c) (snd c)) l.
Definition LT : ledger := match all_calls env0 (at_noon 105) two_calls L2 with Ok L => L | Err _ => ∅ end.
Example C58_example : reached env0 (at_noon 104) L2 /\
  settles env0 (at_noon 104) L2 (at_noon 105, items two_calls) LT /\
  tokens_of LT ALICE_T - tokens_of L2 ALICE_T = 7180 /\
  p_avail (wp (pool_of L2 POOL)) - p_avail (wp (pool_of LT POOL)) = 7500 /\
  forallb (fun c => negb (is_signer (fst c) BOB)) two_calls = true /\
  forall L', settles env0 (at_noon 104) L2 (at_noon 105, items (two_calls ++ [([], [12])])) L' -> L' = L2.
Proof.
  split; [exact L2_is_reached|]. split.
  { apply st_done; [vm_compute; discriminate|split; [vm_compute; discriminate|vm_compute; reflexivity]|].
    apply all_calls_iff; [repeat constructor; discriminate|]. unfold LT.
    assert (match all_calls env0 (at_noon 105) two_calls L2 with Ok _ => true | Err _ => false end = true) as H
      by (vm_compute; reflexivity).
    destruct (all_calls env0 (at_noon 105) two_calls L2); [reflexivity|discriminate]. }
  split; [vm_compute; reflexivity|]. split; [vm_compute; reflexivity|]. split; [vm_compute; reflexivity|].
  intros L'. unfold items. rewrite map_app. apply junk_tx; [|repeat constructor; discriminate].
  intros i Hi E. pose proof (round_trip i Hi) as R. rewrite <- E in R. discriminate R.
Qed.
