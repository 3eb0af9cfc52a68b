(** C52: what the generated clients read from accounts and errors. *)
From stdpp Require Import gmap.
From Coq Require Import String.
From Verif Require Import Base OMap State Ledger Program Codec CodecLemmas Clients LedgerLemmas LedgerSpec History
  HistoryLemmas HistoryThms ReachThms Scenario ErrorThms Views ViewSpec ViewLemmas.

(** what the program reads, the clients read *)
Theorem C52_mining_read : forall l m r,
  Forall byte l -> dec_mining_header l = Some (m, r) -> exists c, client_mining l = Some c /\ mining_seen m c.
Proof. exact client_mining_reads. Qed.
Print Assumptions C52_mining_read.

Theorem C52_pool_read : forall l p r,
  Forall byte l -> dec_pool_header l = Some (p, r) -> exists c, client_pool l = Some c /\ pool_seen p c.
Proof. exact client_pool_reads. Qed.
Print Assumptions C52_pool_read.

(** nothing but the length is looked at *)
Theorem C52_read_total : forall l,
  (client_mining l <> None <-> (144 <= length l)%nat) /\ (client_pool l <> None <-> (176 <= length l)%nat).
Proof. exact (fun l => conj (client_mining_total l) (client_pool_total l)). Qed.
Print Assumptions C52_read_total.

(** a search by a field finds the accounts with that value *)
Theorem C52_mining_search : forall l c f,
  Forall byte l -> client_mining l = Some c -> mining_askable f -> (mining_matches f l = true <-> mining_asks f c).
Proof. exact mining_filters. Qed.
Print Assumptions C52_mining_search.

Theorem C52_pool_search : forall l c f,
  Forall byte l -> client_pool l = Some c -> pool_askable f -> (pool_matches f l = true <-> pool_asks f c).
Proof. exact pool_filters. Qed.
Print Assumptions C52_pool_search.

(** the searches do not tell minings from pools *)
Theorem C52_pool_taken_for_mining : forall p r, CodecLemmas.pool_in_range p -> Forall byte r ->
  mining_matches (ByOwner (p_distribute_auth p)) (enc_pool_header p ++ r) = true.
Proof. exact pool_found_by_owner. Qed.
Print Assumptions C52_pool_taken_for_mining.

(** so a search for the minings of an owner can find a pool, when that owner has no mining *)
Theorem C52_search_finds_minings_refuted :
  exists now L owner pool w, reached env0 now L /\ data_of L pool = DPool w /\
    mining_matches (ByOwner owner) (enc_pool_header (wp w)) = true /\
    map_fold (fun _ a found => orb found (match a_data a with DMining m => m_owner (wm m) =? owner | _ => false end))
      false L = false.
Proof.
  refine (ex_intro _ (at_noon 104) (ex_intro _ L2 (ex_intro _ DISTR (ex_intro _ POOL _)))).
  destruct (data_of L2 POOL) as [| |w| | | |] eqn:D; try (exfalso; vm_compute in D; discriminate).
  exists w. split; [exists L0, (events (setup ++ later)); split; [exact genesis0|exact L2_reached]|].
  split; [reflexivity|]. split; [|vm_compute; reflexivity].
  assert (E : Some w = match data_of L2 POOL with DPool w => Some w | _ => None end) by (rewrite D; reflexivity).
  clear D. vm_compute in E. injection E as ->. vm_compute. reflexivity.
Qed.
Print Assumptions C52_search_finds_minings_refuted.

(** the sizes the clients give are what their readers need ... *)
Theorem C52_sizes_read : forall l,
  (client_mining l <> None <-> client_mining_size <= Z.of_nat (length l)) /\
  (client_pool l <> None <-> client_pool_size <= Z.of_nat (length l)).
Proof. exact sizes_read. Qed.
Print Assumptions C52_sizes_read.

(** ... but sizes of no account *)
Theorem C52_sizes : forall d,
  ((exists m, load_mining d = Ok m) -> data_len d <> client_mining_size) /\
  ((exists w, load_pool d = Ok w) -> data_len d <> client_pool_size).
Proof. exact sizes_wrong. Qed.
Print Assumptions C52_sizes.

(** every code that the program returns has an entry in the clients' tables *)
Theorem C52_error_known : forall e, env_ok e -> forall now ts ms i L n,
  reached e now L -> now <= ts -> ix_in_range i ->
  exec e ts ms i L = Err (ECustom n) -> error_from_code n <> None.
Proof.
  exact (fun e He now ts ms i L n R T I X => proj1 (table_complete n) (proj1 (codes_known e He now ts ms i L n R T I X))).
Qed.
Print Assumptions C52_error_known.

Theorem C52_error_name : forall n s, error_from_name s = Some n <-> exists t, error_from_code n = Some (s, t).
Proof. exact name_code. Qed.
Print Assumptions C52_error_name.

(** names and messages are those of the program's own table, in both clients and the IDL *)
Theorem C52_error_tables_agree : forall n c,
  (error_from_code n = Some c <-> 0 <= n /\ nth_error program_errors (Z.to_nat n) = Some c) /\
  (error_from_code n = Some c <-> 0 <= n /\ nth_error rust_errors (Z.to_nat n) = Some c) /\
  (error_from_code n = Some c <-> In (n, c) idl_errors).
Proof. exact tables_agree. Qed.
Print Assumptions C52_error_tables_agree.

(** and the message tells the code, but for two of them *)
Theorem C52_error_message : forall n k s s' t,
  error_from_code n = Some (s, t) -> error_from_code k = Some (s', t) -> n = k \/ (n = 4 /\ k = 5) \/ (n = 5 /\ k = 4).
Proof. exact message_code. Qed.
Print Assumptions C52_error_message.

Theorem C52_message_tells_code_refuted : exists n k s s' t,
  n <> k /\ s <> s' /\ error_from_code n = Some (s, t) /\ error_from_code k = Some (s', t).
Proof. exists 4, 5. do 3 eexists. split; [discriminate|]. split; [|split; reflexivity]. discriminate. Qed.
Print Assumptions C52_message_tells_code_refuted.

(** the bytes of a mining, read and searched for by two fields *)
Example C52_example :
  let m := Mining 71 72 73 (2 ^ 127 + 5) 74 75 76 254 2 in
  let l := enc_mining_header m ++ le 40 12345 in
  dec_mining_header l = Some (m, le 40 12345) /\
  client_mining l = Some (CMining 71 72 73 (2 ^ 127 + 5) 74 75 76 254 [2; 0; 0; 0; 0; 0; 0]) /\
  map (fun f => mining_matches f l) [ByOwner 72; ByOwner 71; ByIndex (2 ^ 127 + 5); ByIndex 5; ByData [2; 0; 0; 0; 0; 0; 0]]
  = [true; false; true; false; true].
Proof. vm_compute. repeat split. Qed.
Example C52_pool_example :
  let p := Pool 71 72 73 70 (2 ^ 100) 74 75 76 253 1 in
  let l := enc_pool_header p ++ le 40 12345 in
  client_pool l = Some (CPool 71 72 73 70 (2 ^ 100) 74 75 76 253 [1; 0; 0; 0; 0; 0; 0]) /\
  map (fun f => pool_matches f l) [PByMint 70; PByMint 71; PByAvail 76; PByAvail 75; PByBump 253]
  = [true; false; true; false; true] /\
  client_pool (firstn 175 l) = None.
Proof. vm_compute. repeat split. Qed.
