(** C62: a pool given where a mining is expected.  Only statements; proofs in OverlayThms.v and
    OverlayExamples.v. *)
From stdpp Require Import gmap.
From Verif Require Import Base OMap State Spec Ledger Program Codec CodecLemmas History LedgerLemmas LedgerSpec ReachThms
  Scenario Attacks ConserveLemmas Overlay OverlaySpec OverlayThms OverlayMore OverlayExamples.

(** what the program sees is what the pool's bytes spell as a mining *)
Theorem C62_bytes_read p : CodecLemmas.pool_in_range p ->
  exists rest, dec_mining_header (enc_pool_header p) = Some (as_mining p, rest) /\
    unle (firstn 4 rest) = root_of p.
Proof. exact (bytes_read p). Qed.
Print Assumptions C62_bytes_read.

(** what it writes through that mining changes the first 136 bytes only *)
Theorem C62_bytes_written p m : is_u128 (m_index m) -> is_u64 (m_share m) -> is_u64 (m_sfo m) ->
  enc_pool_header (from_mining p m) = firstn 136 (enc_mining_header m) ++ skipn 136 (enc_pool_header p).
Proof. exact (bytes_written p m). Qed.
Print Assumptions C62_bytes_written.

(** a call without such an account does exactly what the other properties say *)
Theorem C62_otherwise_same j e ts ms i L :
  (forall k, gives ms i k -> ordinary L k) -> wide_exec j e ts ms i L = exec e ts ms i L.
Proof. exact (otherwise_same j e ts ms i L). Qed.
Print Assumptions C62_otherwise_same.

(** and so does a history without one *)
Theorem C62_plain_histories e now L evs now' L' : plain_run e now L evs now' L' -> run e now L evs now' L'.
Proof. exact (plain_is_run e now L evs now' L'). Qed.
Print Assumptions C62_plain_histories.

(** every history of the other properties is one *)
Theorem C62_histories_kept e evs now L now' L' : run e now L evs now' L' -> wide_run e now L evs now' L'.
Proof. exact (run_is_wide e evs now L now' L'). Qed.
Print Assumptions C62_histories_kept.

(** what such a call needs in order to succeed *)
Theorem C62_needs j e ts ms i L L' r k x :
  wide_exec j e ts ms i L = Ok (L', r) -> gives ms i k -> is_pool e L k x ->
  p_total (wp x) mod 4294967296 <= 50 /\
  exists P w, account_at ms (pool_position i) P /\ is_pool e L P w /\ P <> k /\ signed ms (p_deposit_auth (wp w)) /\
    (ascending (wp_ci w) -> p_mint (wp x) mod 2 ^ 128 <= visible ts (wp_ci w)) /\
    match i with
    | Claim => p_deposit_auth (wp x) = P /\ signed ms (p_distribute_auth (wp x))
    | CloseMining => signed ms (p_distribute_auth (wp x)) /\ p_index (wp x) mod 2 ^ 64 = 0 /\
        (ascending (wp_ci w) -> p_mint (wp x) / 2 ^ 192 <= 0)
    | ChangeDelegate a _ => a <= p_index (wp x) mod 2 ^ 64
    | _ => False
    end.
Proof. exact (wide_needs j e ts ms i L L' r k x). Qed.
Print Assumptions C62_needs.

(** stake protects a pool, unless its amount is a multiple of 2^32 or just above one *)
Theorem C62_stake_protects j e ts ms i L k x :
  gives ms i k -> is_pool e L k x -> 50 < p_total (wp x) mod 4294967296 ->
  forall L' r, wide_exec j e ts ms i L <> Ok (L', r).
Proof. exact (stake_protects j e ts ms i L k x). Qed.
Print Assumptions C62_stake_protects.

(** what such a call does to the pool it names, and that it touches no third one *)
Theorem C62_effect j e ts ms i L L' r k x :
  wide_exec j e ts ms i L = Ok (L', r) -> gives ms i k -> is_pool e L k x ->
  exists P w, account_at ms (pool_position i) P /\ is_pool e L P w /\
    (i = CloseMining -> is_pool e L' k zero_wpool /\ a_lamports (acc L' k) = 0) /\
    (i <> CloseMining -> exists x', is_pool e L' k x' /\ same_authorities x x' /\ wp_ci x' = wp_ci x /\
       p_index (wp x') = p_index (wp x) - taken i /\
       (ascending (wp_ci w) -> exists c, p_mint (wp x') = visible ts (wp_ci w) + 2 ^ 128 * c) /\
       (p_total (wp x) mod 4294967296 = 0 -> same_rest x x')) /\
    (forall q y, q <> k -> q <> P -> is_pool e L q y -> is_pool e L' q y).
Proof. exact (wide_effect j e ts ms i L L' r k x). Qed.
Print Assumptions C62_effect.

(** in every history deposit authorities are only made by InitializePool, and the pools'
    records stay in order of days *)
Theorem C62_authorities e evs now L now' L' k x :
  genesis e L -> wide_run e now L evs now' L' -> is_pool e L' k x ->
  (p_deposit_auth (wp x) = 0 \/ made_authority evs (p_deposit_auth (wp x))) /\ ascending (wp_ci x).
Proof. exact (wide_pools e evs now L now' L' k x). Qed.
Print Assumptions C62_authorities.

(** rewards are never claimed through a pool, unless the claimed pool's address is itself
    the deposit authority of some pool *)
Theorem C62_claims_are_real e evs now L now' L' j ts ms L'' r P :
  genesis e L -> wide_run e now L evs now' L' -> P <> 0 -> ~ made_authority evs P ->
  wide_exec j e ts ms Claim L' = Ok (L'', r) -> account_at ms 0 P ->
  (exists k m, account_at ms 3 k /\ is_mining e L' k m /\ m_pool (wm m) = P) /\
  exec e ts ms Claim L' = Ok (L'', r).
Proof. exact (claims_are_real e evs now L now' L' j ts ms L'' r P). Qed.
Print Assumptions C62_claims_are_real.

(** with a total that is a multiple of 2^32 the outcome does not depend on anything left open *)
Theorem C62_nothing_open j j' e ts ms i L k x :
  gives ms i k -> is_pool e L k x -> p_total (wp x) mod 4294967296 = 0 ->
  wide_exec j e ts ms i L = wide_exec j' e ts ms i L.
Proof. exact (nothing_open j j' e ts ms i L k x). Qed.
Print Assumptions C62_nothing_open.

(** accounts of the program that are neither pool nor mining, of whatever content, give nobody
    anything: key zero, that of the system program, would have to sign *)
Theorem C62_other_accounts j e ts ms i L L' r k :
  wide_exec j e ts ms i L = Ok (L', r) -> gives ms i k ->
  (forall w, data_of L k <> DPool w) -> (forall m, data_of L k <> DMining m) ->
  1776 <= data_len (data_of L k) /\
  match i with
  | Claim => account_at ms 0 0 /\ signed ms 0
  | CloseMining => signed ms 0
  | ChangeDelegate a _ => a <= 0
  | _ => False
  end.
Proof. exact (other_accounts j e ts ms i L L' r k). Qed.
Print Assumptions C62_other_accounts.

(** the authority an instruction needs signs these calls too *)
Theorem C62_authority_signed j e ts ms i L L' r ro :
  wide_exec j e ts ms i L = Ok (L', r) -> role_of i = Some ro ->
  exists k w, account_at ms (pool_position i) k /\ is_pool e L k w /\ signed ms (holder w ro).
Proof. exact (wide_signed j e ts ms i L L' r ro). Qed.
Print Assumptions C62_authority_signed.

(** they change the accounts the instruction may change and no other *)
Theorem C62_only_named j e ts ms i L L' r k :
  wide_exec j e ts ms i L = Ok (L', r) -> acc L' k <> acc L k ->
  (exists n, In n (may_change i) /\ account_at ms n k) /\ writable ms k.
Proof. exact (wide_changed j e ts ms i L L' r k). Qed.
Print Assumptions C62_only_named.

(** and make or destroy neither lamports nor tokens *)
Theorem C62_conserves j e ts ms i L L' r : env_ok e -> wide_exec j e ts ms i L = Ok (L', r) ->
  lamports_total L' = lamports_total L /\ forall mint, tokens_total e mint L' = tokens_total e mint L.
Proof.
  intros He H. split; [exact (wide_lamports j e ts ms i L L' r He H)|]. intros mint. exact (wide_tokens j e ts ms i L L' r mint He H).
Qed.
Print Assumptions C62_conserves.

(** no account gets longer or shorter by them *)
Theorem C62_lengths j e ts ms i L L' r k :
  wide_exec j e ts ms i L = Ok (L', r) -> open_position i <> None -> data_len (data_of L' k) = data_len (data_of L k).
Proof. exact (wide_lengths j e ts ms i L L' r k). Qed.
Print Assumptions C62_lengths.

(** "a stranger cannot change a pool in which others stake" is false: one who stakes the right amount
    sets its index back to zero, and after the next distribution stakers cannot claim *)
Theorem C62_stakers_safe_refuted :
  exists now L L', reached env0 now L /\ now <= fst setback /\
    (forall j, wide_exec j env0 (fst setback) (fst (snd setback)) (snd (snd setback)) L = Ok (L', None)) /\
    unsigned_by setback [ALICE; BOB; CAROL; AUTH; FILLER; DISTR; PAYER] = true /\
    p_index (wp (pool_at L POOL)) = 199979541734860883 /\ p_index (wp (pool_at L' POOL)) = 0 /\
    wp_ci (pool_at L' POOL) = wp_ci (pool_at L POOL) /\
    p_total (wp (pool_at L POOL)) = 4294967296 /\
    wide_runs L then_distribute = true /\ wide_runs L' then_distribute = true /\
    wide_runs (wide_after L then_distribute) (alice_claims 107) = true /\
    wide_runs (wide_after L' then_distribute) (alice_claims 107) = false /\
    wide_runs (wide_after L' then_distribute) (alice_claims 100000) = false.
Proof. exact setback_witness. Qed.
Print Assumptions C62_stakers_safe_refuted.

(** "a pool's reward mint never changes" is false *)
Theorem C62_mint_fixed_refuted :
  exists now L L', reached env0 now L /\ now <= fst remint /\
    (forall j, wide_exec j env0 (fst remint) (fst (snd remint)) (snd (snd remint)) L = Ok (L', None)) /\
    unsigned_by remint [AUTH; FILLER; DISTR; PAYER] = true /\
    p_mint (wp (pool_at L POOL)) = MINT /\ p_mint (wp (pool_at L' POOL)) = PRECISION.
Proof. exact remint_witness. Qed.
Print Assumptions C62_mint_fixed_refuted.

(** "a pool is never closed" is false *)
Theorem C62_never_closed_refuted :
  exists now L L', reached env0 now L /\ now <= fst shut /\
    (forall j, wide_exec j env0 (fst shut) (fst (snd shut)) (snd (snd shut)) L = Ok (L', None)) /\
    unsigned_by shut [AUTH; FILLER; PAYER] = true /\
    p_type (wp (pool_at L POOL)) = TYPE_POOL /\ a_lamports (acc L POOL) = 700000 /\
    acc L' POOL = Account 0 (program_id env0) (DPool zero_wpool).
Proof. exact shut_witness. Qed.
Print Assumptions C62_never_closed_refuted.
