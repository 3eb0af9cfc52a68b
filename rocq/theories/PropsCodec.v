(** Theorems about bytes: C01, C02, C38. *)
From Coq Require Import ZArith List.
From Verif Require Import Base OMap State Ledger Program Codec CodecLemmas.

(** C01: decoding the encoding of an instruction gives it back, also at the
    program's entry point *)
Theorem C01_round_trip i : ix_in_range i -> decode (encode i) = Some i.
Proof. exact (round_trip i). Qed.

Lemma entry e ts ms i L :
  ix_in_range i -> exec_bytes e ts ms (encode i) L = exec e ts ms i L.
Proof. intros H. unfold exec_bytes. rewrite round_trip by assumption. reflexivity. Qed.

Theorem C01_entry_point e ts ms i L :
  ix_in_range i -> exec_bytes e ts ms (encode i) L = exec e ts ms i L.
Proof. exact (entry e ts ms i L). Qed.

Example C01_case : ix_in_range (Slash (2 ^ 256 - 1) (2 ^ 64 - 1) 7 (Some 86400)) /\
  ix_in_range (ExtendStake L3M L1Y 1 2 3 4 5).
Proof. repeat split; easy. Qed.

(** C02: accepted bytes are the unique encoding *)
Theorem C02_canonical l i : Forall byte l -> decode l = Some i -> l = encode i /\ ix_in_range i.
Proof. exact (canonical l i). Qed.

Theorem C02_injective i j : ix_in_range i -> ix_in_range j -> encode i = encode j -> i = j.
Proof. exact (encode_inj i j). Qed.

Theorem C02_trailing l i x r : Forall byte l -> decode l = Some i -> decode (l ++ x :: r) = None.
Proof. exact (trailing l i x r). Qed.

Theorem C02_truncated l i n :
  Forall byte l -> decode l = Some i -> (n < length l)%nat -> decode (firstn n l) = None.
Proof. exact (truncated l i n). Qed.

Theorem C02_tag l i : Forall byte l -> decode l = Some i -> exists r, l = tag_of i :: r.
Proof. exact (tag_spec l i). Qed.

Theorem C02_unknown_tag t r : 12 <= t -> decode (t :: r) = None.
Proof. exact (unknown_tag t r). Qed.

Theorem C02_bad_lockup a t r :
  byte t -> 5 <= t -> is_u64 a -> decode (3 :: le 8 a ++ t :: r) = None.
Proof. exact (bad_lockup a t r). Qed.

Theorem C02_bad_lockup_extend t u r :
  Forall byte (t :: u :: r) -> 5 <= t \/ 5 <= u -> decode (6 :: t :: u :: r) = None.
Proof.
  intros Hb H. destruct (decode (6 :: t :: u :: r)) as [i|] eqn:E; [|reflexivity]. exfalso.
  apply C02_canonical in E as [E _]; [|constructor; [unfold byte; lia|exact Hb]].
  destruct i; try (cbn in E; discriminate E). destruct old_period, new_period; injection E as -> -> _; destruct H as [H|H]; exact (H eq_refl).
Qed.

Theorem C02_bad_option o n w t r :
  byte t -> 2 <= t -> is_key o -> is_u64 n -> is_u64 w ->
  decode (10 :: le 32 o ++ le 8 n ++ le 8 w ++ t :: r) = None.
Proof. exact (bad_option o n w t r). Qed.

Theorem C02_junk_rejected e ts ms l L :
  (forall i, ix_in_range i -> l <> encode i) -> Forall byte l -> exec_bytes e ts ms l L = Err EBorsh.
Proof. exact (junk_rejected e ts ms l L). Qed.

(** FillVault of 5 tokens until second 258: 17 bytes *)
Example C02_case :
  let l := [1; 5; 0; 0; 0; 0; 0; 0; 0; 2; 1; 0; 0; 0; 0; 0; 0] in
  decode l = Some (FillVault 5 258) /\ Forall byte l /\ decode (l ++ [0]) = None /\
  decode (firstn 16 l) = None /\ decode [12] = None /\ decode [5] = Some Claim.
Proof. repeat split; try reflexivity. repeat constructor; discriminate. Qed.

(** C38: headers *)
Theorem C38_mining_header m r :
  mining_in_range m ->
  dec_mining_header (enc_mining_header m ++ r) = Some (m, r) /\
  Z.of_nat (length (enc_mining_header m)) = 144.
Proof. exact (mining_header_round m r). Qed.

Theorem C38_pool_header p r :
  pool_in_range p ->
  dec_pool_header (enc_pool_header p ++ r) = Some (p, r) /\
  Z.of_nat (length (enc_pool_header p)) = 176.
Proof. exact (pool_header_round p r). Qed.

Theorem C38_mining_layout l :
  Forall byte l -> (144 <= length l)%nat ->
  exists m pad r, dec_mining_header l = Some (m, r) /\ mining_in_range m /\ length pad = 6%nat /\
    l = firstn 138 (enc_mining_header m) ++ pad ++ r /\ length l = (144 + length r)%nat.
Proof. exact (mining_header_layout l). Qed.

Theorem C38_pool_layout l :
  Forall byte l -> (176 <= length l)%nat ->
  exists p pad r, dec_pool_header l = Some (p, r) /\ pool_in_range p /\ length pad = 6%nat /\
    l = firstn 170 (enc_pool_header p) ++ pad ++ r /\ length l = (176 + length r)%nat.
Proof. exact (pool_header_layout l). Qed.

Theorem C38_mining_offsets m :
  let b := enc_mining_header m in
  slice 0 32 b = le 32 (m_pool m) /\ slice 32 32 b = le 32 (m_owner m) /\
  slice 64 32 b = le 32 (m_mint m) /\ slice 96 16 b = le 16 (m_index m) /\
  slice 112 8 b = le 8 (m_share m) /\ slice 120 8 b = le 8 (m_unclaimed m) /\
  slice 128 8 b = le 8 (m_sfo m) /\ slice 136 1 b = le 1 (m_bump m) /\
  slice 137 1 b = le 1 (m_type m).
Proof. exact (mining_offsets m). Qed.

Theorem C38_pool_offsets p :
  let b := enc_pool_header p in
  slice 0 32 b = le 32 (p_deposit_auth p) /\ slice 32 32 b = le 32 (p_distribute_auth p) /\
  slice 64 32 b = le 32 (p_fill_auth p) /\ slice 96 32 b = le 32 (p_mint p) /\
  slice 128 16 b = le 16 (p_index p) /\ slice 144 8 b = le 8 (p_total p) /\
  slice 152 8 b = le 8 (p_ends_at p) /\ slice 160 8 b = le 8 (p_avail p) /\
  slice 168 1 b = le 1 (p_bump p) /\ slice 169 1 b = le 1 (p_type p).
Proof. exact (pool_offsets p). Qed.

Theorem C38_lengths :
  mining_account_len = 1776 /\ pool_account_len = 64480 /\ pool_used_len = 55720 /\
  (forall d m, load_mining d = Ok m -> data_len d = 1776 /\ load_pool d = Err EPanic) /\
  (forall d p, load_pool d = Ok p -> data_len d = 64480) /\
  (forall d, data_len d < 1776 -> load_mining d = Err EPanic) /\
  (forall d, data_len d < 55720 -> load_pool d = Err EPanic) /\
  data_len DMint = 82 /\ (forall t, data_len (DToken t) = 165).
Proof. exact lengths. Qed.

Example C38_case :
  let m := Mining 1 2 3 (2 ^ 128 - 1) 4 5 6 254 2 in
  mining_in_range m /\ option_map fst (dec_mining_header (enc_mining_header m)) = Some m.
Proof. split; [repeat split; easy|vm_compute; reflexivity]. Qed.

Print Assumptions C01_round_trip.
Print Assumptions C01_entry_point.
Print Assumptions C02_canonical.
Print Assumptions C02_injective.
Print Assumptions C02_trailing.
Print Assumptions C02_truncated.
Print Assumptions C02_tag.
Print Assumptions C02_unknown_tag.
Print Assumptions C02_bad_lockup.
Print Assumptions C02_bad_lockup_extend.
Print Assumptions C02_bad_option.
Print Assumptions C02_junk_rejected.
Print Assumptions C38_mining_header.
Print Assumptions C38_pool_header.
Print Assumptions C38_mining_layout.
Print Assumptions C38_pool_layout.
Print Assumptions C38_mining_offsets.
Print Assumptions C38_pool_offsets.
Print Assumptions C38_lengths.
