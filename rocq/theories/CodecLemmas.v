(** Round trips of the byte codecs. *)
From Coq Require Import ZArith List Lia.
From Verif Require Import Base OMap State Ledger Program Codec.

Definition is_key (x : Z) : Prop := 0 <= x < 2 ^ 256.
Definition byte (b : Z) : Prop := 0 <= b < 256.

(** arguments within their machine types *)
Definition ix_in_range (i : ix) : Prop :=
  match i with
  | InitializePool f d => is_key f /\ is_key d
  | FillVault r x => is_u64 r /\ is_u64 x
  | InitializeMining o => is_key o
  | DepositMining a _ o d => is_u64 a /\ is_key o /\ is_key d
  | WithdrawMining a o d => is_u64 a /\ is_key o /\ is_key d
  | ExtendStake _ _ s b a o d => is_u64 s /\ is_u64 b /\ is_u64 a /\ is_key o /\ is_key d
  | ChangeDelegate a n => is_u64 a /\ is_key n
  | Slash o n w dt =>
      is_key o /\ is_u64 n /\ is_u64 w /\ match dt with Some x => is_u64 x | None => True end
  | DecreaseRewards o n => is_key o /\ is_u64 n
  | Claim | DistributeRewards | CloseMining => True
  end.

Lemma length_le n x : length (le n x) = n.
Proof. revert x. induction n; cbn; intros; [reflexivity|]. rewrite IHn. reflexivity. Qed.

Lemma le_byte n x : Forall byte (le n x).
Proof.
  revert x. induction n; cbn; intros; constructor; [|auto].
  unfold byte. apply Z.mod_pos_bound. lia.
Qed.

Lemma unle_le n x : 0 <= x < 256 ^ Z.of_nat n -> unle (le n x) = x.
Proof.
  revert x. induction n; intros x H.
  - cbn in *. lia.
  - cbn [le unle]. rewrite Nat2Z.inj_succ, Z.pow_succ_r in H by lia.
    rewrite IHn.
    + pose proof (Z.div_mod x 256). lia.
    + split; [apply Z.div_pos; lia|]. apply Z.div_lt_upper_bound; lia.
Qed.

Lemma le_unle l : Forall byte l -> le (length l) (unle l) = l.
Proof.
  induction 1 as [|b r Hb Hr IH]; [reflexivity|]. cbn [length le unle].
  unfold byte in Hb.
  replace ((b + 256 * unle r) mod 256) with b.
  2:{ rewrite (Z.mul_comm 256), Z.mod_add by lia. symmetry. apply Z.mod_small. lia. }
  replace ((b + 256 * unle r) / 256) with (unle r).
  2:{ rewrite (Z.mul_comm 256), Z.div_add by lia. rewrite Z.div_small by lia. lia. }
  rewrite IH. reflexivity.
Qed.

Lemma unle_bound l : Forall byte l -> 0 <= unle l < 256 ^ Z.of_nat (length l).
Proof.
  induction 1 as [|b r Hb Hr IH]; cbn [length unle]; [cbn; lia|].
  rewrite Nat2Z.inj_succ, Z.pow_succ_r by lia. unfold byte in Hb. lia.
Qed.

Lemma dec_le n x r : 0 <= x < 256 ^ Z.of_nat n -> dec_num n (le n x ++ r) = Some (x, r).
Proof.
  intros H. unfold dec_num. rewrite app_length, length_le.
  destruct (Nat.ltb_spec (n + length r) n); [lia|].
  rewrite firstn_app, length_le, Nat.sub_diag, firstn_O, app_nil_r.
  rewrite firstn_all2 by (rewrite length_le; lia). rewrite unle_le by assumption.
  rewrite skipn_app, length_le, Nat.sub_diag, skipn_all2 by (rewrite length_le; lia). reflexivity.
Qed.

Lemma dec_inv n l x r :
  Forall byte l -> dec_num n l = Some (x, r) ->
  l = le n x ++ r /\ 0 <= x < 256 ^ Z.of_nat n /\ Forall byte r.
Proof.
  intros Hl H. unfold dec_num in H. destruct (Nat.ltb_spec (length l) n); [discriminate|].
  injection H as <- <-.
  assert (Hf : Forall byte (firstn n l)).
  { rewrite <- (firstn_skipn n l) in Hl. apply Forall_app in Hl. apply Hl. }
  assert (Hlen : length (firstn n l) = n) by (rewrite firstn_length; lia).
  split; [|split].
  - pose proof (le_unle _ Hf) as E. rewrite Hlen in E. rewrite E. symmetry. apply firstn_skipn.
  - pose proof (unle_bound _ Hf) as B. rewrite Hlen in B. exact B.
  - rewrite <- (firstn_skipn n l) in Hl. apply Forall_app in Hl. apply Hl.
Qed.

Lemma obind_some {A B} (x : option A) (f : A -> option B) b :
  obind x f = Some b -> exists a, x = Some a /\ f a = Some b.
Proof. destruct x; cbn; [eauto|discriminate]. Qed.

Lemma dec_lockup_enc p r : dec_lockup (enc_lockup p ++ r) = Some (p, r).
Proof. unfold dec_lockup, enc_lockup, enc_u8, dec_u8. rewrite dec_le by (destruct p; cbn; lia). destruct p; reflexivity. Qed.

Lemma dec_opt_enc o r :
  match o with Some x => is_u64 x | None => True end -> dec_opt (enc_opt o ++ r) = Some (o, r).
Proof.
  intros H. unfold dec_opt, enc_opt, enc_u8, dec_u8, enc_u64, dec_u64.
  destruct o as [x|]; [rewrite <- app_assoc|]; rewrite dec_le by (cbn; lia); cbn [obind].
  - rewrite dec_le by (unfold is_u64, U64 in H; exact H). reflexivity.
  - reflexivity.
Qed.

(** one small step of the tag match on a number known only through its range *)
Ltac tag_cases t := destruct t as [|t|t]; [|do 4 try (destruct t as [t|t|]; try discriminate)|discriminate].

Lemma dec_lockup_inv l p r :
  Forall byte l -> dec_lockup l = Some (p, r) -> l = enc_lockup p ++ r /\ Forall byte r.
Proof.
  intros Hl H. unfold dec_lockup in H. apply obind_some in H as ([t r1] & E & H).
  apply dec_inv in E as (-> & _ & Hr); [|assumption].
  assert (lockup_tag p = t /\ r = r1) as [<- ->]; [|split; [reflexivity|assumption]].
  tag_cases t; injection H as <- <-; auto.
Qed.

Lemma dec_opt_inv l o r :
  Forall byte l -> dec_opt l = Some (o, r) ->
  l = enc_opt o ++ r /\ Forall byte r /\ match o with Some x => is_u64 x | None => True end.
Proof.
  intros Hl H. unfold dec_opt in H. apply obind_some in H as ([t r1] & E & H).
  apply dec_inv in E as (-> & _ & Hr); [|assumption].
  tag_cases t.
  - injection H as <- <-. auto.
  - apply obind_some in H as ([x r2] & E & H). apply dec_inv in E as (-> & Hx & Hr2); [|assumption].
    injection H as <- <-. split; [reflexivity|]. split; assumption.
Qed.

Lemma dec_u8_enc x r : is_u8 x -> dec_u8 (enc_u8 x ++ r) = Some (x, r).
Proof. intros H. apply dec_le. exact H. Qed.
Lemma dec_u64_enc x r : is_u64 x -> dec_u64 (enc_u64 x ++ r) = Some (x, r).
Proof. intros H. apply dec_le. exact H. Qed.
Lemma dec_u128_enc x r : is_u128 x -> dec_u128 (enc_u128 x ++ r) = Some (x, r).
Proof. intros H. apply dec_le. exact H. Qed.
Lemma dec_key_enc x r : is_key x -> dec_key (enc_key x ++ r) = Some (x, r).
Proof. intros H. apply dec_le. exact H. Qed.

Ltac tag_ok := assumption || (unfold is_u8; lia).
Ltac dle :=
  (rewrite dec_u8_enc by tag_ok) || (rewrite dec_u64_enc by assumption) ||
  (rewrite dec_u128_enc by assumption) || (rewrite dec_key_enc by assumption) ||
  (rewrite dec_lockup_enc) || (rewrite dec_opt_enc by assumption); cbn [obind].

Lemma parse_enc i r : ix_in_range i -> parse (encode i ++ r) = Some (i, r).
Proof.
  intros H. unfold parse.
  destruct i; cbn [encode ix_in_range] in *; rewrite <- ?app_assoc;
    repeat match goal with H : _ /\ _ |- _ => destruct H end;
    repeat dle; reflexivity.
Qed.

Lemma round_trip i : ix_in_range i -> decode (encode i) = Some i.
Proof.
  intros H. unfold decode. rewrite <- (app_nil_r (encode i)), parse_enc by assumption. reflexivity.
Qed.

Ltac dinv :=
  repeat match goal with
  | H : obind _ _ = Some _ |- _ => apply obind_some in H as ([? ?] & ? & H)
  | H : dec_u8 _ = Some _ |- _ => apply dec_inv in H as (-> & ? & ?); [|assumption]
  | H : dec_u64 _ = Some _ |- _ => apply dec_inv in H as (-> & ? & ?); [|assumption]
  | H : dec_u128 _ = Some _ |- _ => apply dec_inv in H as (-> & ? & ?); [|assumption]
  | H : dec_key _ = Some _ |- _ => apply dec_inv in H as (-> & ? & ?); [|assumption]
  | H : dec_lockup _ = Some _ |- _ => apply dec_lockup_inv in H as (-> & ?); [|assumption]
  | H : dec_opt _ = Some _ |- _ => apply dec_opt_inv in H as (-> & ? & ?); [|assumption]
  end.

Lemma parse_inv l i r :
  Forall byte l -> parse l = Some (i, r) -> l = encode i ++ r /\ ix_in_range i.
Proof.
  intros Hl H. unfold parse in H.
  apply obind_some in H as ([t r0] & E & H).
  apply dec_inv in E as (-> & Ht & Hr); [|assumption].
  tag_cases t; dinv; injection H as <- <-; cbn [encode ix_in_range];
    unfold enc_u8, enc_u64, enc_key; rewrite <- ?app_assoc; (split; [reflexivity|]);
    unfold is_u64, is_key, U64; repeat split; try lia; try assumption; try exact I.
Qed.

Lemma canonical l i : Forall byte l -> decode l = Some i -> l = encode i /\ ix_in_range i.
Proof.
  intros Hl H. unfold decode in H. apply obind_some in H as ([i' r] & E & H).
  destruct r; [|discriminate]. injection H as <-.
  apply parse_inv in E as [-> Hi]; [|assumption]. rewrite app_nil_r. auto.
Qed.

Lemma encode_bytes i : Forall byte (encode i).
Proof.
  destruct i; cbn [encode]; unfold enc_u8, enc_u64, enc_key, enc_lockup, enc_opt, enc_u8, enc_u64;
    repeat (apply Forall_app; split); try apply le_byte.
  destruct expiration; repeat (apply Forall_app; split); apply le_byte.
Qed.

Lemma encode_inj i j : ix_in_range i -> ix_in_range j -> encode i = encode j -> i = j.
Proof. intros Hi Hj E. apply round_trip in Hi, Hj. rewrite E in Hi. congruence. Qed.

(** adding bytes to, or removing bytes from, an accepted string *)
Lemma trailing l i x r : Forall byte l -> decode l = Some i -> decode (l ++ x :: r) = None.
Proof.
  intros Hl H. apply canonical in H as [-> Hi]; [|assumption].
  unfold decode. rewrite parse_enc by assumption. reflexivity.
Qed.

Lemma truncated l i n : Forall byte l -> decode l = Some i -> (n < length l)%nat -> decode (firstn n l) = None.
Proof.
  intros Hl H Hn. destruct (decode (firstn n l)) as [j|] eqn:E; [|reflexivity]. exfalso.
  assert (Hf : Forall byte (firstn n l)).
  { rewrite <- (firstn_skipn n l) in Hl. apply Forall_app in Hl. apply Hl. }
  destruct (skipn n l) as [|x r] eqn:Es.
  - assert (length (skipn n l) = 0%nat) by (rewrite Es; reflexivity). rewrite skipn_length in H0. lia.
  - pose proof (trailing _ _ x r Hf E) as T. rewrite <- Es, firstn_skipn in T. congruence.
Qed.

(** * Headers *)
Definition mining_in_range (m : mining) : Prop :=
  is_key (m_pool m) /\ is_key (m_owner m) /\ is_key (m_mint m) /\ is_u128 (m_index m) /\
  is_u64 (m_share m) /\ is_u64 (m_unclaimed m) /\ is_u64 (m_sfo m) /\ is_u8 (m_bump m) /\
  is_u8 (m_type m).
Definition pool_in_range (p : pool) : Prop :=
  is_key (p_deposit_auth p) /\ is_key (p_distribute_auth p) /\ is_key (p_fill_auth p) /\
  is_key (p_mint p) /\ is_u128 (p_index p) /\ is_u64 (p_total p) /\ is_u64 (p_ends_at p) /\
  is_u64 (p_avail p) /\ is_u8 (p_bump p) /\ is_u8 (p_type p).

Lemma mining_header_round m r :
  mining_in_range m ->
  dec_mining_header (enc_mining_header m ++ r) = Some (m, r) /\
  Z.of_nat (length (enc_mining_header m)) = MINING_HDR_LEN.
Proof.
  unfold mining_in_range. intros (? & ? & ? & ? & ? & ? & ? & ? & ?).
  unfold dec_mining_header, enc_mining_header.
  rewrite <- !app_assoc. split.
  - do 9 dle. rewrite dec_le by (split; [lia|reflexivity]). cbn [obind]. destruct m; reflexivity.
  - unfold enc_u8, enc_u64, enc_u128, enc_key. rewrite !app_length, !length_le. reflexivity.
Qed.

Lemma pool_header_round p r :
  pool_in_range p ->
  dec_pool_header (enc_pool_header p ++ r) = Some (p, r) /\
  Z.of_nat (length (enc_pool_header p)) = POOL_HDR_LEN.
Proof.
  unfold pool_in_range. intros (? & ? & ? & ? & ? & ? & ? & ? & ? & ?).
  unfold dec_pool_header, enc_pool_header.
  rewrite <- !app_assoc. split.
  - do 10 dle. rewrite dec_le by (split; [lia|reflexivity]). cbn [obind]. destruct p; reflexivity.
  - unfold enc_u8, enc_u64, enc_u128, enc_key. rewrite !app_length, !length_le. reflexivity.
Qed.

(** [len] bytes from offset [off] *)
Definition slice (off len : nat) (l : bytes) : bytes := firstn len (skipn off l).

Lemma slice_app (a b c : bytes) off len :
  length a = off -> length b = len -> slice off len (a ++ b ++ c) = b.
Proof.
  intros <- <-. unfold slice. rewrite skipn_app, skipn_all, Nat.sub_diag.
  change ([] ++ skipn 0 (b ++ c)) with (b ++ c).
  rewrite firstn_app, firstn_all, Nat.sub_diag, firstn_O, app_nil_r. reflexivity.
Qed.

Lemma slice_here n x r : slice 0 n (le n x ++ r) = le n x.
Proof. apply (slice_app []); [reflexivity|apply length_le]. Qed.

Lemma slice_skip n off len x r : (n <= off)%nat -> slice off len (le n x ++ r) = slice (off - n) len r.
Proof.
  intros H. unfold slice. rewrite skipn_app, length_le, skipn_all2 by (rewrite length_le; lia). reflexivity.
Qed.

Ltac offset :=
  repeat (rewrite slice_skip by lia);
  match goal with |- slice ?o _ _ = _ => let o' := eval vm_compute in o in change o with o' end;
  apply slice_here.

Ltac dstep H :=
  apply obind_some in H as ([? ?] & ? & H);
  match goal with E : _ = Some (_, _) |- _ => apply dec_inv in E as (-> & ? & ?); [|assumption] end.

(** every byte string of at least the header's length is the layout of one header
    up to the six unused bytes *)
Lemma mining_header_layout l :
  Forall byte l -> (144 <= length l)%nat ->
  exists m pad r, dec_mining_header l = Some (m, r) /\ mining_in_range m /\ length pad = 6%nat /\
    l = firstn 138 (enc_mining_header m) ++ pad ++ r /\ length (l) = (144 + length r)%nat.
Proof.
  intros Hl Hn.
  assert (D : forall n l, (n <= length l)%nat -> dec_num n l = Some (unle (firstn n l), skipn n l)).
  { intros n l0 H. unfold dec_num. destruct (Nat.ltb_spec (length l0) n); [lia|reflexivity]. }
  destruct (dec_mining_header l) as [[m r]|] eqn:E.
  2:{ exfalso. unfold dec_mining_header, dec_key, dec_u128, dec_u64, dec_u8 in E.
      repeat (rewrite D in E by (rewrite ?skipn_length; lia); cbn [obind] in E). discriminate E. }
  exists m. unfold dec_mining_header, dec_key, dec_u128, dec_u64, dec_u8 in E.
  do 10 dstep E. injection E as <- <-.
  match goal with |- context [le 6 ?z] => exists (le 6 z) end.
  match goal with |- context [le 6 _ ++ ?r] => exists r end.
  split; [reflexivity|]. split.
  { unfold mining_in_range; cbn [m_pool m_owner m_mint m_index m_share m_unclaimed m_sfo m_bump m_type].
    unfold is_key, is_u128, is_u64, is_u8, U64, U128. repeat split; lia. }
  split; [apply length_le|]. split.
  - unfold enc_mining_header; cbn [m_pool m_owner m_mint m_index m_share m_unclaimed m_sfo m_bump m_type].
    rewrite !app_assoc. rewrite firstn_app, firstn_all2.
    2:{ unfold enc_u8, enc_u64, enc_u128, enc_key. rewrite !app_length, !length_le. cbn. lia. }
    unfold enc_u8, enc_u64, enc_u128, enc_key.
    rewrite !app_length, !length_le. cbn [Nat.add Nat.sub firstn]. rewrite app_nil_r.
    rewrite <- !app_assoc. reflexivity.
  - rewrite !app_length, !length_le. lia.
Qed.

Lemma pool_header_layout l :
  Forall byte l -> (176 <= length l)%nat ->
  exists p pad r, dec_pool_header l = Some (p, r) /\ pool_in_range p /\ length pad = 6%nat /\
    l = firstn 170 (enc_pool_header p) ++ pad ++ r /\ length (l) = (176 + length r)%nat.
Proof.
  intros Hl Hn.
  assert (D : forall n l, (n <= length l)%nat -> dec_num n l = Some (unle (firstn n l), skipn n l)).
  { intros n l0 H. unfold dec_num. destruct (Nat.ltb_spec (length l0) n); [lia|reflexivity]. }
  destruct (dec_pool_header l) as [[m r]|] eqn:E.
  2:{ exfalso. unfold dec_pool_header, dec_key, dec_u128, dec_u64, dec_u8 in E.
      repeat (rewrite D in E by (rewrite ?skipn_length; lia); cbn [obind] in E). discriminate E. }
  exists m. unfold dec_pool_header, dec_key, dec_u128, dec_u64, dec_u8 in E.
  do 11 dstep E. injection E as <- <-.
  match goal with |- context [le 6 ?z] => exists (le 6 z) end.
  match goal with |- context [le 6 _ ++ ?r] => exists r end.
  split; [reflexivity|]. split.
  { unfold pool_in_range;
    cbn [p_deposit_auth p_distribute_auth p_fill_auth p_mint p_index p_total p_ends_at p_avail p_bump p_type].
    unfold is_key, is_u128, is_u64, is_u8, U64, U128. repeat split; lia. }
  split; [apply length_le|]. split.
  - unfold enc_pool_header;
    cbn [p_deposit_auth p_distribute_auth p_fill_auth p_mint p_index p_total p_ends_at p_avail p_bump p_type].
    rewrite !app_assoc. rewrite firstn_app, firstn_all2.
    2:{ unfold enc_u8, enc_u64, enc_u128, enc_key. rewrite !app_length, !length_le. cbn. lia. }
    unfold enc_u8, enc_u64, enc_u128, enc_key.
    rewrite !app_length, !length_le. cbn [Nat.add Nat.sub firstn]. rewrite app_nil_r.
    rewrite <- !app_assoc. reflexivity.
  - rewrite !app_length, !length_le. lia.
Qed.

(** the offset of every field *)
Lemma mining_offsets m :
  let b := enc_mining_header m in
  slice 0 32 b = le 32 (m_pool m) /\ slice 32 32 b = le 32 (m_owner m) /\
  slice 64 32 b = le 32 (m_mint m) /\ slice 96 16 b = le 16 (m_index m) /\
  slice 112 8 b = le 8 (m_share m) /\ slice 120 8 b = le 8 (m_unclaimed m) /\
  slice 128 8 b = le 8 (m_sfo m) /\ slice 136 1 b = le 1 (m_bump m) /\
  slice 137 1 b = le 1 (m_type m).
Proof.
  cbv zeta. unfold enc_mining_header, enc_u8, enc_u64, enc_u128, enc_key.
  repeat split; offset.
Qed.

Lemma pool_offsets p :
  let b := enc_pool_header p in
  slice 0 32 b = le 32 (p_deposit_auth p) /\ slice 32 32 b = le 32 (p_distribute_auth p) /\
  slice 64 32 b = le 32 (p_fill_auth p) /\ slice 96 32 b = le 32 (p_mint p) /\
  slice 128 16 b = le 16 (p_index p) /\ slice 144 8 b = le 8 (p_total p) /\
  slice 152 8 b = le 8 (p_ends_at p) /\ slice 160 8 b = le 8 (p_avail p) /\
  slice 168 1 b = le 1 (p_bump p) /\ slice 169 1 b = le 1 (p_type p).
Proof.
  cbv zeta. unfold enc_pool_header, enc_u8, enc_u64, enc_u128, enc_key.
  repeat split; offset.
Qed.

Lemma lengths :
  mining_account_len = 1776 /\ pool_account_len = 64480 /\ pool_used_len = 55720 /\
  (forall d m, load_mining d = Ok m -> data_len d = 1776 /\ load_pool d = Err EPanic) /\
  (forall d p, load_pool d = Ok p -> data_len d = 64480) /\
  (forall d, data_len d < 1776 -> load_mining d = Err EPanic) /\
  (forall d, data_len d < 55720 -> load_pool d = Err EPanic) /\
  data_len DMint = 82 /\ (forall t, data_len (DToken t) = 165).
Proof.
  do 3 (split; [reflexivity|]). split; [|split; [|split; [|split; [|split; reflexivity]]]].
  - intros d x; destruct d; cbn [load_mining data_len]; try (destruct (_ <? _)); try discriminate. intros _. split; reflexivity.
  - intros d x; destruct d; cbn [load_pool data_len]; try (destruct (_ <? _)); try discriminate. reflexivity.
  - intros d H. destruct d; cbn [load_mining data_len] in *;
      try (rewrite (proj2 (Z.ltb_lt _ _)) by (unfold MINING_LEN; lia); reflexivity); try (unfold MINING_LEN, POOL_LEN in H; lia).
  - intros d H. destruct d; cbn [load_pool data_len] in *;
      try (rewrite (proj2 (Z.ltb_lt _ _)) by (unfold POOL_USED_LEN; lia); reflexivity); try (unfold MINING_LEN, POOL_LEN in H; lia).
Qed.

(** the first byte decides the instruction kind *)
Definition tag_of (i : ix) : Z :=
  match i with
  | InitializePool _ _ => 0 | FillVault _ _ => 1 | InitializeMining _ => 2 | DepositMining _ _ _ _ => 3
  | WithdrawMining _ _ _ => 4 | Claim => 5 | ExtendStake _ _ _ _ _ _ _ => 6 | DistributeRewards => 7
  | CloseMining => 8 | ChangeDelegate _ _ => 9 | Slash _ _ _ _ => 10 | DecreaseRewards _ _ => 11
  end.

Lemma tag_spec l i : Forall byte l -> decode l = Some i -> exists r, l = tag_of i :: r.
Proof.
  intros Hl H. apply canonical in H as [-> _]; [|assumption]. destruct i; eexists; reflexivity.
Qed.

Lemma unknown_tag t r : 12 <= t -> decode (t :: r) = None.
Proof.
  intros H. unfold decode, parse, dec_u8, dec_num. cbn [length Nat.ltb Nat.leb firstn unle skipn].
  cbn [obind]. replace (t + 256 * 0) with t by lia.
  destruct t as [|t|t]; try lia. repeat (destruct t as [t|t|]; try lia; try reflexivity).
Qed.

Lemma bad_lockup a t r : byte t -> 5 <= t -> is_u64 a -> decode (3 :: le 8 a ++ t :: r) = None.
Proof.
  intros Ht H Ha. unfold decode, parse.
  change (3 :: le 8 a ++ t :: r) with (enc_u8 3 ++ enc_u64 a ++ t :: r). do 2 dle.
  assert (E : dec_lockup (t :: r) = None); [|rewrite E; reflexivity].
  unfold dec_lockup, dec_u8, dec_num. cbn [length Nat.ltb Nat.leb firstn unle skipn obind].
  replace (t + 256 * 0) with t by lia.
  destruct t as [|t|t]; try lia. repeat (destruct t as [t|t|]; try lia; try reflexivity).
Qed.

Lemma bad_option o n w t r :
  byte t -> 2 <= t -> is_key o -> is_u64 n -> is_u64 w ->
  decode (10 :: le 32 o ++ le 8 n ++ le 8 w ++ t :: r) = None.
Proof.
  intros Ht H Ho Hn Hw. unfold decode, parse.
  change (10 :: le 32 o ++ le 8 n ++ le 8 w ++ t :: r)
    with (enc_u8 10 ++ enc_key o ++ enc_u64 n ++ enc_u64 w ++ t :: r). do 4 dle.
  assert (E : dec_opt (t :: r) = None); [|rewrite E; reflexivity].
  unfold dec_opt, dec_u8, dec_num. cbn [length Nat.ltb Nat.leb firstn unle skipn obind].
  replace (t + 256 * 0) with t by lia.
  destruct t as [|t|t]; try lia. repeat (destruct t as [t|t|]; try lia; try reflexivity).
Qed.

Lemma junk_rejected e ts ms l L :
  (forall i, ix_in_range i -> l <> encode i) -> Forall byte l -> exec_bytes e ts ms l L = Err EBorsh.
Proof.
  intros H Hl. unfold exec_bytes. destruct (decode l) as [i|] eqn:E; [|reflexivity].
  apply canonical in E as [-> Hi]; [|assumption]. destruct (H i Hi eq_refl).
Qed.
