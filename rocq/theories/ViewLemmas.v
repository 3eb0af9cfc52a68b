(** Proofs about the clients' reading of accounts. *)
From Verif Require Import Base OMap State Ledger Program Codec CodecLemmas Views ViewSpec.

Lemma take_app a r : take (length a) (a ++ r) = Some (a, r).
Proof.
  unfold take. rewrite app_length. destruct (Nat.ltb_spec (length a + length r) (length a)); [lia|].
  rewrite firstn_app, firstn_all, skipn_app, skipn_all, Nat.sub_diag. cbn. rewrite app_nil_r. reflexivity.
Qed.
Lemma take_inv n l a r : take n l = Some (a, r) -> l = a ++ r /\ length a = n.
Proof.
  unfold take. destruct (Nat.ltb_spec (length l) n); [discriminate|]. injection 1 as <- <-.
  split; [symmetry; apply firstn_skipn|apply firstn_length_le; lia].
Qed.

Lemma memcmp_slice off v l : memcmp off v l = true <-> slice off (length v) l = v.
Proof. unfold memcmp, slice. destruct (list_eq_dec _ _ _); split; congruence. Qed.

Lemma le_inj n x y :
  0 <= x < 256 ^ Z.of_nat n -> 0 <= y < 256 ^ Z.of_nat n -> le n x = le n y -> x = y.
Proof. intros Hx Hy E. rewrite <- (unle_le n x Hx), <- (unle_le n y Hy), E. reflexivity. Qed.

Lemma take7 t p r : take 7 (le 1 t ++ le 6 p ++ r) = Some (le 1 t ++ le 6 p, r).
Proof.
  pose proof (take_app (le 1 t ++ le 6 p) r) as T. rewrite <- app_assoc in T.
  rewrite app_length, !length_le in T. exact T.
Qed.
Ltac tag_byte :=
  match goal with |- le 1 ?x ++ _ = _ => change (le 1 x) with [x mod 256]; cbn [app]; f_equal;
    rewrite Z.mod_small; [reflexivity|change 256 with (256 ^ Z.of_nat 1); assumption] end.

Lemma client_mining_reads l m r :
  Forall byte l -> dec_mining_header l = Some (m, r) ->
  exists c, client_mining l = Some c /\ mining_seen m c.
Proof.
  intros Hl E. unfold dec_mining_header, dec_key, dec_u128, dec_u64, dec_u8 in E.
  do 10 dstep E. injection E as <- <-.
  match goal with |- context [le 6 ?z] => pose (pad := le 6 z) end.
  unfold client_mining, dec_key, dec_u128, dec_u64, dec_u8.
  do 8 (rewrite dec_le by assumption; cbn [obind]).
  rewrite take7. cbn [obind]. eexists. split; [reflexivity|].
  unfold mining_seen. cbn [cm_pool cm_owner cm_mint cm_index cm_share cm_unclaimed cm_sfo cm_bump cm_data
    m_pool m_owner m_mint m_index m_share m_unclaimed m_sfo m_bump m_type].
  repeat (split; [reflexivity|]). exists pad. split; [apply length_le|]. subst pad. tag_byte.
Qed.

Lemma client_pool_reads l p r :
  Forall byte l -> dec_pool_header l = Some (p, r) ->
  exists c, client_pool l = Some c /\ pool_seen p c.
Proof.
  intros Hl E. unfold dec_pool_header, dec_key, dec_u128, dec_u64, dec_u8 in E.
  do 11 dstep E. injection E as <- <-.
  match goal with |- context [le 6 ?z] => pose (pad := le 6 z) end.
  unfold client_pool, dec_key, dec_u128, dec_u64, dec_u8.
  do 9 (rewrite dec_le by assumption; cbn [obind]).
  rewrite take7. cbn [obind]. eexists. split; [reflexivity|].
  unfold pool_seen. cbn [cp_deposit_auth cp_distribute_auth cp_fill_auth cp_mint cp_index cp_total cp_ends_at cp_avail
    cp_bump cp_data p_deposit_auth p_distribute_auth p_fill_auth p_mint p_index p_total p_ends_at p_avail p_bump p_type].
  repeat (split; [reflexivity|]). exists pad. split; [apply length_le|]. subst pad. tag_byte.
Qed.

(** a client reads something from every account that is long enough, and nothing from a
    shorter one *)
Lemma dec_num_some n l : (n <= length l)%nat -> dec_num n l = Some (unle (firstn n l), skipn n l).
Proof. intros H. unfold dec_num. destruct (Nat.ltb_spec (length l) n); [lia|reflexivity]. Qed.
Lemma dec_num_more n l A (f : Z * bytes -> option A) :
  obind (dec_num n l) f <> None -> (n <= length l)%nat /\ f (unle (firstn n l), skipn n l) <> None.
Proof.
  intros X. unfold dec_num in X. destruct (Nat.ltb_spec (length l) n); [exfalso; apply X; reflexivity|]. split; [lia|exact X].
Qed.

Ltac long_enough :=
  unfold dec_key, dec_u128, dec_u64, dec_u8;
  split;
  [let H := fresh in intros H; repeat (apply dec_num_more in H as [? H]); unfold take in H;
   rewrite ?skipn_length in *;
   match type of H with context [(?a <? ?b)%nat] => destruct (Nat.ltb_spec a b); [exfalso; apply H; reflexivity|lia] end
  |let H := fresh in intros H; repeat (rewrite dec_num_some by (rewrite ?skipn_length; lia); cbn [obind]); unfold take;
   match goal with |- context [(?a <? ?b)%nat] => destruct (Nat.ltb_spec a b) end;
   [rewrite ?skipn_length in *; lia|cbn [obind]; discriminate]].

Lemma client_mining_total l : client_mining l <> None <-> (144 <= length l)%nat.
Proof. unfold client_mining. long_enough. Qed.
Lemma client_pool_total l : client_pool l <> None <-> (176 <= length l)%nat.
Proof. unfold client_pool. long_enough. Qed.

(** filters *)
Lemma slice_front (a r : bytes) : slice 0 (length a) (a ++ r) = a.
Proof. unfold slice. change (skipn 0 (a ++ r)) with (a ++ r). rewrite firstn_app, firstn_all, Nat.sub_diag. cbn. apply app_nil_r. Qed.

Ltac to_offset :=
  repeat (rewrite slice_skip by lia);
  match goal with |- slice ?o' _ _ = _ => let o'' := eval vm_compute in o' in change o' with o'' end.
Ltac at_offset :=
  unfold enc_u8, enc_u64, enc_u128, enc_key; rewrite memcmp_slice, length_le;
  match goal with |- slice ?o ?n ?l = _ <-> ?x = _ =>
    assert (slice o n l = le n x) as ->;
    [to_offset; apply slice_here
    |split; [intros Q; apply le_inj in Q; [exact Q|assumption|assumption]|intros ->; reflexivity]]
  end.
Ltac at_data :=
  match goal with R : length ?v = 7%nat, D : length ?d = 7%nat |- _ =>
    rewrite memcmp_slice, R;
    match goal with |- slice ?o ?n ?l = _ <-> _ =>
      assert (slice o n l = d) as ->; [to_offset; rewrite <- D; apply slice_front|reflexivity] end
  end.
Ltac tstep E :=
  let a := fresh "d" in let r := fresh "r" in let T := fresh "T" in
  apply obind_some in E as ([a r] & T & E); apply take_inv in T as [-> T].

Lemma mining_filters l c f :
  Forall byte l -> client_mining l = Some c -> mining_askable f ->
  (mining_matches f l = true <-> mining_asks f c).
Proof.
  intros Hl E R. unfold client_mining, dec_key, dec_u128, dec_u64, dec_u8 in E.
  do 8 dstep E. tstep E. injection E as <-.
  destruct f; cbn [mining_matches mining_asks mining_askable cm_pool cm_owner cm_mint cm_index cm_share cm_unclaimed
    cm_sfo cm_bump cm_data] in *;
    first [at_offset|at_data].
Qed.

Lemma pool_filters l c f :
  Forall byte l -> client_pool l = Some c -> pool_askable f ->
  (pool_matches f l = true <-> pool_asks f c).
Proof.
  intros Hl E R. unfold client_pool, dec_key, dec_u128, dec_u64, dec_u8 in E.
  do 9 dstep E. tstep E. injection E as <-.
  destruct f; cbn [pool_matches pool_asks pool_askable cp_deposit_auth cp_distribute_auth cp_fill_auth cp_mint cp_index
    cp_total cp_ends_at cp_avail cp_bump cp_data] in *;
    first [at_offset|at_data].
Qed.

(** a pool's bytes, read as a mining *)
Lemma pool_as_mining l p r :
  Forall byte l -> dec_pool_header l = Some (p, r) ->
  exists c, client_mining l = Some c /\
    cm_pool c = p_deposit_auth p /\ cm_owner c = p_distribute_auth p /\ cm_mint c = p_fill_auth p.
Proof.
  intros Hl E. unfold dec_pool_header, dec_key, dec_u128, dec_u64, dec_u8 in E.
  do 11 dstep E. injection E as <- <-.
  match goal with |- exists c, client_mining ?l = _ /\ _ => destruct (client_mining l) as [c|] eqn:C end.
  2:{ exfalso. revert C. apply client_mining_total. rewrite !app_length, !length_le. lia. }
  exists c. split; [reflexivity|].
  unfold client_mining, dec_key, dec_u128, dec_u64, dec_u8 in C.
  do 3 (rewrite dec_le in C by assumption; cbn [obind] in C).
  repeat (apply obind_some in C as ([? ?] & _ & C)).
  injection C as <-. cbn. repeat split; reflexivity.
Qed.

(** so a search for the minings of an owner also finds pools *)
Lemma pool_found_by_owner p r :
  pool_in_range p -> Forall byte r ->
  mining_matches (ByOwner (p_distribute_auth p)) (enc_pool_header p ++ r) = true.
Proof.
  intros R F. destruct (pool_header_round p r R) as [D _].
  assert (B : Forall byte (enc_pool_header p ++ r)).
  { apply Forall_app. split; [|exact F]. unfold enc_pool_header, enc_key, enc_u128, enc_u64, enc_u8.
    repeat (apply Forall_app; split); apply le_byte. }
  destruct (pool_as_mining _ _ _ B D) as (c & C & _ & O & _).
  apply (mining_filters _ _ (ByOwner (p_distribute_auth p)) B C); [apply R|exact O].
Qed.

(** a reader of [n] bytes: what it needs and what it leaves *)
Lemma num_len n l : match dec_num n l with Some (_, r) => (length l = n + length r)%nat | None => (length l < n)%nat end.
Proof. unfold dec_num. destruct (Nat.ltb_spec (length l) n); [assumption|]. rewrite skipn_length. lia. Qed.
Lemma take_len n l : match take n l with Some (_, r) => (length l = n + length r)%nat | None => (length l < n)%nat end.
Proof. unfold take. destruct (Nat.ltb_spec (length l) n); [assumption|]. rewrite skipn_length. lia. Qed.

Ltac one_more := match goal with
  | |- context [dec_num ?n ?l] => let H := fresh in pose proof (num_len n l) as H; destruct (dec_num n l) as [[? ?]|]; cbn [obind]
  | |- context [take ?n ?l] => let H := fresh in pose proof (take_len n l) as H; destruct (take n l) as [[? ?]|]; cbn [obind]
  end.
(** the clients read an account exactly when it has at least the size they give *)
Lemma sizes_read l :
  (client_mining l <> None <-> client_mining_size <= Z.of_nat (length l)) /\
  (client_pool l <> None <-> client_pool_size <= Z.of_nat (length l)).
Proof.
  unfold client_mining, client_pool, dec_key, dec_u128, dec_u64, dec_u8, client_mining_size, client_pool_size. split.
  - repeat one_more; split; intros H'; try congruence; try discriminate; lia.
  - repeat one_more; split; intros H'; try congruence; try discriminate; lia.
Qed.

(** the sizes the clients give are not those of the accounts *)
Lemma sizes_wrong d :
  ((exists m, load_mining d = Ok m) -> data_len d <> client_mining_size) /\
  ((exists w, load_pool d = Ok w) -> data_len d <> client_pool_size).
Proof.
  destruct lengths as (_ & _ & _ & A & B & _). split; intros [x H].
  - destruct (A _ _ H) as [-> _]. discriminate.
  - rewrite (B _ _ H). discriminate.
Qed.

(** errors *)
Lemma table_complete n : 0 <= n <= 15 <-> error_from_code n <> None.
Proof.
  split.
  - intros H. assert (C : n=0\/n=1\/n=2\/n=3\/n=4\/n=5\/n=6\/n=7\/n=8\/n=9\/n=10\/n=11\/n=12\/n=13\/n=14\/n=15) by lia.
    repeat (destruct C as [->|C]; [discriminate|]). subst n. discriminate.
  - unfold error_from_code, error_table. cbn [List.find fst snd].
    repeat match goal with |- context [?k =? n] => destruct (Z.eqb_spec k n); [lia|] end. intros H. exfalso. apply H. reflexivity.
Qed.
Lemma name_code n s : error_from_name s = Some n <-> exists t, error_from_code n = Some (s, t).
Proof.
  split.
  - unfold error_from_name. destruct (List.find _ _) as [c|] eqn:F; [|discriminate].
    apply List.find_some in F as [I E]. injection 1 as <-. apply String.eqb_eq in E. subst s.
    cbn [In error_table] in I. repeat (destruct I as [<-|I]; [eexists; reflexivity|]). destruct I.
  - intros [t H].
    assert (B : 0 <= n <= 15) by (apply table_complete; congruence).
    assert (C : n=0\/n=1\/n=2\/n=3\/n=4\/n=5\/n=6\/n=7\/n=8\/n=9\/n=10\/n=11\/n=12\/n=13\/n=14\/n=15) by lia.
    repeat (destruct C as [->|C]; [injection H as <- <-; reflexivity|]). subst n. injection H as <- <-; reflexivity.
Qed.
Lemma tables_agree n c :
  (error_from_code n = Some c <-> 0 <= n /\ nth_error program_errors (Z.to_nat n) = Some c) /\
  (error_from_code n = Some c <-> 0 <= n /\ nth_error rust_errors (Z.to_nat n) = Some c) /\
  (error_from_code n = Some c <-> In (n, c) idl_errors).
Proof.
  assert (Q : forall l : list (String.string * String.string),
    (forall k, (k < 16)%nat -> error_from_code (Z.of_nat k) = nth_error l k) -> length l = 16%nat ->
    (error_from_code n = Some c <-> 0 <= n /\ nth_error l (Z.to_nat n) = Some c)).
  { intros l Hl Hlen. split.
    - intros H. assert (B : 0 <= n <= 15) by (apply table_complete; congruence). split; [lia|].
      rewrite <- Hl, Z2Nat.id by lia. exact H.
    - intros [H0 H]. assert (B : (Z.to_nat n < length l)%nat) by (apply List.nth_error_Some; congruence).
      rewrite <- Hl, Z2Nat.id in H by lia. exact H. }
  split; [|split].
  - apply Q; [|reflexivity]. intros k Hk. do 16 (destruct k as [|k]; [reflexivity|]). lia.
  - apply Q; [|reflexivity]. intros k Hk. do 16 (destruct k as [|k]; [reflexivity|]). lia.
  - split.
    + intros H. unfold error_from_code in H. destruct (List.find _ _) as [[k c']|] eqn:F; [|discriminate].
      injection H as <-. apply List.find_some in F as [I E]. cbn [fst] in E. apply Z.eqb_eq in E. subst k. exact I.
    + intros I. cbn [In idl_errors] in I. repeat (destruct I as [I|I]; [injection I as <- <-; reflexivity|]). destruct I.
Qed.
Lemma message_code n k s s' t :
  error_from_code n = Some (s, t) -> error_from_code k = Some (s', t) -> n = k \/ (n = 4 /\ k = 5) \/ (n = 5 /\ k = 4).
Proof.
  intros H H'.
  assert (B : 0 <= n <= 15) by (apply table_complete; congruence).
  assert (B' : 0 <= k <= 15) by (apply table_complete; congruence).
  assert (C : n=0\/n=1\/n=2\/n=3\/n=4\/n=5\/n=6\/n=7\/n=8\/n=9\/n=10\/n=11\/n=12\/n=13\/n=14\/n=15) by lia.
  assert (C' : k=0\/k=1\/k=2\/k=3\/k=4\/k=5\/k=6\/k=7\/k=8\/k=9\/k=10\/k=11\/k=12\/k=13\/k=14\/k=15) by lia.
  clear B B'.
  repeat (destruct C as [->|C]; [vm_compute in H; injection H as <- <-;
    repeat (destruct C' as [->|C']; [first [left; reflexivity|right; left; split; reflexivity|right; right; split; reflexivity|exfalso; vm_compute in H'; discriminate]|]);
    subst k; exfalso; vm_compute in H'; discriminate|]).
  subst n. vm_compute in H; injection H as <- <-.
  repeat (destruct C' as [->|C']; [exfalso; vm_compute in H'; discriminate|]). subst k. left; reflexivity.
Qed.
