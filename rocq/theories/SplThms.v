(** Proofs about the full token program (Spl.v). *)
From stdpp Require Import gmap.
From Verif Require Import Base OMap State Ledger Program ResLemmas LedgerLemmas LedgerSpec CodecLemmas WfLemmas
  History HistoryLemmas LedgerView LedgerCore Core Determined ContainSpec Local Clients LedgerCoreThms Overlay OverlayThms Contain Spl SplSpec.

(** ** The two processors, split at the transfer *)
Ltac same_steps := repeat match goal with
  | |- rbind ?x _ = _ => destruct x as [?|?]; cbn [rbind]; [|reflexivity]
  | |- (let (_, _) := ?p in _) = _ => destruct p
  end.
Lemma fill_split e ts ms L r x :
  process_fill_vault e ts ms L r x = let? (L1, s, v, a) := fill_part e ts ms L r x in spl_transfer ms L1 s v a r.
Proof.
  unfold process_fill_vault, fill_part.
  same_steps; repeat match goal with p : (_ * _)%type |- _ => destruct p end; same_steps; try reflexivity.
Qed.
Lemma claim_split e ts ms L :
  process_claim e ts ms L =
    let? (L1, s, d, a, n) := claim_part e ts ms L in
    let? L2 := (if 0 <? n then spl_transfer ms L1 s d a n else Ok L1) in Ok (L2, n).
Proof.
  unfold process_claim, claim_part.
  repeat (same_steps; repeat match goal with p : (_ * _)%type |- _ => destruct p end); try reflexivity.
Qed.

(** ** A token account in another name *)
Definition rename (L : ledger) (k o : pubkey) : ledger :=
  match a_data (acc L k) with
  | DToken t => put_data L k (DToken (Token (t_mint t) o (t_amount t)))
  | _ => L
  end.

Lemma rename_owner L k o q : a_owner (acc (rename L k o) q) = a_owner (acc L q).
Proof. unfold rename. destruct (a_data (acc L k)); try reflexivity. apply owner_put. Qed.
Lemma rename_ne L k o q : q <> k -> acc (rename L k o) q = acc L q.
Proof.
  intros N. unfold rename. destruct (a_data (acc L k)); try reflexivity. apply acc_put_data_ne. congruence.
Qed.
Lemma rename_at L k o t : a_data (acc L k) = DToken t ->
  acc (rename L k o) k = Account (a_lamports (acc L k)) (a_owner (acc L k)) (DToken (Token (t_mint t) o (t_amount t))).
Proof. intros E. unfold rename. rewrite E. unfold put_data. apply acc_insert. Qed.
Lemma rename_same L k t : a_data (acc L k) = DToken t -> rename L k (t_owner t) = L.
Proof.
  intros E. unfold rename. rewrite E. replace (Token (t_mint t) (t_owner t) (t_amount t)) with t by (destruct t; reflexivity).
  rewrite <- E. unfold put_data. apply insert_id. unfold acc, ledger in *.
  destruct (L !! k) as [[]|] eqn:F; [reflexivity|]. cbn in E. discriminate.
Qed.
Lemma rename_put L k o q d : q <> k -> rename (put_data L q d) k o = put_data (rename L k o) q d.
Proof.
  intros N. unfold rename. rewrite acc_put_data_ne by congruence.
  destruct (a_data (acc L k)) eqn:E; try reflexivity.
  unfold put_data. rewrite !acc_insert_ne by congruence. apply insert_commute. congruence.
Qed.
Lemma rename_token e L k t o : is_token e L k t -> in_name_of e L k o (rename L k o).
Proof.
  intros [A B]. exists t. split; [split; assumption|]. split; [apply rename_at; assumption|].
  intros q N. apply rename_ne. assumption.
Qed.

Lemma next_owner_rename L k o x it : next_with_owner (rename L k o) x it = next_with_owner L x it.
Proof. unfold next_with_owner. destruct it; [reflexivity|]. rewrite rename_owner. reflexivity. Qed.

Lemma fill_rename e ts ms L r x k o :
  program_id e <> spl_token_id e -> a_owner (acc L k) = spl_token_id e ->
  fill_part e ts ms (rename L k o) r x =
    let? (L1, s, v, a) := fill_part e ts ms L r x in Ok (rename L1 k o, s, v, a).
Proof.
  intros Hne Hk. unfold fill_part. rewrite !next_owner_rename.
  destruct (next_with_owner L (program_id e) ms) as [[pool it]|] eqn:E; cbn [rbind]; [|reflexivity].
  apply next_with_owner_ok in E as (m & _ & _ & Ho). unfold owner_of in Ho.
  assert (N : pool <> k) by congruence.
  rewrite (rename_ne L k o pool) by assumption.
  repeat (repeat match goal with |- rbind ?x _ = rbind (rbind ?x _) _ => destruct x as [?|?]; cbn [rbind]; [|reflexivity]
   end; rewrite ?next_owner_rename; repeat match goal with p : (_ * _)%type |- _ => destruct p end).
  unfold put_pool. rewrite rename_put by assumption. reflexivity.
Qed.

Lemma claim_rename e ts ms L k o :
  program_id e <> spl_token_id e -> a_owner (acc L k) = spl_token_id e -> ~ account_at ms 6 k ->
  claim_part e ts ms (rename L k o) =
    let? (L1, s, d, a, n) := claim_part e ts ms L in Ok (rename L1 k o, s, d, a, n).
Proof.
  intros Hne Hk Hd. unfold claim_part. rewrite !next_owner_rename.
  destruct (next_with_owner L (program_id e) ms) as [[pool it]|] eqn:E; cbn [rbind]; [|reflexivity].
  rewrite !next_owner_rename.
  destruct (next_with_owner L (spl_token_id e) it) as [[mint it1]|] eqn:E1; cbn [rbind]; [|reflexivity].
  rewrite !next_owner_rename.
  destruct (next_with_owner L (spl_token_id e) it1) as [[vault it2]|] eqn:E2; cbn [rbind]; [|reflexivity].
  rewrite !next_owner_rename.
  destruct (next_with_owner L (program_id e) it2) as [[mining it3]|] eqn:E3; cbn [rbind]; [|reflexivity].
  destruct (next_signer ms it3) as [[owner it4]|] eqn:E4; cbn [rbind]; [|reflexivity].
  destruct (next_signer ms it4) as [[auth it5]|] eqn:E5; cbn [rbind]; [|reflexivity].
  rewrite !next_owner_rename.
  destruct (next_with_owner L (spl_token_id e) it5) as [[dest it6]|] eqn:E6; cbn [rbind]; [|reflexivity].
  destruct (next_with_key (spl_token_id e) it6) as [[tp it7]|] eqn:E7; cbn [rbind]; [|reflexivity].
  apply next_with_owner_ok in E as (m0 & Hm0 & Hk0 & Ho0). apply next_with_owner_ok in E1 as (m1 & Hm1 & Hk1 & _).
  apply next_with_owner_ok in E2 as (m2 & Hm2 & Hk2 & _). apply next_with_owner_ok in E3 as (m3 & Hm3 & Hk3 & Ho3).
  apply next_signer_ok in E4 as (m4 & Hm4 & Hk4 & _). apply next_signer_ok in E5 as (m5 & Hm5 & Hk5 & _).
  apply next_with_owner_ok in E6 as (m6 & Hm6 & Hk6 & _). unfold owner_of in *.
  assert (N1 : pool <> k) by congruence. assert (N2 : mining <> k) by congruence.
  assert (N3 : dest <> k).
  { intros Hx. apply Hd. subst it it1 it2 it3 it4 it5 ms. unfold account_at. cbn. congruence. }
  rewrite !rename_ne by assumption.
  repeat match goal with |- rbind ?x _ = rbind (rbind ?x _) _ => destruct x as [?|?]; cbn [rbind]; [|reflexivity] end.
  unfold put_mining. rewrite rename_put by assumption. reflexivity.
Qed.

(** ** The transfer *)
Lemma data_rename L k o t : a_data (acc L k) = DToken t ->
  a_data (acc (rename L k o) k) = DToken (Token (t_mint t) o (t_amount t)).
Proof. intros E. rewrite (rename_at _ _ _ _ E). reflexivity. Qed.

Lemma transfer_full e ms L X s d a n L' X' :
  full_transfer e ms L X s d a n = Ok (L', X') ->
  exists t L2, a_data (acc L s) = DToken t /\ is_writable ms s = true /\ is_writable ms d = true /\
    spl_transfer ms (rename L s a) s d a n = Ok L2 /\ agrees e L X s d a n /\
    settled L X s d n L2 L' /\ allowance_used X s d a n X'.
Proof.
  unfold full_transfer. intros H.
  apply rbind_ok in H as (u1 & E1 & H). apply ensure_ok in E1. apply andb_true_iff in E1 as [W1 W2].
  apply rbind_ok in H as (u2 & E2 & H). apply ensure_ok in E2.
  apply rbind_ok in H as (t & Et & H). apply load_token_ok in Et.
  apply rbind_ok in H as (t' & Et' & H). apply load_token_ok in Et'.
  apply rbind_ok in H as (u3 & E3 & H). apply ensure_ok in E3. apply negb_true_iff, orb_false_iff in E3 as [F1 F2].
  apply rbind_ok in H as (u4 & E4 & H). apply ensure_ok in E4.
  apply rbind_ok in H as (u5 & E5 & H). apply ensure_ok in E5.
  apply rbind_ok in H as (u6 & E6 & H). apply ensure_ok in E6.
  apply rbind_ok in H as (u7 & E7 & H). apply ensure_ok in E7. apply negb_true_iff in E7.
  assert (AG : (x_native (extra_at X s) = true -> s <> d ->
            n <= a_lamports (acc L s) /\ a_lamports (acc L d) + n < 18446744073709551616) -> agrees e L X s d a n).
  { intros Hn. split; try assumption.
    - intros Hd. unfold by_delegate in E6. rewrite bool_decide_eq_true_2 in E6 by assumption. lia.
    - intros Hd. unfold by_delegate in E6. rewrite bool_decide_eq_false_2 in E6 by assumption.
      exists t. split; [assumption|lia].
    - intros [A B]. unfold is_multisig in E7. unfold owner_of, data_of in *. rewrite A, B, Z.eqb_refl in E7. discriminate E7. }
  assert (LS : load_token (a_data (acc (rename L s a) s)) = Ok (Token (t_mint t) a (t_amount t)))
    by (rewrite (data_rename _ _ _ _ Et); reflexivity).
  exists t.
  destruct (Z.eqb_spec s d) as [<-|N].
  - injection H as <- <-. exists (rename L s a).
    split; [assumption|]. split; [assumption|]. split; [assumption|]. split; [|split; [|split]].
    + unfold spl_transfer. rewrite W1, E2. cbn [andb ensure rbind]. rewrite LS. cbn [rbind t_amount t_mint t_owner].
      rewrite E4, !Z.eqb_refl. reflexivity.
    + apply AG. congruence.
    + intros q. unfold wrapped. rewrite Z.eqb_refl, andb_false_r. destruct (Z.eqb_spec q s) as [->|Nq].
      * rewrite (rename_at _ _ _ _ Et). cbn [a_lamports a_owner a_data]. unfold same_holder, data_of. rewrite Et.
        cbn [t_mint t_amount]. rewrite Z.add_0_r. destruct (acc L s) as [l o dd]; cbn in *. subst dd. destruct t; reflexivity.
      * rewrite rename_ne, Z.add_0_r by assumption. destruct (acc L q); reflexivity.
    + intros q. rewrite Z.eqb_refl, andb_false_r. reflexivity.
  - apply rbind_ok in H as (u8 & E8 & H). apply ensure_ok in E8.
    set (L1 := put_data (put_data (rename L s a) s (DToken (Token (t_mint t) a (t_amount t - n)))) d
                 (DToken (Token (t_mint t') (t_owner t') (t_amount t' + n)))).
    exists L1. split; [assumption|]. split; [assumption|]. split; [assumption|].
    assert (SP : spl_transfer ms (rename L s a) s d a n = Ok L1).
    { unfold spl_transfer. rewrite W1, W2, E2. cbn [andb ensure rbind]. rewrite LS.
      rewrite (rename_ne _ _ _ d), Et' by congruence. cbn [load_token rbind t_amount t_mint t_owner].
      rewrite E4, E5, E8, Z.eqb_refl. destruct (Z.eqb_spec s d); [contradiction|]. reflexivity. }
    split; [exact SP|].
    assert (AU : allowance_used X s d a n
              (if by_delegate (extra_at X s) a then <[s := use_allowance (extra_at X s) n]> X else X)).
    { intros q. destruct (Z.eqb_spec s d); [contradiction|]. cbn [negb]. rewrite andb_true_r. unfold by_delegate.
      destruct (bool_decide_reflect (x_delegate (extra_at X s) = Some a)) as [Hd|Hd].
      - unfold extra_at at 1. destruct (Z.eqb_spec q s) as [->|Nq]; cbn [andb].
        + unfold extras in *. rewrite lookup_insert. unfold use_allowance. rewrite Hd.
          destruct (Z.eqb_spec (x_allowance (extra_at X s) - n) 0), (Z.eqb_spec (x_allowance (extra_at X s)) n); try lia; reflexivity.
        + unfold extras in *. rewrite lookup_insert_ne by congruence. reflexivity.
      - rewrite andb_false_r. reflexivity. }
    assert (ST : forall b : bool, x_native (extra_at X s) = b ->
       settled L X s d n L1 (if b then
         put_lamports (put_lamports (put_data (put_data L s (DToken (Token (t_mint t) (t_owner t) (t_amount t - n)))) d
            (DToken (Token (t_mint t') (t_owner t') (t_amount t' + n)))) s (a_lamports (acc L s) - n)) d (a_lamports (acc L d) + n)
         else put_data (put_data L s (DToken (Token (t_mint t) (t_owner t) (t_amount t - n)))) d
            (DToken (Token (t_mint t') (t_owner t') (t_amount t' + n))))).
    { intros b Hb q. unfold wrapped. rewrite Hb. destruct (Z.eqb_spec s d); [contradiction|]. subst L1. cbn [negb andb].
      unfold same_holder, data_of. rewrite Et.
      destruct b; cbn [andb]; rewrite ?acc_lam, ?acc_put.
      - destruct (Z.eqb_spec s q) as [<-|Nq].
        + destruct (Z.eqb_spec d s); [congruence|]. rewrite Z.eqb_refl. rewrite (rename_at _ _ _ _ Et). cbn. f_equal.
        + destruct (Z.eqb_spec q s); [congruence|]. destruct (Z.eqb_spec d q) as [<-|Nd].
          * rewrite Z.eqb_refl. rewrite rename_ne by congruence. reflexivity.
          * destruct (Z.eqb_spec q d); [congruence|]. rewrite rename_ne by congruence. rewrite Z.add_0_r. destruct (acc L q); reflexivity.
      - rewrite Z.add_0_r. destruct (Z.eqb_spec s q) as [<-|Nq].
        + destruct (Z.eqb_spec d s); [congruence|]. rewrite Z.eqb_refl. rewrite (rename_at _ _ _ _ Et). reflexivity.
        + destruct (Z.eqb_spec q s); [congruence|]. destruct (Z.eqb_spec d q) as [<-|Nd].
          * rewrite rename_ne by congruence. reflexivity.
          * rewrite rename_ne by congruence. destruct (acc L q); reflexivity. }
    destruct (x_native (extra_at X s)) eqn:En.
    + apply rbind_ok in H as (u9 & E9 & H). apply ensure_ok in E9.
      apply rbind_ok in H as (u10 & E10 & H). apply ensure_ok in E10. injection H as <- <-.
      split; [apply AG; intros _ _; unfold U64 in E10; lia|]. split; [exact (ST true eq_refl)|exact AU].
    + injection H as <- <-. split; [apply AG; discriminate|]. split; [exact (ST false eq_refl)|exact AU].
Qed.

Lemma transfer_agreed e ms L X s d a n t L2 :
  a_data (acc L s) = DToken t -> spl_transfer ms (rename L s a) s d a n = Ok L2 -> agrees e L X s d a n ->
  exists L' X', full_transfer e ms L X s d a n = Ok (L', X').
Proof.
  intros Et H [F1 F2 D1 D2 Ms Na]. unfold spl_transfer in H.
  apply rbind_ok in H as (u1 & E1 & H). apply ensure_ok in E1.
  apply rbind_ok in H as (u2 & E2 & H). apply ensure_ok in E2.
  apply rbind_ok in H as (t1 & Et1 & H). apply load_token_ok in Et1. rewrite (data_rename _ _ _ _ Et) in Et1. injection Et1 as <-.
  apply rbind_ok in H as (t2 & Et2 & H). apply load_token_ok in Et2.
  cbn [t_amount t_mint t_owner] in H.
  apply rbind_ok in H as (u4 & E4 & H). apply ensure_ok in E4.
  apply rbind_ok in H as (u5 & E5 & H). apply ensure_ok in E5.
  apply rbind_ok in H as (u6 & E6 & H). clear E6.
  unfold full_transfer. rewrite E1, E2. cbn [ensure rbind]. rewrite Et. cbn [load_token rbind].
  assert (Ld : exists t', a_data (acc L d) = DToken t' /\ t_mint t' = t_mint t2 /\ (s <> d -> t' = t2)).
  { destruct (Z.eq_dec d s) as [->|Nd].
    - exists t. rewrite (data_rename _ _ _ _ Et) in Et2. injection Et2 as <-. split; [assumption|]. split; [reflexivity|congruence].
    - exists t2. rewrite rename_ne in Et2 by assumption. auto. }
  destruct Ld as (t' & Et' & Em & Es). rewrite Et'. cbn [load_token rbind]. rewrite F1, F2. cbn [orb negb ensure rbind].
  rewrite E4. cbn [ensure rbind]. rewrite Em, E5. cbn [ensure rbind].
  assert (Ha : (if by_delegate (extra_at X s) a then n <=? x_allowance (extra_at X s) else t_owner t =? a) = true).
  { unfold by_delegate. destruct (bool_decide_reflect (x_delegate (extra_at X s) = Some a)) as [Hd|Hd].
    - specialize (D1 Hd). lia.
    - destruct (D2 Hd) as (t0 & A & B). unfold data_of in A. rewrite Et in A. injection A as <-. lia. }
  rewrite Ha. cbn [ensure rbind].
  assert (Hm : is_multisig e L a = false).
  { unfold is_multisig. apply not_true_iff_false. intros B. apply andb_true_iff in B as [B1 B2].
    apply Ms. unfold owner_of, data_of. apply Z.eqb_eq in B1, B2. split; assumption. }
  rewrite Hm. cbn [negb ensure rbind].
  destruct (Z.eqb_spec s d) as [->|N]; [eauto|]. rewrite (Es N).
  apply rbind_ok in H as (u8 & E8 & H). apply ensure_ok in E8. rewrite E8. cbn [ensure rbind].
  destruct (x_native (extra_at X s)) eqn:En; [|eauto].
  destruct (Na eq_refl N) as [A B].
  replace (n <=? a_lamports (acc L s)) with true by lia. cbn [ensure rbind].
  replace (a_lamports (acc L d) + n <? U64) with true by (unfold U64; lia). cbn [ensure rbind]. eauto.
Qed.

(** ** The parts before the transfer *)
Lemma fill_part_at e ts ms L r x L1 s v a :
  fill_part e ts ms L r x = Ok (L1, s, v, a) ->
  account_at ms 4 s /\ account_at ms 2 v /\ account_at ms 3 a /\
  a_owner (acc L s) = spl_token_id e /\ a_owner (acc L v) = spl_token_id e /\ r <> 0 /\
  exists pool d, a_owner (acc L pool) = program_id e /\ L1 = put_data L pool d.
Proof.
  intros H. unfold fill_part in H. linv. subst.
  repeat match goal with |- _ /\ _ => split end; try reflexivity; try assumption; try lia.
  eexists _, _. split; [|reflexivity]. assumption.
Qed.
Lemma claim_part_at e ts ms L L1 s d a n :
  claim_part e ts ms L = Ok (L1, s, d, a, n) ->
  account_at ms 2 s /\ account_at ms 6 d /\ account_at ms 5 a /\
  a_owner (acc L s) = spl_token_id e /\ a_owner (acc L d) = spl_token_id e /\
  exists mining x, a_owner (acc L mining) = program_id e /\ L1 = put_data L mining x.
Proof.
  intros H. unfold claim_part in H. linv. subst.
  repeat match goal with |- _ /\ _ => split end; try reflexivity; try assumption.
  eexists _, _. split; [|reflexivity]. assumption.
Qed.

Section env.
Context (e : env) (Henv : env_ok e).

Lemma acc_program L k x q : a_owner (acc L k) = program_id e -> a_owner (acc L q) = spl_token_id e ->
  acc (put_data L k x) q = acc L q.
Proof. intros A B. apply acc_put_data_ne. intros ->. destruct (eo_tok _ Henv). congruence. Qed.

Lemma agrees_put L X k x s d a n : a_owner (acc L k) = program_id e ->
  a_owner (acc L s) = spl_token_id e -> a_owner (acc L d) = spl_token_id e ->
  agrees e (put_data L k x) X s d a n <-> agrees e L X s d a n.
Proof.
  intros Hk Hs Hd.
  assert (Ha : owner_of (put_data L k x) a = spl_token_id e /\ data_len (data_of (put_data L k x) a) = 355 <->
               owner_of L a = spl_token_id e /\ data_len (data_of L a) = 355).
  { rewrite owner_put. split; intros [A B]; (split; [exact A|]); unfold data_of in *; rewrite acc_program in *; assumption. }
  split; intros [F1 F2 D1 D2 M N]; split; try assumption; unfold data_of in *;
    rewrite ?acc_program in * by assumption; try assumption; tauto.
Qed.

Lemma settled_put L k x X s d n L2 L' : a_owner (acc L k) = program_id e -> a_owner (acc L s) = spl_token_id e ->
  settled (put_data L k x) X s d n L2 L' -> settled L X s d n L2 L'.
Proof.
  intros Hk Hs H q. rewrite (H q). unfold same_holder, data_of. rewrite acc_program by assumption. reflexivity.
Qed.

Lemma readonly_renamed ms L X s d n L2 L' o :
  readonly_ok ms L L' = true -> is_writable ms s = true -> is_writable ms d = true ->
  settled L X s d n L2 L' -> readonly_ok ms (rename L s o) L2 = true.
Proof.
  unfold readonly_ok. rewrite !forallb_forall. intros H Ws Wd St m Hm. specialize (H m Hm).
  apply orb_true_iff in H as [H|H]; [rewrite H; reflexivity|].
  destruct (is_writable ms (mt_key m)) eqn:W; [reflexivity|]. cbn [orb].
  apply bool_decide_eq_true in H. apply bool_decide_eq_true.
  assert (N1 : mt_key m <> s) by congruence. assert (N2 : mt_key m <> d) by congruence.
  rewrite rename_ne by assumption. rewrite H, (St (mt_key m)). unfold wrapped.
  destruct (Z.eqb_spec (mt_key m) s); [contradiction|]. destruct (Z.eqb_spec (mt_key m) d); [contradiction|].
  destruct (_ && _); rewrite Z.add_0_r; destruct (acc L2 (mt_key m)); reflexivity.
Qed.
Lemma readonly_back ms L X s d n L2 L' o :
  readonly_ok ms (rename L s o) L2 = true -> is_writable ms s = true -> is_writable ms d = true ->
  settled L X s d n L2 L' -> readonly_ok ms L L' = true.
Proof.
  unfold readonly_ok. rewrite !forallb_forall. intros H Ws Wd St m Hm. specialize (H m Hm).
  apply orb_true_iff in H as [H|H]; [rewrite H; reflexivity|].
  destruct (is_writable ms (mt_key m)) eqn:W; [reflexivity|]. cbn [orb].
  apply bool_decide_eq_true in H. apply bool_decide_eq_true.
  assert (N1 : mt_key m <> s) by congruence. assert (N2 : mt_key m <> d) by congruence.
  rewrite rename_ne in H by assumption. rewrite H, (St (mt_key m)). unfold wrapped.
  destruct (Z.eqb_spec (mt_key m) s); [contradiction|]. destruct (Z.eqb_spec (mt_key m) d); [contradiction|].
  destruct (_ && _); rewrite Z.add_0_r; destruct (acc L2 (mt_key m)); reflexivity.
Qed.

Lemma moves_fun ms i s d a s' d' a' : moves_at ms i s d a -> moves_at ms i s' d' a' -> s = s' /\ d = d' /\ a = a'.
Proof.
  intros (x & y & z & T & A & B & C) (x' & y' & z' & T' & A' & B' & C'). rewrite T in T'. injection T' as <- <- <-.
  unfold account_at in *. split; [congruence|]. split; congruence.
Qed.

(** ** One call *)
Theorem simulated native ts ms i L X L' X' r s d a :
  full_exec e native ts ms i L X = Ok (L', X', r) -> moves_at ms i s d a -> 0 < moved i r ->
  (i = Claim -> s = d -> exists t, data_of L s = DToken t /\ t_owner t = a) ->
  exists L1 L2, in_name_of e L s a L1 /\ exec e ts ms i L1 = Ok (L2, r) /\
    agrees e L X s d a (moved i r) /\ settled L X s d (moved i r) L2 L' /\ allowance_used X s d a (moved i r) X'.
Proof.
  intros H Hm Hp Hself. unfold full_exec in H.
  apply rbind_ok in H as ([[L'0 X'0] r0] & Hf & H). apply rbind_ok in H as (u & Ro & H). apply ensure_ok in Ro.
  injection H as -> -> ->. pose proof (eo_tok _ Henv) as Hne.
  destruct i; try (destruct Hm as (? & ? & ? & T & _); discriminate T).
  - (* fill *)
    cbn [full_process moved] in *. apply rbind_ok in Hf as ([[[L1 s0] v0] a0] & Hf & H).
    apply rbind_ok in H as ([L2 X2] & Ht & H). injection H as -> -> <-.
    destruct (fill_part_at _ _ _ _ _ _ _ _ _ _ Hf) as (As & Ad & Aa & Os & Od & Nr & pool & x & Op & EL1).
    assert (Hm0 : moves_at ms (FillVault rewards ends_at) s0 v0 a0) by (exists 4%nat, 2%nat, 3%nat; auto).
    destruct (moves_fun _ _ _ _ _ _ _ _ Hm Hm0) as (<- & <- & <-).
    destruct (transfer_full _ _ _ _ _ _ _ _ _ _ Ht) as (t & L2 & Et & W1 & W2 & Sp & Ag & St & Al).
    subst L1. rewrite acc_program in Et by assumption. apply settled_put in St; [|assumption..].
    exists (rename L s a), L2. split; [eapply rename_token; split; [exact Os|exact Et]|]. split; [|split; [|split]].
    + unfold exec. cbn [process]. rewrite fill_split, fill_rename by assumption. rewrite Hf. cbn [rbind]. rewrite Sp. cbn [no_ret rbind].
      rewrite (readonly_renamed ms L X s d rewards L2 L' a Ro W1 W2 St). reflexivity.
    + eapply agrees_put; eassumption.
    + exact St.
    + exact Al.
  - (* claim *)
    cbn [full_process] in *. apply rbind_ok in Hf as ([[[[L1 s0] v0] a0] n] & Hf & H).
    destruct (claim_part_at _ _ _ _ _ _ _ _ _ Hf) as (As & Ad & Aa & Os & Od & mining & x & Op & EL1).
    assert (Hm0 : moves_at ms Claim s0 v0 a0) by (exists 2%nat, 6%nat, 5%nat; auto).
    destruct (moves_fun _ _ _ _ _ _ _ _ Hm Hm0) as (<- & <- & <-).
    destruct (0 <? n) eqn:En.
    2:{ injection H as _ _ <-. cbn [moved] in Hp. lia. }
    apply rbind_ok in H as ([L2 X2] & Ht & H). injection H as -> -> <-. cbn [moved] in *.
    destruct (transfer_full _ _ _ _ _ _ _ _ _ _ Ht) as (t & L2 & Et & W1 & W2 & Sp & Ag & St & Al).
    subst L1. rewrite acc_program in Et by assumption. apply settled_put in St; [|assumption..].
    exists (rename L s a), L2. split; [eapply rename_token; split; [exact Os|exact Et]|]. split; [|split; [|split]].
    + assert (Hc : claim_part e ts ms (rename L s a) = Ok (rename (put_data L mining x) s a, s, d, a, n)).
      { destruct (Z.eq_dec s d) as [<-|N].
        - destruct (Hself eq_refl eq_refl) as (t0 & E0 & Ow). unfold data_of in E0. subst a.
          rewrite (rename_same L s t0 E0). rewrite (rename_same _ s t0); [exact Hf|]. rewrite acc_program by assumption. exact E0.
        - rewrite claim_rename; [rewrite Hf; reflexivity|assumption..|].
          unfold account_at in *. congruence. }
      unfold exec. cbn [process]. rewrite claim_split, Hc. cbn [rbind]. rewrite En, Sp. cbn [rbind].
      rewrite (readonly_renamed ms L X s d n L2 L' a Ro W1 W2 St). reflexivity.
    + eapply agrees_put; eassumption.
    + exact St.
    + exact Al.
Qed.

(** the same the other way round *)
Theorem agreed native ts ms i L X L1 L2 r s d a :
  moves_at ms i s d a -> 0 < moved i r -> in_name_of e L s a L1 -> exec e ts ms i L1 = Ok (L2, r) ->
  agrees e L X s d a (moved i r) ->
  (i = Claim -> s = d -> exists t, data_of L s = DToken t /\ t_owner t = a) ->
  exists L' X', full_exec e native ts ms i L X = Ok (L', X', r).
Proof.
  intros Hm Hp (t & [Os Et] & Hat & Hne) H Hag Hself. unfold owner_of, data_of in Os, Et.
  assert (H' : exists M2, exec e ts ms i (rename L s a) = Ok (M2, r)).
  { assert (Hacc : forall k, In k (keys ms) -> acc L1 k = acc (rename L s a) k).
    { intros k _. destruct (Z.eq_dec k s) as [->|N]; [rewrite Hat, (rename_at _ _ _ _ Et); reflexivity|].
      rewrite Hne, rename_ne by assumption. reflexivity. }
    pose proof (exec_local e ts ms i L1 (rename L s a) Hacc) as Q. rewrite H in Q.
    destruct (exec e ts ms i (rename L s a)) as [[M2 r2]|]; [|contradiction]. destruct Q as [-> _]. eauto. }
  clear L1 L2 Hat Hne H. destruct H' as [M2 H]. pose proof (eo_tok _ Henv) as Htok.
  unfold exec in H. apply rbind_ok in H as ([M r0] & H & Hro). apply rbind_ok in Hro as (u & Ro & Hro).
  apply ensure_ok in Ro. injection Hro as -> ->.
  destruct i; try (destruct Hm as (? & ? & ? & T & _); discriminate T).
  - cbn [process moved] in *. rewrite fill_split, fill_rename in H by assumption.
    destruct (fill_part e ts ms L rewards ends_at) as [[[[L1 s0] v0] a0]|] eqn:Hf; [|discriminate]. cbn [rbind] in H.
    destruct (fill_part_at _ _ _ _ _ _ _ _ _ _ Hf) as (As & Ad & Aa & Os' & Od & Nr & pool & x & Op & EL1).
    assert (Hm0 : moves_at ms (FillVault rewards ends_at) s0 v0 a0) by (exists 4%nat, 2%nat, 3%nat; auto).
    destruct (moves_fun _ _ _ _ _ _ _ _ Hm Hm0) as (<- & <- & <-). subst L1.
    destruct (spl_transfer ms (rename (put_data L pool x) s a) s d a rewards) as [M'|] eqn:Sp; [|discriminate].
    cbn in H. injection H as -> <-.
    assert (Et' : a_data (acc (put_data L pool x) s) = DToken t) by (rewrite acc_program by assumption; exact Et).
    destruct (transfer_agreed e ms _ X s d a rewards t M2 Et' Sp) as (L' & X' & Ft); [apply agrees_put; assumption|].
    destruct (transfer_full _ _ _ _ _ _ _ _ _ _ Ft) as (t' & L3 & _ & W1 & W2 & Sp' & _ & St & _).
    assert (L3 = M2) by congruence. subst L3. apply settled_put in St; [|assumption..].
    exists L', X'. unfold full_exec. cbn [full_process]. rewrite Hf. cbn [rbind]. rewrite Ft. cbn [rbind].
    rewrite (readonly_back ms L X s d rewards M2 L' a Ro W1 W2 St). reflexivity.
  - cbn [process] in *. rewrite claim_split in H.
    assert (Hc : claim_part e ts ms (rename L s a) = let? (L1, s, d, x, n) := claim_part e ts ms L in Ok (rename L1 s a, s, d, x, n)).
    { destruct (Z.eq_dec s d) as [<-|N].
      - destruct (Hself eq_refl eq_refl) as (t0 & E0 & Ow). unfold data_of in E0. subst a.
        rewrite (rename_same L s t0 E0). destruct (claim_part e ts ms L) as [[[[[L1 s0] v0] a0] n]|] eqn:Hf; [|reflexivity]. cbn [rbind].
        destruct (claim_part_at _ _ _ _ _ _ _ _ _ Hf) as (As & Ad & Aa & Os' & Od & mining & x & Op & EL1).
        assert (Hm0 : moves_at ms Claim s0 v0 a0) by (exists 2%nat, 6%nat, 5%nat; auto).
        destruct (moves_fun _ _ _ _ _ _ _ _ Hm Hm0) as (<- & <- & <-). subst L1.
        rewrite (rename_same _ s t0); [reflexivity|]. rewrite acc_program by assumption. exact E0.
      - rewrite claim_rename; [|assumption|assumption|].
        + destruct (claim_part e ts ms L) as [[[[[L1 s0] v0] a0] n]|] eqn:Hf; [|reflexivity]. cbn [rbind].
          destruct (claim_part_at _ _ _ _ _ _ _ _ _ Hf) as (As & Ad & Aa & _).
          assert (Hm0 : moves_at ms Claim s0 v0 a0) by (exists 2%nat, 6%nat, 5%nat; auto).
          destruct (moves_fun _ _ _ _ _ _ _ _ Hm Hm0) as (<- & <- & <-). reflexivity.
        + destruct Hm as (? & ? & ? & T & _ & B & _). cbn in T. injection T as <- <- <-. unfold account_at in *. congruence. }
    rewrite Hc in H. clear Hc.
    destruct (claim_part e ts ms L) as [[[[[L1 s0] v0] a0] n]|] eqn:Hf; [|discriminate]. cbn [rbind] in H.
    destruct (claim_part_at _ _ _ _ _ _ _ _ _ Hf) as (As & Ad & Aa & Os' & Od & mining & x & Op & EL1).
    assert (Hm0 : moves_at ms Claim s0 v0 a0) by (exists 2%nat, 6%nat, 5%nat; auto).
    destruct (moves_fun _ _ _ _ _ _ _ _ Hm Hm0) as (<- & <- & <-). subst L1.
    assert (r = Some n).
    { destruct (if 0 <? n then spl_transfer ms (rename (put_data L mining x) s a) s d a n else Ok (rename (put_data L mining x) s a)); [|discriminate]. cbn in H. congruence. }
    subst r. cbn [moved] in *. replace (0 <? n) with true in H by lia.
    destruct (spl_transfer ms (rename (put_data L mining x) s a) s d a n) as [M'|] eqn:Sp; [|discriminate].
    cbn in H. injection H as ->.
    assert (Et' : a_data (acc (put_data L mining x) s) = DToken t) by (rewrite acc_program by assumption; exact Et).
    destruct (transfer_agreed e ms _ X s d a n t M2 Et' Sp) as (L' & X' & Ft); [apply agrees_put; assumption|].
    destruct (transfer_full _ _ _ _ _ _ _ _ _ _ Ft) as (t' & L3 & _ & W1 & W2 & Sp' & _ & St & _).
    assert (L3 = M2) by congruence. subst L3. apply settled_put in St; [|assumption..].
    exists L', X'. unfold full_exec. cbn [full_process]. rewrite Hf. cbn [rbind]. replace (0 <? n) with true by lia.
    rewrite Ft. cbn [rbind]. rewrite (readonly_back ms L X s d n M2 L' a Ro W1 W2 St). reflexivity.
Qed.

(** calls that move no tokens *)
Theorem unmoved native ts ms i L X L' X' r :
  ix_in_range i -> moved i r <= 0 ->
  full_exec e native ts ms i L X = Ok (L', X', r) <->
  exec e ts ms i L = Ok (L', r) /\ X' = match i with InitializePool _ _ => opened native ms X | _ => X end.
Proof.
  intros Hi Hm. unfold full_exec, exec.
  assert (K : forall Y, (let? (L1, X1, r1) := (let? (L1, r1) := process e ts ms i L in Ok (L1, Y, r1)) in
              check? readonly_ok ms L L1 else EReadonly in Ok (L1, X1, r1)) = Ok (L', X', r) <->
            (let? (L1, r1) := process e ts ms i L in check? readonly_ok ms L L1 else EReadonly in Ok (L1, r1)) = Ok (L', r) /\ X' = Y).
  { intros Y. destruct (process e ts ms i L) as [[L1 r1]|]; cbn [rbind]; [|split; [discriminate|intros [? _]; discriminate]].
    destruct (readonly_ok ms L L1); cbn [ensure rbind]; split; try discriminate; try (intros [? _]; discriminate).
    - intros [= -> -> ->]. auto.
    - intros [[= -> ->] ->]. reflexivity. }
  destruct i; cbn [full_process]; try apply K; clear K.
  - cbn [moved process] in *. rewrite fill_split.
    destruct (fill_part e ts ms L rewards ends_at) as [[[[L1 s0] v0] a0]|] eqn:Hf; cbn [rbind no_ret]; [|split; [discriminate|intros [? _]; discriminate]].
    destruct (fill_part_at _ _ _ _ _ _ _ _ _ _ Hf) as (_ & _ & _ & _ & _ & Nr & _).
    destruct Hi as [[Hi _] _]. lia.
  - cbn [process]. rewrite claim_split.
    destruct (claim_part e ts ms L) as [[[[[L1 s0] v0] a0] n]|] eqn:Hf; cbn [rbind]; [|split; [discriminate|intros [? _]; discriminate]].
    destruct (0 <? n) eqn:En; cbn [rbind].
    + split.
      * intros H. destruct (full_transfer e ms L1 X s0 v0 a0 n) as [[L2 X2]|]; [|discriminate]. cbn [rbind] in H.
        destruct (readonly_ok ms L L2); [|discriminate]. cbn in H. injection H as _ _ <-. cbn [moved] in Hm. lia.
      * intros [H _]. destruct (spl_transfer ms L1 s0 v0 a0 n) as [L2|]; [|discriminate]. cbn [rbind] in H.
        destruct (readonly_ok ms L L2); [|discriminate]. cbn in H. injection H as _ <-. cbn [moved] in Hm. lia.
    + destruct (readonly_ok ms L L1); cbn [ensure rbind]; split; try discriminate; try (intros [? _]; discriminate).
      * intros [= -> -> ->]. auto.
      * intros [[= -> ->] ->]. reflexivity.
Qed.

(** ordinary token accounts: the same as Program.v, errors included *)
Lemma transfer_plain ms L X s d a n :
  plain_token X s a -> x_frozen (extra_at X d) = false -> is_multisig e L a = false ->
  full_transfer e ms L X s d a n = let? L' := spl_transfer ms L s d a n in Ok (L', X).
Proof.
  intros (F1 & D1 & N1) F2 M. unfold full_transfer, spl_transfer. rewrite F1, F2, M, N1.
  unfold by_delegate. rewrite bool_decide_eq_false_2 by assumption. cbn [orb negb].
  repeat match goal with
  | |- rbind ?x _ = rbind (rbind ?x _) _ => destruct x as [?|?]; cbn [rbind]; [|reflexivity]
  | |- rbind (ensure true _) _ = _ => cbn [ensure rbind]
  | |- (if ?b then _ else _) = rbind (if ?b then _ else _) _ => destruct b; cbn [rbind]
  end; reflexivity.
Qed.
Lemma multisig_put L k x a : a_owner (acc L k) = program_id e -> is_multisig e (put_data L k x) a = is_multisig e L a.
Proof.
  intros Hk. unfold is_multisig. pose proof (owner_put L k x a) as Ho. unfold owner_of in Ho. rewrite Ho.
  destruct (Z.eqb_spec (a_owner (acc L a)) (spl_token_id e)) as [E|E]; [|reflexivity].
  rewrite acc_program by assumption. reflexivity.
Qed.
Theorem ordinary_tokens native ts ms i L X s d a :
  moves_at ms i s d a -> plain_token X s a -> x_frozen (extra_at X d) = false ->
  ~ (owner_of L a = spl_token_id e /\ data_len (data_of L a) = 355) ->
  full_exec e native ts ms i L X = let? (L', r) := exec e ts ms i L in Ok (L', X, r).
Proof.
  intros Hm Hp Hd Hs. assert (M : is_multisig e L a = false).
  { unfold is_multisig. apply not_true_iff_false. intros B. apply andb_true_iff in B as [B1 B2].
    apply Hs. unfold owner_of, data_of. apply Z.eqb_eq in B1, B2. split; assumption. }
  unfold full_exec, exec. destruct i; try (destruct Hm as (? & ? & ? & T & _); discriminate T); cbn [full_process process].
  - rewrite fill_split.
    destruct (fill_part e ts ms L rewards ends_at) as [[[[L1 s0] v0] a0]|] eqn:Hf; cbn [rbind no_ret]; [|reflexivity].
    destruct (fill_part_at _ _ _ _ _ _ _ _ _ _ Hf) as (As & Ad & Aa & Os' & Od & Nr & pool & x & Op & EL1).
    assert (Hm0 : moves_at ms (FillVault rewards ends_at) s0 v0 a0) by (exists 4%nat, 2%nat, 3%nat; auto).
    destruct (moves_fun _ _ _ _ _ _ _ _ Hm Hm0) as (<- & <- & <-). subst L1.
    rewrite transfer_plain; [|assumption|assumption|rewrite multisig_put; assumption].
    destruct (spl_transfer ms (put_data L pool x) s d a rewards) as [L2|]; cbn [rbind no_ret]; [|reflexivity].
    destruct (readonly_ok ms L L2); reflexivity.
  - rewrite claim_split.
    destruct (claim_part e ts ms L) as [[[[[L1 s0] v0] a0] n]|] eqn:Hf; cbn [rbind]; [|reflexivity].
    destruct (claim_part_at _ _ _ _ _ _ _ _ _ Hf) as (As & Ad & Aa & Os' & Od & mining & x & Op & EL1).
    assert (Hm0 : moves_at ms Claim s0 v0 a0) by (exists 2%nat, 6%nat, 5%nat; auto).
    destruct (moves_fun _ _ _ _ _ _ _ _ Hm Hm0) as (<- & <- & <-). subst L1.
    rewrite transfer_plain; [|assumption|assumption|rewrite multisig_put; assumption].
    destruct (0 <? n).
    + destruct (spl_transfer ms (put_data L mining x) s d a n) as [L2|]; cbn [rbind]; [|reflexivity].
      destruct (readonly_ok ms L L2); reflexivity.
    + cbn [rbind]. destruct (readonly_ok ms L (put_data L mining x)); reflexivity.
Qed.

(** what the token program asks for *)
Lemma full_tokens ms L X s d a n L' X' : full_transfer e ms L X s d a n = Ok (L', X') ->
  exists t u, data_of L s = DToken t /\ data_of L d = DToken u /\ t_mint t = t_mint u /\ n <= t_amount t.
Proof.
  unfold full_transfer. intros H.
  apply rbind_ok in H as (u1 & E1 & H).
  apply rbind_ok in H as (u2 & E2 & H).
  apply rbind_ok in H as (t & Et & H). apply load_token_ok in Et.
  apply rbind_ok in H as (t' & Et' & H). apply load_token_ok in Et'.
  apply rbind_ok in H as (u3 & E3 & H).
  apply rbind_ok in H as (u4 & E4 & H). apply ensure_ok in E4.
  apply rbind_ok in H as (u5 & E5 & H). apply ensure_ok in E5.
  exists t, t'. unfold data_of. split; [assumption|]. split; [assumption|]. split; lia.
Qed.
Theorem consent native ts ms i L X L' X' r s d a :
  full_exec e native ts ms i L X = Ok (L', X', r) -> moves_at ms i s d a -> 0 < moved i r ->
  agrees e L X s d a (moved i r) /\ signed ms a /\ writable ms s /\ writable ms d /\
  exists t u, is_token e L s t /\ is_token e L d u /\ t_mint t = t_mint u /\ moved i r <= t_amount t.
Proof.
  intros H Hm Hp. unfold full_exec in H.
  apply rbind_ok in H as ([[L'0 X'0] r0] & Hf & H). apply rbind_ok in H as (u & Ro & H). apply ensure_ok in Ro.
  injection H as -> -> ->.
  destruct i; try (destruct Hm as (? & ? & ? & T & _); discriminate T).
  - cbn [full_process moved] in *. apply rbind_ok in Hf as ([[[L1 s0] v0] a0] & Hf & H).
    apply rbind_ok in H as ([L2 X2] & Ht & H). injection H as -> -> <-.
    destruct (fill_part_at _ _ _ _ _ _ _ _ _ _ Hf) as (As & Ad & Aa & Os & Od & Nr & pool & x & Op & EL1).
    assert (Hm0 : moves_at ms (FillVault rewards ends_at) s0 v0 a0) by (exists 4%nat, 2%nat, 3%nat; auto).
    destruct (moves_fun _ _ _ _ _ _ _ _ Hm Hm0) as (<- & <- & <-).
    destruct (transfer_full _ _ _ _ _ _ _ _ _ _ Ht) as (t & L2 & Et & W1 & W2 & Sp & Ag & St & Al).
    subst L1. apply full_tokens in Ht as (t1 & u1 & T1 & T2 & Mt & Am). unfold data_of in T1, T2. rewrite acc_program in T1, T2 by assumption.
    apply spl_transfer_inv in Sp as (? & ? & _ & _ & Ws & Wd & Sg & _).
    split; [eapply agrees_put; eassumption|]. split; [exact Sg|]. split; [assumption|]. split; [assumption|].
    exists t1, u1. split; [split; assumption|]. split; [split; assumption|]. split; assumption.
  - cbn [full_process] in *. apply rbind_ok in Hf as ([[[[L1 s0] v0] a0] n] & Hf & H).
    destruct (claim_part_at _ _ _ _ _ _ _ _ _ Hf) as (As & Ad & Aa & Os & Od & mining & x & Op & EL1).
    assert (Hm0 : moves_at ms Claim s0 v0 a0) by (exists 2%nat, 6%nat, 5%nat; auto).
    destruct (moves_fun _ _ _ _ _ _ _ _ Hm Hm0) as (<- & <- & <-).
    destruct (0 <? n) eqn:En.
    2:{ injection H as _ _ <-. cbn [moved] in Hp. lia. }
    apply rbind_ok in H as ([L2 X2] & Ht & H). injection H as -> -> <-. cbn [moved] in *.
    destruct (transfer_full _ _ _ _ _ _ _ _ _ _ Ht) as (t & L2 & Et & W1 & W2 & Sp & Ag & St & Al).
    subst L1. apply full_tokens in Ht as (t1 & u1 & T1 & T2 & Mt & Am). unfold data_of in T1, T2. rewrite acc_program in T1, T2 by assumption.
    apply spl_transfer_inv in Sp as (? & ? & _ & _ & Ws & Wd & Sg & _).
    split; [eapply agrees_put; eassumption|]. split; [exact Sg|]. split; [assumption|]. split; [assumption|].
    exists t1, u1. split; [split; assumption|]. split; [split; assumption|]. split; assumption.
Qed.

(** positions exist *)
Lemma moves_exist native ts ms i L X L' X' r :
  full_exec e native ts ms i L X = Ok (L', X', r) -> 0 < moved i r ->
  exists s d a, moves_at ms i s d a /\ a_owner (acc L s) = spl_token_id e /\ a_owner (acc L d) = spl_token_id e.
Proof.
  intros H Hp. unfold full_exec in H.
  apply rbind_ok in H as ([[L'0 X'0] r0] & Hf & H). apply rbind_ok in H as (u & Ro & H). injection H as -> -> ->.
  destruct i; cbn [moved] in Hp; try lia; cbn [full_process] in Hf.
  - apply rbind_ok in Hf as ([[[L1 s0] v0] a0] & Hf & _).
    destruct (fill_part_at _ _ _ _ _ _ _ _ _ _ Hf) as (As & Ad & Aa & Os & Od & _).
    exists s0, v0, a0. split; [exists 4%nat, 2%nat, 3%nat; auto|auto].
  - apply rbind_ok in Hf as ([[[[L1 s0] v0] a0] n] & Hf & _).
    destruct (claim_part_at _ _ _ _ _ _ _ _ _ Hf) as (As & Ad & Aa & Os & Od & _).
    exists s0, v0, a0. split; [exists 2%nat, 6%nat, 5%nat; auto|auto].
Qed.

(** a transfer changes neither lamports nor owners *)
Lemma same_lam_owner_put L k x q : a_lamports (acc (put_data L k x) q) = a_lamports (acc L q) /\ a_owner (acc (put_data L k x) q) = a_owner (acc L q).
Proof. rewrite acc_put. destruct (Z.eqb_spec k q) as [->|]; split; reflexivity. Qed.
Lemma transfer_keeps ms L s d a n L' q : spl_transfer ms L s d a n = Ok L' ->
  a_lamports (acc L' q) = a_lamports (acc L q) /\ a_owner (acc L' q) = a_owner (acc L q).
Proof.
  intros H. apply spl_transfer_inv in H as (t & u & _ & _ & _ & _ & _ & _ & _ & _ & [[_ ->]|(_ & _ & ->)]); [split; reflexivity|].
  destruct (same_lam_owner_put (put_data L s (DToken (Token (t_mint t) (t_owner t) (t_amount t - n)))) d (DToken (Token (t_mint u) (t_owner u) (t_amount u + n))) q) as [-> ->].
  apply same_lam_owner_put.
Qed.
Lemma moving_keeps ts ms i L L' r q : exec e ts ms i L = Ok (L', r) -> 0 < moved i r ->
  a_lamports (acc L' q) = a_lamports (acc L q) /\ a_owner (acc L' q) = a_owner (acc L q).
Proof.
  intros H Hp. apply exec_inv in H as [H _]. destruct i; cbn [moved] in Hp; try lia; cbn [process] in H.
  - apply no_ret_ok in H as [H _]. rewrite fill_split in H. apply rbind_ok in H as ([[[L1 s0] v0] a0] & Hf & H).
    destruct (fill_part_at _ _ _ _ _ _ _ _ _ _ Hf) as (_ & _ & _ & _ & _ & _ & pool & x & _ & ->).
    destruct (transfer_keeps _ _ _ _ _ _ _ q H) as [-> ->]. apply same_lam_owner_put.
  - rewrite claim_split in H. apply rbind_ok in H as ([L3 n3] & H & E3). injection E3 as <- <-.
    apply rbind_ok in H as ([[[[L1 s0] v0] a0] n] & Hf & H).
    destruct (claim_part_at _ _ _ _ _ _ _ _ _ Hf) as (_ & _ & _ & _ & _ & mining & x & _ & ->).
    destruct (0 <? n).
    + apply rbind_ok in H as (L4 & Ht & H). injection H as <- <-.
      destruct (transfer_keeps _ _ _ _ _ _ _ q Ht) as [-> ->]. apply same_lam_owner_put.
    + injection H as <- <-. apply same_lam_owner_put.
Qed.

(** ** Histories *)
Lemma in_name_external L k o L1 : Contain.bytes L -> in_name_of e L k o L1 -> external e L L1 /\ Contain.bytes L1.
Proof.
  intros HB (t & [Ho Hd] & Hat & Hne). unfold owner_of, data_of in *. pose proof (eo_tok _ Henv).
  assert (B1 : Contain.bytes L1).
  { intros q. destruct (Z.eq_dec q k) as [->|N]; [|rewrite Hne by assumption; apply HB].
    rewrite Hat. destruct (HB k) as [A B]. rewrite Hd in B. split; assumption. }
  split; [|exact B1].
  intros q. destruct (Z.eq_dec q k) as [->|N]; [|rewrite Hne by assumption; apply Contain.external_refl, HB].
  apply external_other; [apply B1|congruence|rewrite Hat; cbn; congruence].
Qed.
Lemma settled_external L X s d a n L1 L2 L' :
  Contain.bytes L2 -> 0 < n -> agrees e L X s d a n ->
  a_owner (acc L s) = spl_token_id e -> a_owner (acc L d) = spl_token_id e ->
  (forall q, a_lamports (acc L2 q) = a_lamports (acc L1 q) /\ a_owner (acc L2 q) = a_owner (acc L1 q)) ->
  in_name_of e L s a L1 ->
  settled L X s d n L2 L' -> external e L2 L' /\ Contain.bytes L'.
Proof.
  intros HB Hn Ag Os Od Hk (t & _ & Hat & Hne) St. pose proof (eo_tok _ Henv).
  assert (K : forall q, a_lamports (acc L2 q) = a_lamports (acc L q) /\ a_owner (acc L2 q) = a_owner (acc L q)).
  { intros q. destruct (Hk q) as [-> ->]. destruct (Z.eq_dec q s) as [->|N]; [rewrite Hat; split; reflexivity|].
    rewrite Hne by assumption. split; reflexivity. }
  assert (B' : Contain.bytes L').
  { intros q. rewrite (St q). destruct (HB q) as [A B]. destruct (HB s) as [A0 _]. destruct (HB d) as [A1 _]. split; cbn [a_lamports a_data].
    - unfold wrapped. destruct (x_native (extra_at X s)) eqn:En; cbn [andb]; [|rewrite Z.add_0_r; exact A].
      destruct (Z.eqb_spec s d) as [->|Nsd]; cbn [negb]; [rewrite Z.add_0_r; exact A|].
      destruct (ag_native _ _ _ _ _ _ _ Ag En Nsd) as [Q1 Q2].
      destruct (Z.eqb_spec q s) as [->|Ns]; [rewrite (proj1 (K s)) in *; unfold is_u64 in *; lia|].
      destruct (Z.eqb_spec q d) as [->|Nd]; [rewrite (proj1 (K d)) in *; unfold is_u64, U64 in *; lia|].
      rewrite Z.add_0_r. exact A.
    - destruct (q =? s); [|exact B]. unfold same_holder. destruct (a_data (acc L2 q)); try exact B. destruct (data_of L s); exact B. }
  split; [|exact B'].
  intros q. destruct (Z.eq_dec q s) as [->|Ns].
  { apply external_other; [apply B'|rewrite (proj2 (K s)); congruence|rewrite (St s); cbn [a_owner]; rewrite (proj2 (K s)); congruence]. }
  destruct (Z.eq_dec q d) as [->|Nd].
  { apply external_other; [apply B'|rewrite (proj2 (K d)); congruence|rewrite (St d); cbn [a_owner]; rewrite (proj2 (K d)); congruence]. }
  replace (acc L' q) with (acc L2 q); [apply Contain.external_refl, HB|]. rewrite (St q). unfold wrapped.
  rewrite (proj2 (Z.eqb_neq _ _) Ns), (proj2 (Z.eqb_neq _ _) Nd). destruct (_ && _); rewrite Z.add_0_r; destruct (acc L2 q); reflexivity.
Qed.

(** a call with the full token program is a call, with changes from outside before and after *)
Lemma bridge native ts ms i L X L' X' r :
  Contain.bytes L -> ix_in_range i -> full_exec e native ts ms i L X = Ok (L', X', r) ->
  (forall s a t, i = Claim -> moves_at ms i s s a -> data_of L s = DToken t -> t_owner t = a) ->
  exists L1 L2, exec e ts ms i L1 = Ok (L2, r) /\ external e L L1 /\ external e L2 L' /\ Contain.bytes L' /\
   ((L1 = L /\ L2 = L') \/
    exists s d a, moves_at ms i s d a /\ 0 < moved i r /\ a_owner (acc L s) = spl_token_id e /\ in_name_of e L s a L1 /\
      agrees e L X s d a (moved i r) /\ settled L X s d (moved i r) L2 L').
Proof.
  intros HB Hi H Hself. destruct (Z_le_gt_dec (moved i r) 0) as [Hm|Hm].
  - apply unmoved in H as [H _]; [|assumption..]. exists L, L'.
    assert (B' : Contain.bytes L').
    { eapply bytes_wide_exec; [exact Henv|exact Hi|apply (exec_wide (Junk (fun _ => Err EPanic) (fun w _ => (wp w, [])) (fun _ => zero_wmining))); exact H|exact HB]. }
    split; [exact H|]. split; [intros q; apply Contain.external_refl, HB|].
    split; [intros q; apply Contain.external_refl, B'|]. split; [exact B'|]. left. split; reflexivity.
  - destruct (moves_exist _ _ _ _ _ _ _ _ _ H) as (s & d & a & Ma & Os & Od); [lia|].
    destruct (simulated native ts ms i L X L' X' r s d a H Ma) as (L1 & L2 & In & Ex & Ag & St & Al); [lia| |].
    { intros -> ->. destruct (consent _ _ _ _ _ _ _ _ _ _ _ _ H Ma) as (_ & _ & _ & _ & t & _ & [_ Et] & _); [lia|].
      exists t. split; [exact Et|]. eapply Hself; [reflexivity|exact Ma|exact Et]. }
    destruct (in_name_external _ _ _ _ HB In) as [E1 B1].
    assert (B2 : Contain.bytes L2).
    { eapply bytes_wide_exec; [exact Henv|exact Hi|apply (exec_wide (Junk (fun _ => Err EPanic) (fun w _ => (wp w, [])) (fun _ => zero_wmining))); exact Ex|exact B1]. }
    destruct (settled_external L X s d a (moved i r) L1 L2 L' B2 ltac:(lia) Ag Os Od) as [E2 B']; [|assumption..|].
    { intros q. eapply moving_keeps; [exact Ex|lia]. }
    exists L1, L2. split; [exact Ex|]. split; [exact E1|]. split; [exact E2|]. split; [exact B'|]. right.
    exists s, d, a. repeat (split; [try assumption; try lia|]); assumption.
Qed.

Theorem full_followed native now L X evs now' L' X' :
  Contain.bytes L -> full_run e native now L X evs now' L' X' ->
  exists evs', calls_in evs' = calls_in evs /\ History.run e now L evs' now' L'.
Proof.
  intros HB R. induction R as [|now L X ts ms i L1 X1 r evs now' L' X' Hts Hu Hi H Hs R IH|now L X ts L1 X1 evs now' L' X' Hts Hu H R IH].
  - exists []. split; [reflexivity|constructor].
  - destruct (bridge _ _ _ _ _ _ _ _ _ HB Hi H Hs) as (M1 & M2 & Ex & E1 & E2 & B' & _).
    destruct (IH B') as (evs' & C & R'). exists (EvExt ts :: EvIx ts ms i :: EvExt ts :: evs').
    split; [unfold calls_in in *; cbn; rewrite C; reflexivity|].
    econstructor; [constructor; eassumption|]. econstructor; [cbn; eapply step_ix; [apply Z.le_refl|eassumption..]|].
    econstructor; [cbn; constructor; [apply Z.le_refl|assumption|exact E2]|exact R'].
  - destruct IH as (evs' & C & R'). { intros k. apply (H k). }
    exists (EvExt ts :: evs'). split; [exact C|]. econstructor; [constructor; eassumption|exact R'].
Qed.

(** ** Orderly histories *)
Context (Hinj : env_inj e) (Hrent : 0 < rent_min e MINING_LEN) (P : pubkey) (HP : P <> 0) (D : Z -> op -> core -> Prop)
        (HDonate : forall ts n c, D ts (ODonate n) c) (HDinit : forall ts k p o b c, D ts (OInit k p o b) c).

Lemma run_snoc now L now1 L1 now' L' :
  orderly_run e P D now L now1 L1 -> orderly_run e P D now1 L1 now' L' -> orderly_run e P D now L now' L'.
Proof.
  induction 1 as [|now L ts ms i L1 r now1 L2 Hts Hu Hr X O R IH|now L ts L1 now1 L2 Hts Hu X O R IH]; intros R'; [exact R'| |].
  - eapply or_ix; [eassumption..|]. apply IH. exact R'.
  - eapply or_ext; [eassumption..|]. apply IH. exact R'.
Qed.
Lemma orderly_more now L now' L' : orderly e P D now L -> orderly_run e P D now L now' L' -> orderly e P D now' L'.
Proof. intros (L0 & G & Hd & R) R'. exists L0. split; [exact G|]. split; [exact Hd|]. eapply run_snoc; eassumption. Qed.

Lemma in_name_owner L k o L1 q : in_name_of e L k o L1 -> owner_of L1 q = owner_of L q.
Proof.
  intros (t & _ & Hat & Hne). unfold owner_of. destruct (Z.eq_dec q k) as [->|N]; [rewrite Hat; reflexivity|]. rewrite Hne by assumption. reflexivity.
Qed.
Lemma in_name_program L k o L1 q : in_name_of e L k o L1 -> owner_of L q = program_id e -> acc L1 q = acc L q.
Proof.
  intros (t & [Ho _] & _ & Hne) H. apply Hne. intros ->. pose proof (eo_tok _ Henv). congruence.
Qed.
Lemma in_name_core L k o L1 V now : in_name_of e L k o L1 -> owner_of L P = program_id e -> core_of e P V now L1 = core_of e P V now L.
Proof.
  intros Hi Hp. pose proof Hi as (t & [Ho Hd] & Hat & Hne). unfold core_of. f_equal.
  - unfold pool_of, data_of. rewrite (in_name_program _ _ _ _ _ Hi Hp). reflexivity.
  - apply map_eq. intros q. rewrite !min_look. destruct (Z.eq_dec q k) as [->|N]; [|rewrite Hne by assumption; reflexivity].
    rewrite Hat. unfold live, data_of in *. rewrite Hd. reflexivity.
  - unfold balance, data_of in *. destruct (Z.eq_dec V k) as [->|N]; [|rewrite Hne by assumption; reflexivity].
    rewrite Hat, Hd. reflexivity.
Qed.
Lemma in_name_orderly L k o L1 now ts ms i : in_name_of e L k o L1 ->
  orderly_ix e P D now ts ms i L -> orderly_ix e P D now ts ms i L1.
Proof.
  intros Hi [O1 O2 O3 O4 O5 O6].
  assert (Hm : forall q m, is_mining e L1 q m <-> is_mining e L q m).
  { intros q m. unfold is_mining. rewrite (in_name_owner _ _ _ _ q Hi). split; intros [A B]; (split; [exact A|]);
      unfold data_of in *; rewrite (in_name_program _ _ _ _ _ Hi A) in *; exact B. }
  assert (Hpl : forall q w, is_pool e L1 q w <-> is_pool e L q w).
  { intros q m. unfold is_pool. rewrite (in_name_owner _ _ _ _ q Hi). split; intros [A B]; (split; [exact A|]);
      unfold data_of in *; rewrite (in_name_program _ _ _ _ _ Hi A) in *; exact B. }
  constructor; try assumption.
  - intros f d Ei Ha. destruct Hi as (t & _ & Hat & Hne). destruct (Z.eq_dec P k) as [E|N]; [rewrite E in *; rewrite Hat; cbn; eauto|rewrite Hne by assumption; eauto].
  - intros a n p q od Ei A B C. destruct (O4 a n p q od Ei A B C) as [->|(x & Hx & Hp)]; [left; reflexivity|].
    right. exists x. split; [apply Hm; exact Hx|exact Hp].
  - intros q m p Ei A B Hx. apply (O5 q m p Ei A B). apply Hm. exact Hx.
  - intros V w o0 (Hw & Hty & Hv) Ho. apply Hpl in Hw. rewrite (in_name_core _ _ _ _ _ _ Hi); [|apply Hw].
    apply (O6 V w o0); [split; [exact Hw|split; assumption]|exact Ho].
Qed.

Lemma in_name_ext L s a L1 : in_name_of e L s a L1 ->
  (forall m b t, cpa_vault e P m b = Some s -> is_token e L s t -> t_owner t = a) -> orderly_ext e P L L1.
Proof.
  intros Hi Hv. constructor.
  - intros k _. left. apply (in_name_owner _ _ _ _ _ Hi).
  - intros m b V t Hc Ht. exists t. split; [|split; [reflexivity|split; [reflexivity|lia]]].
    split; [rewrite (in_name_owner _ _ _ _ _ Hi); apply Ht|]. destruct Hi as (t0 & [_ H0] & Hat & Hne). unfold data_of in *.
    destruct Ht as [Ho Ht]. unfold data_of in Ht.
    destruct (Z.eq_dec V s) as [->|N]; [|rewrite Hne by assumption; exact Ht].
    rewrite Hat. cbn [a_data]. assert (t0 = t) by congruence. subst t0.
    rewrite <- (Hv m b t Hc); [destruct t; reflexivity|split; assumption].
Qed.
Lemma settled_ext L X s d a n L1 L2 L' :
  in_name_of e L s a L1 ->
  (forall m b t, cpa_vault e P m b = Some s -> is_token e L s t -> t_owner t = a) ->
  (forall t, is_token e L2 s t -> t_owner t = a) ->
  settled L X s d n L2 L' -> orderly_ext e P L2 L'.
Proof.
  intros Hi Hv H2 St. constructor.
  - intros k _. left. unfold owner_of. rewrite (St k). reflexivity.
  - intros m b V t Hc [Ho Ht]. exists t. split; [|split; [reflexivity|split; [reflexivity|lia]]].
    unfold is_token, owner_of, data_of in *. rewrite (St V). cbn [a_owner a_data]. split; [exact Ho|].
    destruct (Z.eqb_spec V s) as [->|N]; [|exact Ht].
    rewrite Ht. unfold same_holder. destruct Hi as (t0 & Hs & _). pose proof Hs as [_ Hd]. rewrite Hd.
    rewrite (Hv m b t0 Hc Hs). rewrite <- (H2 t); [destruct t; reflexivity|split; assumption].
Qed.

Lemma full_orderly_runs native now0 L0 X0 now L X : full_orderly_run e native P D now0 L0 X0 now L X ->
  orderly e P D now0 L0 -> is_u64 now0 -> orderly e P D now L.
Proof.
  intros R O0 Hu0. induction R as [|now0 L0 X0 ts ms i L1 X1 r now' L' X' Hts Hu Hi H O Hf Hs R IH|now0 L0 X0 ts L1 X1 now' L' X' Hts Hu H O R IH].
  - exact O0.
  - apply IH; [|exact Hu].
    pose proof (orderly_good e Henv Hinj Hrent P HP D HDonate HDinit _ _ O0) as (Hn & HL & _ & _ & _ & HS).
    assert (HB : Contain.bytes L0) by (intros k; apply HL).
    destruct (bridge _ _ _ _ _ _ _ _ _ HB Hi H Hs) as (M1 & M2 & Ex & E1 & E2 & B' & [[-> ->]|(s & d & a & Ma & Hp & Os & In & Ag & St)]).
    { eapply orderly_more; [exact O0|]. eapply or_ix; [eassumption..|constructor]. }
    assert (Hv : forall m b t, cpa_vault e P m b = Some s -> is_token e L0 s t -> t_owner t = a).
    { intros m b t Hc Ht. destruct i; cbn [moved] in Hp; try lia.
      - destruct (Hf _ _ _ _ _ _ _ eq_refl Ma Hc) as (t1 & E & Ow). destruct Ht as [_ Ht]. congruence.
      - pose proof Ex as Ex'. apply exec_inv in Ex' as [Ex' _]. cbn [process] in Ex'.
        apply rbind_ok in Ex' as ([M3 n3] & Hcl & _).
        apply claim_inv in Hcl as (pool & mint & vault & mining & owner & auth & dest & w & m0 & m1 & t1 & A & Hpo & _ & _ & _ & _ & _ & _ & _ & _ & Hpd & Ha & _ & _ & _ & _ & Hcv & _).
        assert (Hm0 : moves_at ms Claim vault dest auth).
        { exists 2%nat, 6%nat, 5%nat. split; [reflexivity|]. split; [eapply Changes.at_pos; [exact A|reflexivity]|]. split; (eapply Changes.at_pos; [exact A|reflexivity]). }
        destruct (moves_fun _ _ _ _ _ _ _ _ Ma Hm0) as (<- & <- & <-).
        destruct (ei_vault _ Hinj _ _ _ _ _ _ _ Hc Hcv) as (<- & _ & _).
        rewrite (in_name_owner _ _ _ _ _ In) in Hpo. unfold data_of in Hpd. rewrite (in_name_program _ _ _ _ _ In Hpo) in Hpd.
        destruct HS as [Bf|(w1 & V & tv & Af)].
        { destruct (bf_vault _ _ _ Bf _ _ _ Hc). exact Os. }
        destruct Af as [(Hw1 & _) _ Only [_ Tok] _ Own _].
        assert (s = V) by (eapply Only; [exact Hc|exact Os]). subst V.
        destruct Hw1 as [_ Hw1]. unfold data_of in Hw1. rewrite Hpd in Hw1. injection Hw1 as <-.
        destruct Ht as [_ Ht]. rewrite Tok in Ht. injection Ht as <-. congruence. }
    pose proof (in_name_ext _ _ _ _ In Hv) as X1'.
    assert (O1 : orderly e P D now0 M1) by (eapply orderly_more; [exact O0|]; eapply or_ext; [apply Z.le_refl|exact Hu0|exact E1|exact X1'|constructor]).
    assert (O2 : orderly e P D ts M2).
    { eapply orderly_more; [exact O1|]. eapply or_ix; [exact Hts|exact Hu|exact Hi|exact Ex|eapply in_name_orderly; eassumption|constructor]. }
    eapply orderly_more; [exact O2|]. eapply or_ext; [apply Z.le_refl|exact Hu|exact E2| |constructor].
    eapply settled_ext; [exact In|exact Hv| |exact St].
    intros t Ht. pose proof (orderly_good e Henv Hinj Hrent P HP D HDonate HDinit _ _ O1) as (_ & HL1 & _).
    pose proof In as (t0 & [_ Hd0] & Hat & _).
    destruct (exec_token e Henv now0 ts ms i M1 M2 r s (Token (t_mint t0) a (t_amount t0)) Hts HL1 Ex) as (t' & [_ Ht'] & _ & Ow).
    { unfold is_token, owner_of, data_of. rewrite Hat. cbn. split; [exact Os|reflexivity]. }
    destruct Ht as [_ Ht]. cbn in Ow. congruence.
  - apply IH; [|exact Hu]. eapply orderly_more; [exact O0|]. eapply or_ext; [eassumption..|constructor].
Qed.
Theorem full_orderly_followed native now L X : full_orderly e native P D now L X -> orderly e P D now L.
Proof.
  intros (L0 & X0 & G & Hd & R). eapply full_orderly_runs; [exact R| |unfold is_u64, U64; lia].
  exists L0. split; [exact G|]. split; [exact Hd|]. constructor.
Qed.

(** ** Claims *)
Theorem full_claim_pays (HDc : forall ts k c, D ts (OClaim k) c) (HDd : forall ts o c, D ts o c -> disciplined ts o c)
  native now ts L X V w mint k m T :
  full_orderly e native P D now L X -> pool_vault e L P V w -> now <= ts -> is_u64 ts ->
  mint = p_mint (wp w) -> owner_of L mint = spl_token_id e -> p_deposit_auth (wp w) <> system_id ->
  mining_in e L P k m -> m_owner (wm m) <> system_id -> payable e L w V m T ->
  (forall n, 0 < n <= balance L V -> agrees e L X V T (p_deposit_auth (wp w)) n) ->
  exists L' X' L1 n,
    full_exec e native ts (fst (b_claim e P mint V k (m_owner (wm m)) (p_deposit_auth (wp w)) T)) Claim L X = Ok (L', X', Some n) /\
    exec e ts (fst (b_claim e P mint V k (m_owner (wm m)) (p_deposit_auth (wp w)) T)) Claim L = Ok (L1, Some n).
Proof.
  intros FO HV Hts Hu Em Hmint Hauth Hm Ho Hpay Hag.
  pose proof (full_orderly_followed _ _ _ _ FO) as HO.
  destruct (claims_exec e Henv Hinj Hrent P HP D HDonate HDinit HDd HDc [(k, m_owner (wm m), T)] now ts L V w mint HO HV Hts Hu Em Hmint Hauth) as (L1 & xs & Hcl & Hlen & _).
  { intros k0 o0 T0 [[= <- <- <-]|[]]. eauto. }
  cbn [claims] in Hcl. set (ms := fst (b_claim e P mint V k (m_owner (wm m)) (p_deposit_auth (wp w)) T)) in *.
  destruct (exec e ts ms Claim L) as [[L2 r]|] eqn:Ex; [|discriminate Hcl]. cbn [rbind] in Hcl. injection Hcl as <- <-.
  destruct r as [n|]; [|discriminate Hlen].
  destruct (Z_le_gt_dec n 0) as [Hn|Hn].
  - assert (H : full_exec e native ts ms Claim L X = Ok (L2, X, Some n)).
    { apply unmoved; [exact I|exact Hn|]. split; [exact Ex|reflexivity]. }
    exists L2, X, L2, n. split; [exact H|reflexivity].
  - destruct (orderly_core e Henv Hinj Hrent P HP D HDonate HDinit now L w V HO HV) as (tv & Af).
    destruct Af as [_ _ _ Tok _ Own _].
    assert (In : in_name_of e L V (p_deposit_auth (wp w)) L).
    { exists tv. split; [exact Tok|]. split; [|reflexivity]. destruct Tok as [_ Td]. unfold data_of in Td.
      destruct (acc L V) as [l o dd]. cbn in *. subst dd. rewrite <- Own. destruct tv; reflexivity. }
    assert (Ma : moves_at ms Claim V T (p_deposit_auth (wp w))).
    { exists 2%nat, 6%nat, 5%nat. split; [reflexivity|]. split; [reflexivity|]. split; reflexivity. }
    assert (Hb : n <= balance L V).
    { pose proof Ex as Ex'. apply exec_inv in Ex' as [Ex' _]. cbn [process] in Ex'. apply rbind_ok in Ex' as ([M3 n3] & Hc & E3). injection E3 as -> ->.
      apply claim_inv in Hc as (pool & mint' & vault & mining & owner & auth & dest & w' & m0 & m1 & t1 & A & _ & _ & Hvo & Hmo & _ & _ & _ & _ & _ & _ & _ & _ & _ & _ & _ & _ & _ & _ & Hcl).
      cbv zeta in Hcl. destruct Hcl as [[Hle _]|[_ Ht]]; [lia|].
      apply spl_transfer_inv in Ht as (s0 & d0 & Hs0 & _ & _ & _ & _ & Hle & _).
      assert (Hm0 : moves_at ms Claim vault dest auth).
      { exists 2%nat, 6%nat, 5%nat. split; [reflexivity|]. split; [eapply Changes.at_pos; [exact A|reflexivity]|]. split; (eapply Changes.at_pos; [exact A|reflexivity]). }
      destruct (moves_fun _ _ _ _ _ _ _ _ Ma Hm0) as (<- & <- & <-).
      unfold data_of, put_mining in Hs0. rewrite acc_program in Hs0 by assumption. unfold balance, data_of. rewrite Hs0. exact Hle. }
    destruct (agreed native ts ms Claim L X L L2 (Some n) V T (p_deposit_auth (wp w)) Ma) as (L' & X' & H); [cbn; lia|exact In|exact Ex|apply Hag; cbn [moved]; lia| |].
    { intros _ _. exists tv. split; [apply Tok|exact Own]. }
    exists L', X', L2, n. split; [exact H|reflexivity].
Qed.
End env.

(** ** What a move does to the two accounts *)
Section effect.
Context (e : env) (Henv : env_ok e).
Theorem full_effect native ts ms i L X L' X' r s d a :
  full_exec e native ts ms i L X = Ok (L', X', r) -> moves_at ms i s d a -> 0 < moved i r ->
  exists t u, is_token e L s t /\ is_token e L d u /\ moved i r <= t_amount t /\
    (s <> d ->
      acc L' s = Account (a_lamports (acc L s) - (if x_native (extra_at X s) then moved i r else 0)) (spl_token_id e)
        (DToken (Token (t_mint t) (t_owner t) (t_amount t - moved i r))) /\
      acc L' d = Account (a_lamports (acc L d) + (if x_native (extra_at X s) then moved i r else 0)) (spl_token_id e)
        (DToken (Token (t_mint u) (t_owner u) (t_amount u + moved i r))) /\
      t_amount u + moved i r < 18446744073709551616) /\
    (s = d -> acc L' s = acc L s) /\
    allowance_used X s d a (moved i r) X'.
Proof.
  intros H Hm Hp. unfold full_exec in H.
  apply rbind_ok in H as ([[L'0 X'0] r0] & Hf & H). apply rbind_ok in H as (u & Ro & H). injection H as -> -> ->.
  assert (K : forall k x n, a_owner (acc L k) = program_id e -> a_owner (acc L s) = spl_token_id e -> a_owner (acc L d) = spl_token_id e ->
    full_transfer e ms (put_data L k x) X s d a n = Ok (L', X') ->
    exists t u, is_token e L s t /\ is_token e L d u /\ n <= t_amount t /\
    (s <> d ->
      acc L' s = Account (a_lamports (acc L s) - (if x_native (extra_at X s) then n else 0)) (spl_token_id e)
        (DToken (Token (t_mint t) (t_owner t) (t_amount t - n))) /\
      acc L' d = Account (a_lamports (acc L d) + (if x_native (extra_at X s) then n else 0)) (spl_token_id e)
        (DToken (Token (t_mint u) (t_owner u) (t_amount u + n))) /\
      t_amount u + n < 18446744073709551616) /\
    (s = d -> acc L' s = acc L s) /\ allowance_used X s d a n X').
  { intros k x n Hk Hs Hd Ht. pose proof (transfer_full _ _ _ _ _ _ _ _ _ _ Ht) as (t & L2 & Et & _ & _ & Sp & _ & St & Al).
    destruct (full_tokens e _ _ _ _ _ _ _ _ _ Ht) as (t0 & u0 & T1 & T2 & _ & Am). unfold data_of in T1, T2.
    rewrite (acc_program e Henv) in T1, T2 by assumption.
    exists t0, u0. split; [split; assumption|]. split; [split; assumption|]. split; [exact Am|]. split; [|split; [|exact Al]].
    - intros N. pose proof (St s) as S1. pose proof (St d) as S2.
      apply spl_transfer_inv in Sp as (s1 & d1 & D1 & D2 & _ & _ & _ & _ & _ & _ & [[E _]|(_ & Lt & ->)]); [contradiction|].
      unfold data_of in D1, D2. rewrite (rename_at _ _ _ _ Et) in D1. rewrite rename_ne in D2 by congruence.
      rewrite (acc_program e Henv) in D1, D2, Et by assumption. rewrite Et in T1. injection T1 as <-. rewrite T2 in D2. injection D2 as <-. injection D1 as <-.
      unfold wrapped in S1, S2. rewrite !acc_put in S1, S2. rewrite !Z.eqb_refl in S1, S2.
      rewrite (proj2 (Z.eqb_neq _ _) N) in S1, S2. rewrite (proj2 (Z.eqb_neq d s)) in S1, S2 by congruence.
      rewrite (rename_ne _ _ _ d) in S2 by congruence. rewrite (acc_program e Henv) in S2 by assumption.
      rewrite (rename_at (put_data L k x) s a t) in S1 by (rewrite (acc_program e Henv) by assumption; exact Et).
      rewrite (acc_program e Henv) in S1 by assumption.
      cbn [andb negb with_data a_lamports a_owner a_data] in S1, S2. rewrite Hs in S1. rewrite Hd in S2.
      unfold same_holder, data_of in S1. rewrite (acc_program e Henv) in S1 by assumption. rewrite Et in S1. cbn [t_mint t_owner t_amount] in *.
      rewrite S1, S2. split; [destruct (x_native (extra_at X s)); cbn [andb]; f_equal; lia|].
      split; [destruct (x_native (extra_at X s)); cbn [andb]; f_equal; lia|exact Lt].
    - intros <-. unfold full_transfer in Ht.
      do 9 (apply rbind_ok in Ht as (? & _ & Ht)). rewrite Z.eqb_refl in Ht. injection Ht as <- _. apply (acc_program e Henv); assumption. }
  destruct i; try (destruct Hm as (? & ? & ? & T & _); discriminate T); cbn [full_process moved] in *.
  - apply rbind_ok in Hf as ([[[L1 s0] v0] a0] & Hf & H).
    apply rbind_ok in H as ([L2 X2] & Ht & H). injection H as -> -> <-.
    destruct (fill_part_at _ _ _ _ _ _ _ _ _ _ Hf) as (As & Ad & Aa & Os & Od & Nr & pool & x & Op & ->).
    assert (Hm0 : moves_at ms (FillVault rewards ends_at) s0 v0 a0) by (exists 4%nat, 2%nat, 3%nat; auto).
    destruct (moves_fun _ _ _ _ _ _ _ _ Hm Hm0) as (<- & <- & <-). apply (K pool x rewards); assumption.
  - apply rbind_ok in Hf as ([[[[L1 s0] v0] a0] n] & Hf & H).
    destruct (claim_part_at _ _ _ _ _ _ _ _ _ Hf) as (As & Ad & Aa & Os & Od & mining & x & Op & ->).
    assert (Hm0 : moves_at ms Claim s0 v0 a0) by (exists 2%nat, 6%nat, 5%nat; auto).
    destruct (moves_fun _ _ _ _ _ _ _ _ Hm Hm0) as (<- & <- & <-).
    destruct (0 <? n) eqn:En.
    2:{ injection H as _ _ <-. cbn [moved] in Hp. lia. }
    apply rbind_ok in H as ([L2 X2] & Ht & H). injection H as -> -> <-. apply (K mining x n); assumption.
Qed.
End effect.

Lemma opened_vault e native ts ms f d L X L' X' r mint vault :
  full_exec e native ts ms (InitializePool f d) L X = Ok (L', X', r) -> account_at ms 1 mint -> account_at ms 2 vault ->
  exec e ts ms (InitializePool f d) L = Ok (L', r) /\
  x_delegate (extra_at X' vault) = None /\ x_allowance (extra_at X' vault) = 0 /\ x_frozen (extra_at X' vault) = false /\
  (x_native (extra_at X' vault) = true <-> mint = native) /\
  forall k, k <> vault -> extra_at X' k = extra_at X k.
Proof.
  intros H Am Av. unfold full_exec, full_process, exec in *. apply rbind_ok in H as ([[L1 X1] r1] & H & H2).
  apply rbind_ok in H as ([L2 r2] & H & E). injection E as -> <- ->.
  rewrite H. cbn [rbind]. destruct (readonly_ok ms L L1); [|discriminate]. injection H2 as <- <- <-. split; [reflexivity|].
  unfold account_at in Am, Av. unfold opened.
  destruct ms as [|m0 [|m1 [|m2 ms]]]; try discriminate. cbn in Am, Av. injection Am as <-. injection Av as <-.
  cbn [map mt_key]. unfold extra_at, extras in *. rewrite lookup_insert. cbn. do 3 (split; [reflexivity|]).
  split; [apply Z.eqb_eq|]. intros k Hk. rewrite lookup_insert_ne by congruence. reflexivity.
Qed.
