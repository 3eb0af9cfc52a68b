(** Proofs about calls that give a pool account where a mining is expected. *)
From stdpp Require Import gmap.
From Verif Require Import Base OMap State Spec EffectSpec ResLemmas TreeLemmas FrameLemmas Ledger Program Codec CodecLemmas WfLemmas
  History HistoryLemmas LedgerLemmas LedgerSpec HistoryThms ReachThms AccessLemmas Changes Overlay OverlaySpec.

(** ** The bytes *)
Lemma le_split n : forall m x, le (n + m) x = le n x ++ le m (x / 256 ^ Z.of_nat n).
Proof.
  induction n as [|n IH]; intros m x.
  - cbn [plus le app]. rewrite Z.div_1_r. reflexivity.
  - cbn [plus le app]. rewrite IH. f_equal. f_equal. f_equal. rewrite Zdiv.Zdiv_Zdiv by lia.
    rewrite Nat2Z.inj_succ, Z.pow_succ_r by lia. reflexivity.
Qed.
Lemma le_mod n : forall x, le n (x mod 256 ^ Z.of_nat n) = le n x.
Proof.
  induction n as [|n IH]; intros x; [reflexivity|]. cbn [le]. rewrite Nat2Z.inj_succ, Z.pow_succ_r by lia.
  rewrite Z.rem_mul_r by lia. f_equal.
  - rewrite Z.mul_comm, Z_mod_plus_full, Z.mod_mod by lia. reflexivity.
  - rewrite <- (IH (x / 256)). f_equal.
    rewrite Z.mul_comm, Z_div_plus_full by lia. rewrite Z.div_small by (apply Z.mod_pos_bound; lia). lia.
Qed.
Lemma le_mod_at n M x : M = 256 ^ Z.of_nat n -> le n (x mod M) = le n x.
Proof. intros ->. apply le_mod. Qed.

Lemma le32 x : le 32 x = le 16 x ++ le 16 (x / U128).
Proof. exact (le_split 16 16 x). Qed.
Lemma le16 x : le 16 x = le 8 x ++ le 8 (x / U64).
Proof. exact (le_split 8 8 x). Qed.
Lemma le7 x : le 7 x = le 1 x ++ le 6 (x / 256).
Proof. exact (le_split 1 6 x). Qed.
Lemma le8 x : le 8 x = le 1 x ++ le 1 (x / 256) ++ le 6 (x / 256 / 256).
Proof. rewrite <- le7. exact (le_split 1 7 x). Qed.
Lemma le8_4 x : le 8 x = le 4 x ++ le 4 (x / U32).
Proof. exact (le_split 4 4 x). Qed.

Lemma bytes_read p : CodecLemmas.pool_in_range p ->
  exists rest, dec_mining_header (enc_pool_header p) = Some (as_mining p, rest) /\
    unle (firstn 4 rest) = root_of p.
Proof.
  intros (H1 & H2 & H3 & H4 & H5 & H6 & H7 & H8 & H9 & H10).
  unfold enc_pool_header, enc_u8, enc_u64, enc_u128, enc_key.
  rewrite (le32 (p_mint p)), (le16 (p_mint p / U128)), (le16 (p_index p)), (le8 (p_index p / U64)), (le8_4 (p_total p)).
  rewrite <- !app_assoc.
  rewrite <- (le_mod_at 16 U128 (p_mint p)) by reflexivity.
  rewrite <- (le_mod_at 8 U64 (p_mint p / U128)) by reflexivity.
  rewrite <- (le_mod_at 8 U64 (p_index p)) by reflexivity.
  rewrite <- (le_mod_at 1 256 (p_index p / U64)) by reflexivity.
  rewrite <- (le_mod_at 1 256 (p_index p / U64 / 256)) by reflexivity.
  rewrite <- (le_mod_at 6 (256 ^ 6) (p_index p / U64 / 256 / 256)) by reflexivity.
  rewrite <- (le_mod_at 4 U32 (p_total p)) by reflexivity.
  assert (B : forall x M, 0 < M -> 0 <= x mod M < M) by (intros; apply Z.mod_pos_bound; assumption).
  unfold dec_mining_header, dec_key, dec_u128, dec_u64, dec_u8.
  rewrite dec_le by exact H1. cbn [obind]. rewrite dec_le by exact H2. cbn [obind]. rewrite dec_le by exact H3. cbn [obind].
  rewrite dec_le by (apply B; reflexivity). cbn [obind]. rewrite dec_le by (apply B; reflexivity). cbn [obind].
  rewrite dec_le.
  2:{ unfold is_key in H4. split; [apply Z.div_pos; [apply Z.div_pos; [lia|reflexivity]|reflexivity]|].
      apply Z.div_lt_upper_bound; [reflexivity|]. apply Z.div_lt_upper_bound; [reflexivity|]. apply H4. }
  cbn [obind]. rewrite dec_le by (apply B; reflexivity). cbn [obind]. rewrite dec_le by (apply B; reflexivity). cbn [obind].
  rewrite dec_le by (apply B; reflexivity). cbn [obind]. rewrite dec_le by (apply B; reflexivity). cbn [obind].
  eexists. split; [reflexivity|]. rewrite firstn_app, length_le, Nat.sub_diag. cbn [firstn].
  rewrite app_nil_r, firstn_all2 by (rewrite length_le; lia).
  unfold root_of. apply unle_le. apply B. reflexivity.
Qed.

Lemma bytes_written p m : is_u128 (m_index m) -> is_u64 (m_share m) -> is_u64 (m_sfo m) ->
  enc_pool_header (from_mining p m) = firstn 136 (enc_mining_header m) ++ skipn 136 (enc_pool_header p).
Proof.
  intros Hi Hs Hf. unfold enc_mining_header, enc_pool_header, from_mining, enc_u8, enc_u64, enc_u128, enc_key.
  cbn [p_deposit_auth p_distribute_auth p_fill_auth p_mint p_index p_total p_ends_at p_avail p_bump p_type].
  rewrite (le32 (m_index m + _)), (le16 (_ / U128)), (le16 (m_sfo m + _)), (le16 (p_index p)).
  assert (D : forall a b M, 0 <= a < M -> (a + M * b) / M = b).
  { intros a b M Hab. rewrite Z.mul_comm, Z_div_plus_full by lia. rewrite Z.div_small by lia. lia. }
  assert (R : forall n a b M, M = 256 ^ Z.of_nat n -> le n (a + M * b) = le n a).
  { intros n a b M ->. rewrite <- (le_mod n (a + _)), <- (le_mod n a). f_equal.
    rewrite Z.mul_comm, Z_mod_plus_full. reflexivity. }
  rewrite (R 16%nat) by reflexivity. rewrite (D _ _ U128) by exact Hi. rewrite (R 8%nat) by reflexivity.
  rewrite (D _ _ U64) by exact Hs. rewrite (R 8%nat) by reflexivity. rewrite (D _ _ U64) by exact Hf.
  rewrite <- !app_assoc.
  assert (F : forall (a b : bytes) n, length a = n -> firstn (n + 0) (a ++ b) = a).
  { intros a b n <-. rewrite Nat.add_0_r, firstn_app, Nat.sub_diag, firstn_all, firstn_O, app_nil_r. reflexivity. }
  assert (S : forall (a b : bytes) n, length a = n -> skipn n (a ++ b) = b).
  { intros a b n <-. rewrite skipn_app, Nat.sub_diag, skipn_all. reflexivity. }
  change 136%nat with (136 + 0)%nat at 1.
  match goal with |- _ = firstn _ (?a ++ ?b ++ ?c ++ ?d ++ ?f ++ ?g ++ ?h ++ ?r) ++ _ =>
    replace (a ++ b ++ c ++ d ++ f ++ g ++ h ++ r) with ((a ++ b ++ c ++ d ++ f ++ g ++ h) ++ r) by (rewrite <- !app_assoc; reflexivity) end.
  rewrite F by (rewrite !app_length, !length_le; reflexivity).
  match goal with |- _ = _ ++ skipn _ (?a ++ ?b ++ ?c ++ ?d ++ ?f ++ ?r) =>
    replace (a ++ b ++ c ++ d ++ f ++ r) with ((a ++ b ++ c ++ d ++ f) ++ r) by (rewrite <- !app_assoc; reflexivity) end.
  rewrite S by (rewrite !app_length, !length_le; reflexivity).
  rewrite <- !app_assoc. reflexivity.
Qed.

(** ** Reading *)
Lemma load_wide_ordinary j d : (exists m, d = DMining m) \/ data_len d < 1776 -> load_wide j d = load_mining d.
Proof.
  intros [[m ->]|H]; [reflexivity|]. destruct d; cbn [load_wide load_mining data_len] in *; try reflexivity;
    try (rewrite (proj2 (Z.ltb_lt _ _)) by (unfold MINING_LEN; lia); reflexivity).
  unfold POOL_LEN in H. lia.
Qed.
Lemma load_wide_pool j x m : load_wide j (DPool x) = Ok m ->
  wm m = as_mining (wp x) /\ p_total (wp x) mod 4294967296 <= 50 /\
  (p_total (wp x) mod 4294967296 = 0 -> wm_diffs m = []).
Proof.
  cbn [load_wide]. unfold root_of, U32, MINING_CAP. intros H.
  destruct (Z.eqb_spec (p_total (wp x) mod 4294967296) 0) as [E|E].
  - inv. cbn [wm wm_diffs]. split; [reflexivity|]. split; [lia|reflexivity].
  - destruct (Z.ltb_spec 50 (p_total (wp x) mod 4294967296)); [discriminate|]. inv.
    cbn [wm]. split; [reflexivity|]. split; [assumption|lia].
Qed.

Lemma rbind_ext {A B} (x : res A) (f g : A -> res B) :
  (forall a, x = Ok a -> f a = g a) -> rbind x f = rbind x g.
Proof. destruct x; cbn; auto. Qed.

(** ** Calls with ordinary accounts *)
Lemma claim_same j e ts ms L :
  (forall k, account_at ms 3 k -> ordinary L k) -> wide_claim j e ts ms L = process_claim e ts ms L.
Proof.
  intros Ho. unfold wide_claim, process_claim.
  do 8 (apply rbind_ext; intros [? ?] ?).
  repeat ldr1. subst. pose proof (Ho (mt_key _) eq_refl) as Hk. unfold ordinary, data_of in Hk. clear Ho.
  do 5 (apply rbind_ext; intros ? ?). rewrite (load_wide_ordinary j _ Hk).
  apply rbind_ext; intros m' Hm. apply load_mining_ok in Hm. rewrite Hm. reflexivity.
Qed.
Lemma close_same j e ts ms L :
  (forall k, account_at ms 0 k -> ordinary L k) -> wide_close j e ts ms L = process_close e ts ms L.
Proof.
  intros Ho. unfold wide_close, process_close.
  do 5 (apply rbind_ext; intros [? ?] ?).
  repeat ldr1. subst. pose proof (Ho (mt_key _) eq_refl) as Hk. unfold ordinary, data_of in Hk. clear Ho.
  do 3 (apply rbind_ext; intros ? ?). rewrite (load_wide_ordinary j _ Hk).
  apply rbind_ext; intros m' Hm. apply load_mining_ok in Hm. rewrite Hm. reflexivity.
Qed.
Lemma change_same j e ts ms L a n :
  (forall k, account_at ms 4 k -> ordinary L k) ->
  wide_change j e ts ms L a n = process_change_delegate e ts ms L a n.
Proof.
  intros Ho. unfold wide_change, process_change_delegate.
  apply rbind_ext; intros [pool i1] E1. apply rbind_ext; intros [mining i2] E2.
  apply rbind_ext; intros [auth i3] E3. apply rbind_ext; intros [owner i4] E4.
  apply rbind_ext; intros [od i5] E5. apply rbind_ext; intros [nd i6] E6.
  assert (Hk : ordinary L od) by (apply Ho; repeat ldr1; subst; reflexivity). clear Ho E1 E2 E3 E4 E5 E6.
  do 2 (apply rbind_ext; intros _ _). apply rbind_ext; intros [w m] _. apply rbind_ext; intros _ _.
  unfold ordinary, data_of in Hk.
  assert (E : wide_dlg j L od mining pool = old_dlg L od mining pool).
  { unfold wide_dlg, old_dlg, dlg_of. destruct (od =? _); [reflexivity|]. destruct (_ =? od); [reflexivity|].
    rewrite (load_wide_ordinary j _ Hk). reflexivity. }
  rewrite E. apply rbind_ext. intros [[[w' m'] o] nd'] H. f_equal. f_equal.
  destruct o as [o|]; [|reflexivity]. cbn [put_wide put_dlg].
  assert (Hd : od <> pool /\ mining <> od /\ exists y, a_data (acc L od) = DMining y).
  { destruct (old_dlg_ok _ _ _ _ _ _ _ _ _ _ H) as [Hp Hd]. split; [assumption|]. rewrite Hd in H.
    unfold dlg_of in H. destruct (Z.eqb_spec mining od) as [Em|Em].
    - apply change_frame in H as (_ & _ & [] & _).
    - split; [assumption|]. apply change_frame in H as (_ & _ & H & _).
      destruct (load_mining (a_data (acc L od))) as [y|] eqn:El; [|contradiction].
      exists y. apply load_mining_ok. assumption. }
  destruct Hd as (Hp & Hm & y & Hy). unfold put_mining at 2. f_equal.
  unfold put_mining, put_pool. rewrite !acc_put_data_ne by congruence. rewrite Hy. reflexivity.
Qed.

Lemma otherwise_same j e ts ms i L :
  (forall k, gives ms i k -> ordinary L k) -> wide_exec j e ts ms i L = exec e ts ms i L.
Proof.
  intros Ho. unfold wide_exec, exec. f_equal. destruct i; cbn [wide_process]; try (match goal with |- ?a = ?a => reflexivity end); cbn [process].
  - rewrite claim_same; [reflexivity|]. intros k Hk. apply Ho. exists 3%nat. split; [reflexivity|assumption].
  - rewrite close_same; [reflexivity|]. intros k Hk. apply Ho. exists 0%nat. split; [reflexivity|assumption].
  - rewrite change_same; [reflexivity|]. intros k Hk. apply Ho. exists 4%nat. split; [reflexivity|assumption].
Qed.

Lemma plain_is_run e now L evs now' L' : plain_run e now L evs now' L' -> run e now L evs now' L'.
Proof.
  induction 1 as [|now L ev L1 evs now' L' Hs Ho _ IH]; [constructor|].
  econstructor; [|exact IH]. destruct Hs as [j ts ms i L1 r Hn Ht Hi Hx|ts L1 Hn Ht Hx]; [|constructor; assumption].
  rewrite otherwise_same in Hx; [econstructor; eassumption|]. intros k Hk. eapply Ho; [reflexivity|exact Hk].
Qed.

Lemma exec_ordinary e ts ms i L L' r k : exec e ts ms i L = Ok (L', r) -> gives ms i k -> ordinary L k.
Proof.
  intros H (p & Hp & Hk). left. apply exec_inv in H as [H _].
  destruct i; try discriminate Hp; injection Hp as <-; cbn [process] in H; try (apply no_ret_ok in H as [H _]); inv.
  - apply claim_inv in E as (? & ? & ? & ? & ? & ? & ? & ? & m & ? & ? & HA & _ & _ & _ & _ & _ & _ & _ & _ & _ & _ & _ & Hd & _).
    exists m. destruct HA as [? HA]. unfold account_at in Hk. rewrite HA in Hk. injection Hk as <-. exact Hd.
  - apply close_inv in H as (? & ? & ? & ? & ? & ? & m & ? & HA & _ & _ & _ & _ & _ & _ & _ & _ & Hd & _).
    exists m. destruct HA as [? HA]. unfold account_at in Hk. rewrite HA in Hk. injection Hk as <-. exact Hd.
  - apply change_inv in H as (pool & mining & ? & ? & od & ? & w & m & ? & ? & o & ? & HA & Hc & _ & _ & _ & _ & _ & _ & H & _).
    destruct HA as [? HA]. unfold account_at in Hk. rewrite HA in Hk. injection Hk as <-.
    unfold dlg_of in H. destruct (Z.eqb_spec mining od) as [<-|].
    + exists m. apply Hc.
    + destruct (load_mining (a_data (acc L od))) as [y|] eqn:Ey.
      * exists y. apply load_mining_ok. exact Ey.
      * apply change_frame in H as (_ & _ & [] & _).
Qed.
(** what a call does when it works without a longer account, it does with any [junk] *)
Lemma exec_wide j e ts ms i L L' r : exec e ts ms i L = Ok (L', r) -> wide_exec j e ts ms i L = Ok (L', r).
Proof. intros H. rewrite otherwise_same; [exact H|]. intros k Hk. exact (exec_ordinary e ts ms i L L' r k H Hk). Qed.

(** ** Refreshing whatever was read *)
Lemma update_index_any ci d s u i u' i' : ascending ci ->
  mining_update_index ci d s u i = Ok (u', i') -> i <= visible d ci /\ i' = visible d ci /\ u <= u'.
Proof.
  intros Ha H. unfold mining_update_index in H. rewrite (find_lt_visible d ci 0 Ha) in H.
  change (visible_from 0 d ci) with (visible d ci) in H. inv.
  match goal with H : (if ?b then _ else _) = Ok _ |- _ => destruct b eqn:Eb end; inv; lia.
Qed.
Lemma consume_any ci b : ascending ci -> forall l s u i s' u' i' ds,
  mining_consume_loop ci b l s u i = Ok (s', u', i', ds) -> i <= i' /\ u <= u'.
Proof.
  intros Ha. induction l as [|[k v] r IH]; intros s u i s' u' i' ds H; cbn in H; [inv; lia|].
  destruct (b <? k); inv; [lia|].
  match goal with H : mining_update_index _ _ _ _ _ = _ |- _ => apply update_index_any in H; [|assumption] end.
  match goal with H : mining_consume_loop _ _ _ _ _ _ = _ |- _ => apply IH in H end. lia.
Qed.
Lemma refresh_any ts ci m m' : ascending ci -> refresh ts ci m = Ok m' ->
  m_index (wm m) <= visible ts ci /\ m_index (wm m') = visible ts ci /\ m_unclaimed (wm m) <= m_unclaimed (wm m').
Proof.
  intros Ha H. unfold refresh in H. cbv zeta in H. inv. unfold mining_consume in *. inv. cbn.
  match goal with H : mining_update_index _ _ _ _ _ = _ |- _ => apply update_index_any in H; [|assumption] end.
  match goal with H : mining_consume_loop _ _ _ _ _ _ = _ |- _ => apply consume_any in H; [|assumption] end. lia.
Qed.

(** ** Calls with a pool where a mining is expected *)
Definition wide_facts (j : junk) (ts : Z) (L L' : ledger) (k : pubkey) (x : wpool) (w : wpool) (i : ix) : Prop :=
  exists m m1, wm m = as_mining (wp x) /\ p_total (wp x) mod 4294967296 <= 50 /\
    refresh ts (wp_ci w) (WMining (set_sfo (wm m) (m_sfo (wm m) - taken i)) (wm_diffs m)) = Ok m1 /\
    match i with
    | CloseMining => m_sfo (wm m1) <= 0 /\ m_unclaimed (wm m1) = 0 /\
        data_of L' k = zeros 64480 /\ a_lamports (acc L' k) = 0
    | Claim => data_of L' k = store_wide j (DPool x) (WMining (mining_claim (wm m1)) (wm_diffs m1))
    | ChangeDelegate a _ => a <= m_sfo (wm m) /\ data_of L' k = store_wide j (DPool x) m1
    | _ => False
    end.

Lemma set_sfo_same m : WMining (set_sfo (wm m) (m_sfo (wm m) - 0)) (wm_diffs m) = m.
Proof. destruct m as [[] ?]. unfold set_sfo. cbn. rewrite Z.sub_0_r. reflexivity. Qed.

Definition wide_call (j : junk) (e : env) (ts : Z) (ms : list meta) (i : ix) (L L' : ledger) (k : pubkey) (x : wpool) : Prop :=
  exists P w, account_at ms (pool_position i) P /\ is_pool e L P w /\ P <> k /\ signed ms (p_deposit_auth (wp w)) /\
    match i with
    | Claim => p_deposit_auth (wp x) = P /\ signed ms (p_distribute_auth (wp x))
    | CloseMining => signed ms (p_distribute_auth (wp x))
    | _ => True
    end /\
    wide_facts j ts L L' k x w i /\ owner_of L' k = program_id e /\
    forall q y, q <> k -> q <> P -> is_pool e L q y -> is_pool e L' q y.

Lemma wide_exec_inv j e ts ms i L L' r : wide_exec j e ts ms i L = Ok (L', r) ->
  wide_process j e ts ms i L = Ok (L', r) /\
  forall k, In k (map mt_key ms) -> writable ms k \/ acc L' k = acc L k.
Proof.
  unfold wide_exec. intros H. inv. split; [assumption|].
  unfold readonly_ok in *. intros k Hk. apply in_map_iff in Hk as (m & <- & Hm).
  match goal with H : forallb _ _ = true |- _ => rewrite forallb_forall in H; specialize (H m Hm) as Hw end.
  apply orb_true_iff in Hw as [Hw|Hw]; [left; apply is_writable_ok; assumption|].
  right. apply bool_decide_eq_true in Hw. congruence.
Qed.

Lemma is_pool_put e L k d q y : is_pool e L q y -> q <> k -> is_pool e (put_data L k d) q y.
Proof.
  intros [Ho Hd] Hne. split; [rewrite owner_put; exact Ho|]. unfold data_of. rewrite acc_put_data_ne by congruence. exact Hd.
Qed.
Lemma transfer_pools e ms L src dst auth n L' q y : spl_transfer ms L src dst auth n = Ok L' ->
  is_pool e L q y -> is_pool e L' q y.
Proof.
  intros H Hq. apply spl_transfer_inv in H as (s & d & Hs & Hd & _ & _ & _ & _ & _ & _ & [[_ ->]|(_ & _ & ->)]); [exact Hq|].
  destruct Hq as [Ho Hq]. apply is_pool_put; [apply is_pool_put; [split; assumption|]|]; intros ->; congruence.
Qed.

(** the three processors, as [claim_inv], [close_inv] and [change_inv] *)
Lemma wide_claim_inv j e ts ms L L' amount :
  wide_claim j e ts ms L = Ok (L', amount) ->
  exists pool mint vault mining owner auth dest w m m1,
    accounts_are ms [pool; mint; vault; mining; owner; auth; dest; spl_token_id e] /\
    owner_of L pool = program_id e /\ owner_of L mining = program_id e /\
    signed ms owner /\ signed ms auth /\
    data_of L pool = DPool w /\ auth = p_deposit_auth (wp w) /\
    load_wide j (data_of L mining) = Ok m /\ owner = m_owner (wm m) /\ pool = m_pool (wm m) /\
    mining <> pool /\ refresh ts (wp_ci w) m = Ok m1 /\
    let L1 := put_data L mining (store_wide j (data_of L mining) (WMining (mining_claim (wm m1)) (wm_diffs m1))) in
    (L' = L1 \/ exists n, spl_transfer ms L1 vault dest auth n = Ok L').
Proof.
  unfold wide_claim. intros H. cbv zeta in *. inv. repeat ldr1. subst. repeat linv1.
  do 10 eexists. split; [accts|].
  do 10 (split; [eassumption|]). split; [eassumption|].
  match goal with H : (if ?b then _ else _) = Ok _ |- _ => destruct b eqn:Eb end; inv; [right|left; reflexivity].
  eexists. eassumption.
Qed.
Lemma wide_close_inv j e ts ms L L' :
  wide_close j e ts ms L = Ok L' ->
  exists mining owner target auth pool w m m1 lam,
    accounts_are ms [mining; owner; target; auth; pool] /\
    owner_of L mining = program_id e /\ owner_of L target = system_id /\ owner_of L pool = program_id e /\
    signed ms owner /\ signed ms auth /\
    data_of L pool = DPool w /\ auth = p_deposit_auth (wp w) /\ mining <> pool /\
    load_wide j (data_of L mining) = Ok m /\ owner = m_owner (wm m) /\
    refresh ts (wp_ci w) m = Ok m1 /\ m_sfo (wm m1) <= 0 /\ m_unclaimed (wm m1) = 0 /\
    L' = <[mining := Account 0 (owner_of L mining) (zeros (data_len (data_of L mining)))]> (put_lamports L target lam).
Proof.
  unfold wide_close. intros H. inv. repeat ldr1. subst. repeat linv1.
  do 9 eexists. split; [accts|].
  do 13 (split; [eassumption|]). reflexivity.
Qed.
Lemma wide_change_inv j e ts ms L a n L' :
  wide_change j e ts ms L a n = Ok L' ->
  exists pool mining auth owner old_dm new_dm w m w' m' od nd,
    accounts_are ms [pool; mining; auth; owner; old_dm; new_dm] /\
    stake_ctx e ms L owner pool mining auth w m /\
    owner_of L old_dm = program_id e /\ owner_of L new_dm = program_id e /\
    new_dm <> old_dm /\
    change_delegate ts w m (dlg_of L new_dm mining) (wide_dlg j L old_dm mining pool) a = Ok (w', m', od, nd) /\
    L' = put_dlg (put_wide j (put_mining (put_pool L pool w') mining m') old_dm od) new_dm nd.
Proof.
  unfold wide_change. intros H. inv. ldr.
  do 12 eexists. split; [accts|]. repeat linv1.
  split; [eapply assert_and_get_ok; eauto|]. eauto 10.
Qed.

Lemma at_list ms l n k : accounts_are ms l -> account_at ms n k -> (n < length l)%nat -> nth_error l n = Some k.
Proof.
  intros [r H] Hk Hn. unfold account_at in Hk. rewrite H in Hk. rewrite nth_error_app1 in Hk; assumption.
Qed.
Lemma list_at ms l n k : accounts_are ms l -> nth_error l n = Some k -> account_at ms n k.
Proof.
  intros [r H] Hk. unfold account_at. rewrite H. rewrite nth_error_app1; [exact Hk|]. apply nth_error_Some. congruence.
Qed.

Lemma wide_call_claim j e ts ms L L' r k x :
  wide_claim j e ts ms L = Ok (L', r) -> account_at ms 3 k -> is_pool e L k x -> wide_call j e ts ms Claim L L' k x.
Proof.
  intros H Hk [Ho Hx]. apply wide_claim_inv in H as (pool & mint & vault & mining & owner & auth & dest & w & m & m1 &
    HA & Hpo & _ & So & Sa & Hp & -> & Hm & -> & Hpm & Hne & Hr & H).
  pose proof (at_list _ _ _ _ HA Hk ltac:(cbn; lia)) as Ek. injection Ek as ->. rewrite Hx in Hm, H.
  apply load_wide_pool in Hm as (Hm & Hroot & _).
  exists pool, w. split; [apply (list_at _ _ _ _ HA); reflexivity|]. split; [split; assumption|].
  split; [congruence|]. split; [assumption|]. split.
  { rewrite Hm in Hpm, So. split; [symmetry; exact Hpm|exact So]. }
  cbv zeta in H.
  match type of H with L' = ?X \/ _ => set (L1 := X) in * end.
  assert (Hk1 : is_pool e L1 k (match store_wide j (DPool x) (WMining (mining_claim (wm m1)) (wm_diffs m1)) with DPool y => y | _ => x end)).
  { split; [unfold L1; rewrite owner_put; exact Ho|]. unfold L1. rewrite data_put.
    cbn [store_wide]. destruct (_ =? 0); [reflexivity|]. destruct (j_left _ _ _). reflexivity. }
  assert (Hall : forall q y, is_pool e L1 q y -> is_pool e L' q y).
  { intros q y Hq. destruct H as [->|[n H]]; [exact Hq|]. eapply transfer_pools; eassumption. }
  split; [|split].
  - exists m, m1. split; [exact Hm|]. split; [exact Hroot|]. cbn [taken]. rewrite set_sfo_same. split; [exact Hr|].
    apply Hall in Hk1 as [_ Hk1]. rewrite Hk1. cbn [store_wide]. destruct (_ =? 0); [reflexivity|]. destruct (j_left _ _ _). reflexivity.
  - apply Hall in Hk1. apply Hk1.
  - intros q y Hq _ Hy. apply Hall. apply is_pool_put; assumption.
Qed.

Lemma wide_call_close j e ts ms L L' k x :
  wide_close j e ts ms L = Ok L' -> account_at ms 0 k -> is_pool e L k x -> wide_call j e ts ms CloseMining L L' k x.
Proof.
  intros H Hk [Ho Hx]. apply wide_close_inv in H as (mining & owner & target & auth & pool & w & m & m1 & lam &
    HA & _ & Ht & Hpo & So & Sa & Hp & -> & Hne & Hm & -> & Hr & Hs & Hu & ->).
  pose proof (at_list _ _ _ _ HA Hk ltac:(cbn; lia)) as Ek. injection Ek as ->. rewrite Hx in Hm.
  apply load_wide_pool in Hm as (Hm & Hroot & _).
  exists pool, w. split; [apply (list_at _ _ _ _ HA); reflexivity|]. split; [split; assumption|].
  split; [congruence|]. split; [assumption|]. split; [rewrite Hm in So; exact So|]. split; [|split].
  - exists m, m1. split; [exact Hm|]. split; [exact Hroot|]. cbn [taken]. rewrite set_sfo_same. split; [exact Hr|].
    unfold data_of at 1. rewrite !acc_insert. cbn [a_data a_lamports]. rewrite Hx. cbn [data_len].
    split; [assumption|]. split; [assumption|]. split; reflexivity.
  - unfold owner_of at 1. rewrite acc_insert. cbn [a_owner]. exact Ho.
  - intros q y Hq _ [Hy1 Hy2]. unfold is_pool, owner_of, data_of in *. rewrite acc_ins, acc_put_lam.
    destruct (Z.eqb_spec q k); [contradiction|]. destruct (Z.eqb_spec q target) as [->|]; split; assumption.
Qed.

Lemma change_old_some ts w m nd y a w' m' o' n' :
  change_delegate ts w m nd (Some (Ok y)) a = Ok (w', m', o', n') ->
  a <= m_sfo (wm y) /\ exists m1, o' = Some m1 /\
    refresh ts (wp_ci w) (WMining (set_sfo (wm y) (m_sfo (wm y) - a)) (wm_diffs y)) = Ok m1.
Proof.
  unfold change_delegate, delegate_sub. intros H. inv_bind H. inv_bind H. destruct a1 as [t1 o1].
  inv_bind H. destruct a1 as [t2 o2]. injection H as _ _ <- _. cbn [rbind] in E0.
  inv_bind E0. inv_bind E0. inv_bind E0. injection E0 as _ <-. apply safe_sub_ok in E2 as [E2 ->].
  split; [exact E2|]. eexists. split; [reflexivity|exact E4].
Qed.

Lemma wide_call_change j e ts ms L L' a n k x :
  wide_change j e ts ms L a n = Ok L' -> account_at ms 4 k -> is_pool e L k x ->
  wide_call j e ts ms (ChangeDelegate a n) L L' k x.
Proof.
  intros H Hk [Ho Hx]. apply wide_change_inv in H as (pool & mining & auth & owner & od & nd & w & m & w' & m' & o' & n' &
    HA & Hc & _ & Hnd & Hne & H & ->).
  pose proof (at_list _ _ _ _ HA Hk ltac:(cbn; lia)) as Ek. injection Ek as ->.
  unfold wide_dlg in H. destruct (Z.eqb_spec k pool) as [->|Hkp].
  { apply change_frame in H as (_ & _ & [] & _). }
  destruct (Z.eqb_spec mining k) as [->|Hmk]; [pose proof (sc_mining _ _ _ _ _ _ _ _ _ Hc); congruence|].
  pose proof (change_frame _ _ _ _ _ _ _ _ _ _ H) as (Hw & _ & Fo & Fn).
  destruct (load_wide j (a_data (acc L k))) as [y|] eqn:El; [|destruct Fo].
  destruct o' as [o'|]; [|destruct Fo].
  assert (El' : load_wide j (DPool x) = Ok y) by (rewrite <- El; f_equal; symmetry; exact Hx).
  apply load_wide_pool in El' as (Hm & Hroot & _).
  apply change_old_some in H as (Ha & o1 & E1 & Hr). injection E1 as <-.
  exists pool, w. split; [apply (list_at _ _ _ _ HA); reflexivity|]. split; [split; apply Hc|].
  split; [congruence|]. split; [rewrite <- (sc_auth _ _ _ _ _ _ _ _ _ Hc); apply Hc|]. split; [exact I|].
  assert (Hn : forall q z, is_pool e L q z -> n' = None \/ q <> nd).
  { intros q z [_ Hq]. destruct n' as [n'|]; [|left; reflexivity]. right. intros ->. unfold dlg_of in Fn.
    destruct (Z.eqb_spec mining nd); [destruct Fn|]. destruct (load_mining (a_data (acc L nd))) as [v|] eqn:Ev; [|destruct Fn].
    apply load_mining_ok in Ev. unfold data_of in Hq. congruence. }
  assert (Hmq : forall q z, is_pool e L q z -> q <> mining).
  { intros q z [_ Hq] ->. pose proof (sc_mining _ _ _ _ _ _ _ _ _ Hc). congruence. }
  cbn [put_wide]. set (L1 := put_mining (put_pool L pool w') mining m').
  assert (Ek : a_data (acc L1 k) = DPool x).
  { unfold L1, put_mining, put_pool. rewrite !acc_put_data_ne by congruence. exact Hx. }
  rewrite Ek. set (L2 := put_data L1 k (store_wide j (DPool x) o')).
  assert (Ho2 : forall q, owner_of L2 q = owner_of L q).
  { intros q. unfold L2, L1, put_mining, put_pool. rewrite !owner_put. reflexivity. }
  assert (Hq2 : forall q z, is_pool e L q z -> acc (put_dlg L2 nd n') q = acc L2 q).
  { intros q z Hq. destruct n' as [n'|]; [|reflexivity]. cbn [put_dlg]. unfold put_mining.
    destruct (Hn q z Hq) as [|Hqn]; [discriminate|]. apply acc_put_data_ne. congruence. }
  assert (Hk2 : acc (put_dlg L2 nd n') k = acc L2 k) by (apply (Hq2 k x); split; assumption).
  split; [|split].
  - exists y, o'. split; [exact Hm|]. split; [exact Hroot|]. split; [exact Hr|]. split; [exact Ha|].
    unfold data_of. rewrite Hk2. apply data_put.
  - unfold owner_of. rewrite Hk2. etransitivity; [apply (Ho2 k)|exact Ho].
  - intros q z Hqk Hqp Hq. pose proof (Hmq q z Hq) as Hqm. destruct Hq as [Hqo Hqd]. unfold is_pool, owner_of, data_of.
    rewrite (Hq2 q z) by (split; assumption). split; [etransitivity; [apply (Ho2 q)|exact Hqo]|].
    unfold L2, L1, put_mining, put_pool. rewrite !acc_put_data_ne by congruence. exact Hqd.
Qed.

Lemma wide_call_ok j e ts ms i L L' r k x :
  wide_exec j e ts ms i L = Ok (L', r) -> gives ms i k -> is_pool e L k x -> wide_call j e ts ms i L L' k x.
Proof.
  intros H (p & Hp & Hk) Hx. apply wide_exec_inv in H as [H _].
  destruct i; try discriminate Hp; injection Hp as <-; cbn [wide_process] in H.
  - inv_bind H. destruct a as [L1 n]. injection H as <- <-. eapply wide_call_claim; eassumption.
  - apply no_ret_ok in H as [H _]. eapply wide_call_close; eassumption.
  - apply no_ret_ok in H as [H _]. eapply wide_call_change; eassumption.
Qed.

(** ** What such a call needs *)
Lemma wide_needs j e ts ms i L L' r k x :
  wide_exec j e ts ms i L = Ok (L', r) -> gives ms i k -> is_pool e L k x ->
  p_total (wp x) mod 4294967296 <= 50 /\
  exists P w, account_at ms (pool_position i) P /\ is_pool e L P w /\ P <> k /\ signed ms (p_deposit_auth (wp w)) /\
    (ascending (wp_ci w) -> p_mint (wp x) mod 2 ^ 128 <= visible ts (wp_ci w)) /\
    match i with
    | Claim => p_deposit_auth (wp x) = P /\ signed ms (p_distribute_auth (wp x))
    | CloseMining => signed ms (p_distribute_auth (wp x)) /\ p_index (wp x) mod 2 ^ 64 = 0 /\
        (ascending (wp_ci w) -> p_mint (wp x) / 2 ^ 192 <= 0)
    | ChangeDelegate a _ => a <= p_index (wp x) mod 2 ^ 64
    | _ => False
    end.
Proof.
  intros H Hg Hx. apply (wide_call_ok _ _ _ _ _ _ _ _ _ _ H Hg) in Hx as (P & w & HP & Hw & Hne & Hs & Hi & (m & m1 & Hm & Hroot & Hr & F) & _).
  split; [exact Hroot|]. exists P, w. do 4 (split; [assumption|]).
  assert (Hidx : ascending (wp_ci w) -> p_mint (wp x) mod 2 ^ 128 <= visible ts (wp_ci w) /\ p_mint (wp x) / 2 ^ 192 <= m_unclaimed (wm m1)).
  { intros Ha. destruct (refresh_any _ _ _ _ Ha Hr) as (A & _ & B). rewrite Hm in A, B. cbn in A, B.
    split; [exact A|]. etransitivity; [|exact B]. unfold as_mining; cbn. rewrite Z.div_div by (reflexivity || discriminate).
    apply Z.eq_le_incl. reflexivity. }
  split; [intros Ha; apply Hidx; exact Ha|].
  destruct i; try contradiction.
  - exact Hi.
  - destruct F as (F1 & F2 & _). split; [exact Hi|]. split.
    + apply refresh_id in Hr as [_ Hr]. rewrite Hr in F1. cbn [wm m_sfo set_sfo taken] in F1. rewrite Hm in F1. cbn [m_sfo as_mining] in F1.
      change (2 ^ 64) with U64. pose proof (Z.mod_pos_bound (p_index (wp x)) U64 eq_refl). lia.
    + intros Ha. rewrite <- F2. apply Hidx. exact Ha.
  - destruct F as [F _]. rewrite Hm in F. exact F.
Qed.

Lemma stake_protects j e ts ms i L k x :
  gives ms i k -> is_pool e L k x -> 50 < p_total (wp x) mod 4294967296 ->
  forall L' r, wide_exec j e ts ms i L <> Ok (L', r).
Proof. intros Hg Hx Ht L' r H. apply (wide_needs _ _ _ _ _ _ _ _ _ _ H Hg) in Hx as [Hx _]. lia. Qed.

(** ** What it does *)
Lemma store_pool j x m : m_pool (wm m) = p_deposit_auth (wp x) -> m_owner (wm m) = p_distribute_auth (wp x) ->
  m_mint (wm m) = p_fill_auth (wp x) ->
  exists x', store_wide j (DPool x) m = DPool x' /\ same_authorities x x' /\ wp_ci x' = wp_ci x /\
    p_mint (wp x') = m_index (wm m) + U128 * (m_share (wm m) + U64 * m_unclaimed (wm m)) /\
    p_index (wp x') = m_sfo (wm m) + U64 * (p_index (wp x) / U64) /\
    (p_total (wp x) mod 4294967296 = 0 -> same_rest x x').
Proof.
  intros Hp Ho Hm. cbn [store_wide]. unfold root_of, U32. destruct (Z.eqb_spec (p_total (wp x) mod 4294967296) 0) as [E|E].
  - eexists. split; [reflexivity|]. split; [split; [exact Hp|split; [exact Ho|exact Hm]]|].
    split; [reflexivity|]. split; [reflexivity|]. split; [reflexivity|]. intros _. repeat split.
  - destruct (j_left j x m) as [t ds]. eexists. split; [reflexivity|]. split; [split; [exact Hp|split; [exact Ho|exact Hm]]|].
    split; [reflexivity|]. split; [reflexivity|]. split; [reflexivity|]. intros. contradiction.
Qed.

Lemma wide_effect j e ts ms i L L' r k x :
  wide_exec j e ts ms i L = Ok (L', r) -> gives ms i k -> is_pool e L k x ->
  exists P w, account_at ms (pool_position i) P /\ is_pool e L P w /\
    (i = CloseMining -> is_pool e L' k zero_wpool /\ a_lamports (acc L' k) = 0) /\
    (i <> CloseMining -> exists x', is_pool e L' k x' /\ same_authorities x x' /\ wp_ci x' = wp_ci x /\
       p_index (wp x') = p_index (wp x) - taken i /\
       (ascending (wp_ci w) -> exists c, p_mint (wp x') = visible ts (wp_ci w) + 2 ^ 128 * c) /\
       (p_total (wp x) mod 4294967296 = 0 -> same_rest x x')) /\
    (forall q y, q <> k -> q <> P -> is_pool e L q y -> is_pool e L' q y).
Proof.
  intros H Hg Hx. apply (wide_call_ok _ _ _ _ _ _ _ _ _ _ H Hg) in Hx as (P & w & HP & Hw & Hne & _ & _ & (m & m1 & Hm & _ & Hr & F) & Ho & Hq).
  exists P, w. do 2 (split; [assumption|]). split; [|split; [|exact Hq]].
  - intros ->. destruct F as (_ & _ & Fd & Fl). split; [split; [exact Ho|exact Fd]|exact Fl].
  - intros Hi.
    assert (Hid : m_pool (wm m1) = p_deposit_auth (wp x) /\ m_owner (wm m1) = p_distribute_auth (wp x) /\
      m_mint (wm m1) = p_fill_auth (wp x) /\ m_sfo (wm m1) = p_index (wp x) mod U64 - taken i).
    { apply refresh_id in Hr as [(I1 & I2 & I3 & _) Hr]. rewrite I1, I2, I3, Hr.
      cbn [wm set_sfo m_pool m_owner m_mint m_sfo]. rewrite Hm. repeat split. }
    destruct Hid as (I1 & I2 & I3 & I4).
    assert (Hix : m_sfo (wm m1) + U64 * (p_index (wp x) / U64) = p_index (wp x) - taken i).
    { rewrite I4. pose proof (Z.div_mod (p_index (wp x)) U64 ltac:(discriminate)). lia. }
    destruct i; try contradiction.
    + destruct (store_pool j x (WMining (mining_claim (wm m1)) (wm_diffs m1)) I1 I2 I3) as (x' & Es & S1 & S2 & S3 & S4 & S5).
      exists x'. split; [split; [exact Ho|rewrite <- Es; exact F]|]. split; [exact S1|]. split; [exact S2|].
      split; [rewrite <- Hix; exact S4|]. split; [|exact S5]. intros Ha. eexists. rewrite S3. cbn [wm mining_claim set_rewards m_index].
      destruct (refresh_any _ _ _ _ Ha Hr) as (_ & -> & _). reflexivity.
    + destruct F as [_ F]. destruct (store_pool j x m1 I1 I2 I3) as (x' & Es & S1 & S2 & S3 & S4 & S5).
      exists x'. split; [split; [exact Ho|rewrite <- Es; exact F]|]. split; [exact S1|]. split; [exact S2|].
      split; [rewrite <- Hix; exact S4|]. split; [|exact S5]. intros Ha. eexists. rewrite S3.
      destruct (refresh_any _ _ _ _ Ha Hr) as (_ & -> & _). reflexivity.
Qed.

(** ** Histories with such calls *)
(** what holds of every pool: its deposit authority is none or one of [S], and its history is ordered *)
Definition pools_from (e : env) (S : pubkey -> Prop) (L : ledger) : Prop :=
  forall k x, is_pool e L k x -> (p_deposit_auth (wp x) = 0 \/ S (p_deposit_auth (wp x))) /\ ascending (wp_ci x).
Definition keeps_auth (w w' : wpool) : Prop :=
  p_deposit_auth (wp w') = p_deposit_auth (wp w) /\ (ascending (wp_ci w) -> ascending (wp_ci w')).
Lemma stake_only_keeps w w' : stake_only w w' -> keeps_auth w w'.
Proof. intros (t & ds & ->). split; [reflexivity|auto]. Qed.

(** from [L] to [L'] every pool is an earlier one, zeroed, or has a new authority in [S] and no history *)
Definition evolves (e : env) (S : pubkey -> Prop) (L L' : ledger) : Prop :=
  forall k x', is_pool e L' k x' ->
    (exists x, is_pool e L k x /\ keeps_auth x x') \/ x' = zero_wpool \/
    (S (p_deposit_auth (wp x')) /\ wp_ci x' = []).
Lemma evolves_from e S L L' : evolves e S L L' -> pools_from e S L -> pools_from e S L'.
Proof.
  intros E H k x' Hx'. destruct (E k x' Hx') as [(x & Hx & Ka & Kc)|[->|[Hs Hc]]].
  - destruct (H k x Hx) as [A B]. rewrite Ka. split; [exact A|apply Kc; exact B].
  - split; [left; reflexivity|exact I].
  - rewrite Hc. split; [right; exact Hs|exact I].
Qed.
Lemma evolves_refl e S L : evolves e S L L.
Proof. intros k x Hx. left. exists x. split; [exact Hx|]. split; [reflexivity|auto]. Qed.
Lemma evolves_put e S L0 L k d : evolves e S L0 L ->
  (forall x', d = DPool x' -> owner_of L k = program_id e -> (exists x, is_pool e L0 k x /\ keeps_auth x x') \/ x' = zero_wpool \/
     (S (p_deposit_auth (wp x')) /\ wp_ci x' = [])) -> evolves e S L0 (put_data L k d).
Proof.
  intros E H q x' [Ho Hd]. rewrite owner_put in Ho. destruct (Z.eq_dec q k) as [->|Hne].
  - rewrite data_put in Hd. apply H; assumption.
  - unfold data_of in Hd. rewrite acc_put_data_ne in Hd by congruence. apply E. split; assumption.
Qed.
Lemma evolves_put_pool e S L0 L k w w' : evolves e S L0 L -> is_pool e L0 k w -> keeps_auth w w' ->
  evolves e S L0 (put_pool L k w').
Proof. intros E Hw Hk. apply evolves_put; [exact E|]. intros x' [= <-] _. left. exists w. split; assumption. Qed.
Lemma evolves_put_mining e S L0 L k m : evolves e S L0 L -> evolves e S L0 (put_mining L k m).
Proof. intros E. apply evolves_put; [exact E|]. intros x' [=]. Qed.
Lemma evolves_put_dlg e S L0 L k d : evolves e S L0 L -> evolves e S L0 (put_dlg L k d).
Proof. destruct d; [apply evolves_put_mining|auto]. Qed.
Lemma evolves_ins e S L0 L k a : evolves e S L0 L ->
  (forall x', a_data a = DPool x' -> x' = zero_wpool) -> evolves e S L0 (<[k := a]> L).
Proof.
  intros E H q x' [Ho Hd]. unfold owner_of, data_of in *. rewrite acc_ins in Ho, Hd.
  destruct (Z.eqb_spec q k) as [->|]; [right; left; auto|]. apply E. split; assumption.
Qed.
Lemma evolves_put_lam e S L0 L k n : evolves e S L0 L -> evolves e S L0 (put_lamports L k n).
Proof.
  intros E q x' [Ho Hd]. unfold owner_of, data_of in *. rewrite acc_put_lam in Ho, Hd.
  apply E. unfold is_pool, owner_of, data_of. destruct (Z.eqb_spec q k) as [->|]; split; assumption.
Qed.
Lemma zeros_pool n x : zeros n = DPool x -> x = zero_wpool.
Proof. unfold zeros. destruct (_ =? _); [discriminate|]. destruct (_ =? _); [discriminate|]. destruct (_ =? _); congruence. Qed.
Lemma evolves_create e S L0 L ms from to lam n o L' : evolves e S L0 L ->
  create_account ms L from to lam n o = Ok L' -> evolves e S L0 L'.
Proof.
  intros E H. apply create_account_inv in H as (_ & _ & _ & _ & _ & _ & _ & _ & _ & _ & ->).
  apply evolves_ins; [apply evolves_put_lam; exact E|]. intros x. apply zeros_pool.
Qed.
Lemma evolves_transfer e S L0 L ms a b c n L' : evolves e S L0 L -> spl_transfer ms L a b c n = Ok L' -> evolves e S L0 L'.
Proof.
  intros E H. apply spl_transfer_inv in H as (s & d & _ & _ & _ & _ & _ & _ & _ & _ & [[_ ->]|(_ & _ & ->)]); [exact E|].
  apply evolves_put; [apply evolves_put; [exact E|]|]; intros x [=].
Qed.
Lemma evolves_put_wide j e S L0 k m : owner_of L0 k = program_id e ->
  forall L, evolves e S L0 L -> 
  (forall x, data_of L0 k = DPool x -> m_pool (wm m) = p_deposit_auth (wp x)) ->
  evolves e S L0 (put_data L k (store_wide j (data_of L0 k) m)).
Proof.
  intros Hd L E Hm. apply evolves_put; [exact E|]. intros x' Hs _.
  destruct (data_of L0 k) as [| |x| | | |] eqn:Ed; try discriminate Hs.
  left. exists x. split; [split; [exact Hd|exact Ed]|]. cbn [store_wide] in Hs. specialize (Hm x eq_refl).
  destruct (_ =? 0); [injection Hs as <-|destruct (j_left _ _ _); injection Hs as <-]; split; try (exact Hm); auto.
Qed.

Lemma distribute_keeps ts r w w' : distribute ts r w = Ok w' -> keeps_auth w w'.
Proof.
  intros H. split; [apply distribute_config in H; apply H|]. intros Ha.
  unfold distribute in H. cbv zeta in H. inv. destruct (ohas _ _); inv; [exact Ha|].
  unfold pool_update_index in *. inv. cbn [wp_ci]. apply ascending_oinsert. exact Ha.
Qed.
Lemma fill_keeps ts r x w w' : fill_pool ts r x w = Ok w' -> keeps_auth w w'.
Proof.
  intros H. split; [apply fill_config in H; apply H|]. intros Ha. unfold fill_pool in H. cbv zeta in H. inv. exact Ha.
Qed.

Lemma load_wide_id j d m x : load_wide j d = Ok m -> d = DPool x -> m_pool (wm m) = p_deposit_auth (wp x).
Proof. intros H ->. apply load_wide_pool in H as [-> _]. reflexivity. Qed.

Lemma wide_evolves j e (S : pubkey -> Prop) ts ms i L L' r :
  wide_process j e ts ms i L = Ok (L', r) ->
  (forall f d a, i = InitializePool f d -> account_at ms 4 a -> S a) -> evolves e S L L'.
Proof.
  intros H HS. destruct i; cbn [wide_process process] in H; try (apply no_ret_ok in H as [H _]).
  - apply init_pool_inv in H as (pool & mint & vault & payer & auth & bump & w & L1 & L2 & HA & Hp & _ & _ & _ & _ & Hd & _ & _ & _ & _ & Hc & Ha & ->).
    apply initialize_account_inv in Ha as (_ & _ & _ & ->).
    apply evolves_put.
    + apply evolves_put; [eapply evolves_create; [apply evolves_refl|exact Hc]|]. intros x [=].
    + intros x [= <-] _. right. right. split; [|reflexivity]. apply (HS _ _ _ eq_refl). apply (list_at _ _ _ _ HA). reflexivity.
  - apply fill_inv in H as (pool & mint & vault & auth & src & w & w' & HA & Hp & _ & _ & _ & _ & _ & Hd & _ & _ & _ & Hf & Ht).
    eapply evolves_transfer; [|exact Ht]. apply evolves_put_pool with w; [apply evolves_refl|split; assumption|].
    eapply fill_keeps; exact Hf.
  - apply init_mining_inv in H as (pool & mining & payer & bump & L1 & _ & _ & _ & _ & _ & Hc & ->).
    apply evolves_put_mining. eapply evolves_create; [apply evolves_refl|exact Hc].
  - apply deposit_inv in H as (pool & mining & auth & dm & w & m & w' & m' & d' & HA & Hc & _ & _ & H & ->).
    apply evolves_put_dlg, evolves_put_mining, evolves_put_pool with w; [apply evolves_refl|split; apply Hc|].
    apply stake_only_keeps. eapply deposit_frame; exact H.
  - apply withdraw_inv in H as (pool & mining & auth & dm & w & m & w' & m' & d' & HA & Hc & _ & _ & H & ->).
    apply evolves_put_dlg, evolves_put_mining, evolves_put_pool with w; [apply evolves_refl|split; apply Hc|].
    apply stake_only_keeps. eapply withdraw_frame; exact H.
  - inv_bind H. destruct a as [L1 n]. injection H as <- <-.
    apply wide_claim_inv in E as (pool & mint & vault & mining & owner & auth & dest & w & m & m1 &
      _ & _ & Ho & _ & _ & _ & _ & Hm & _ & _ & _ & Hr & H). cbv zeta in H.
    match type of H with L1 = ?X \/ _ => assert (EX : evolves e S L X) end.
    { apply evolves_put_wide; [exact Ho|apply evolves_refl|]. intros x Hx.
      apply refresh_id in Hr as [(I1 & _) _]. cbn [wm mining_claim set_rewards m_pool]. rewrite I1.
      eapply load_wide_id; eassumption. }
    destruct H as [->|[k H]]; [exact EX|]. eapply evolves_transfer; [exact EX|exact H].
  - apply extend_inv in H as (pool & mining & auth & dm & w & m & w' & m' & d' & HA & Hc & _ & _ & H & ->).
    apply evolves_put_dlg, evolves_put_mining, evolves_put_pool with w; [apply evolves_refl|split; apply Hc|].
    apply stake_only_keeps. eapply extend_frame; exact H.
  - apply distribute_inv in H as (pool & auth & w & n & w' & _ & Ho & _ & Hd & _ & _ & H & ->).
    apply evolves_put_pool with w; [apply evolves_refl|split; assumption|]. eapply distribute_keeps; exact H.
  - apply wide_close_inv in H as (mining & owner & target & auth & pool & w & m & m1 & lam &
      _ & _ & _ & _ & _ & _ & _ & _ & _ & _ & _ & _ & _ & _ & ->).
    apply evolves_ins; [apply evolves_put_lam, evolves_refl|]. intros x. apply zeros_pool.
  - apply wide_change_inv in H as (pool & mining & auth & owner & od & nd & w & m & w' & m' & o' & n' &
      _ & Hc & Hod & _ & _ & H & ->).
    pose proof (change_frame _ _ _ _ _ _ _ _ _ _ H) as (Hw & _ & Fo & _).
    apply evolves_put_dlg.
    assert (E1 : evolves e S L (put_mining (put_pool L pool w') mining m')).
    { apply evolves_put_mining, evolves_put_pool with w; [apply evolves_refl|split; apply Hc|]. apply stake_only_keeps, Hw. }
    destruct o' as [o'|]; [|exact E1]. cbn [put_wide]. unfold wide_dlg in Fo.
    destruct (Z.eqb_spec od pool) as [|Hp]; [destruct Fo|]. destruct (Z.eqb_spec mining od) as [|Hmo]; [destruct Fo|].
    destruct (load_wide j (a_data (acc L od))) as [y|] eqn:Ey; [|destruct Fo].
    assert (Es : acc (put_mining (put_pool L pool w') mining m') od = acc L od).
    { unfold put_mining, put_pool. rewrite !acc_put_data_ne by congruence. reflexivity. }
    rewrite Es. apply evolves_put_wide; [exact Hod|exact E1|]. intros x Hx.
    destruct Fo as (I1 & _). rewrite I1. eapply load_wide_id; [exact Ey|exact Hx].
  - apply slash_inv in H as (auth & pool & mining & w & m & w' & m' & HA & Hc & H & ->).
    apply evolves_put_mining, evolves_put_pool with w; [apply evolves_refl|split; apply Hc|].
    apply stake_only_keeps. eapply slash_frame; exact H.
  - apply decrease_inv in H as (auth & pool & mining & w & m & m' & _ & _ & _ & ->).
    apply evolves_put_mining, evolves_refl.
Qed.

Lemma external_evolves e S L L' : external e L L' -> evolves e S L L'.
Proof.
  intros H k x' [Ho Hd]. destruct (H k) as (_ & Hours & Hnot). unfold owner_of, data_of in *.
  destruct (Z.eq_dec (a_owner (acc L k)) (program_id e)) as [E|E].
  - destruct (Hours E) as [(_ & Ed & _)|[_ Ee]].
    + left. exists x'. split; [split; [exact E|]|split; [reflexivity|auto]]. unfold data_of. rewrite <- Ed. exact Hd.
    + rewrite Ee in Hd. discriminate Hd.
  - right. left. apply all_zero_pool. rewrite <- Hd. apply Hnot; assumption.
Qed.

Lemma made_step ev evs a : made_authority evs a -> made_authority (ev :: evs) a.
Proof. intros (ts & ms & f & d & Hin & Ha). exists ts, ms, f, d. split; [right; exact Hin|exact Ha]. Qed.

Lemma wide_run_pools e evs : forall (S : pubkey -> Prop) now L now' L', wide_run e now L evs now' L' -> pools_from e S L ->
  pools_from e (fun a => S a \/ made_authority evs a) L'.
Proof.
  induction evs as [|ev evs IH]; intros S now L now' L' R H; inversion R as [|? ? ? L1 ? ? ? Hs R']; subst.
  - intros k x Hx. destruct (H k x Hx) as [[A|A] B]; (split; [|exact B]); [left|right; left]; exact A.
  - assert (E : evolves e (fun a => S a \/ made_authority (ev :: evs) a) L L1).
    { destruct Hs as [j ts ms i L1 r _ _ _ Hx|ts L1 _ _ Hx]; [|apply external_evolves; exact Hx].
      apply wide_exec_inv in Hx as [Hx _]. eapply wide_evolves; [exact Hx|]. intros f d a -> Ha. right.
      exists ts, ms, f, d. split; [left; reflexivity|exact Ha]. }
    assert (H1 : pools_from e (fun a => S a \/ made_authority (ev :: evs) a) L1).
    { eapply evolves_from; [exact E|]. intros k x Hx. destruct (H k x Hx) as [[A|A] B]; (split; [|exact B]); [left|right; left]; exact A. }
    pose proof (IH _ _ _ _ _ R' H1) as H2. intros k x Hx. destruct (H2 k x Hx) as [A B]. split; [|exact B].
    destruct A as [A|[A|A]]; [left; exact A|right; exact A|right; right; apply made_step; exact A].
Qed.
Lemma wide_pools e evs now L now' L' k x : genesis e L -> wide_run e now L evs now' L' -> is_pool e L' k x ->
  (p_deposit_auth (wp x) = 0 \/ made_authority evs (p_deposit_auth (wp x))) /\ ascending (wp_ci x).
Proof.
  intros G R Hx.
  assert (G0 : pools_from e (fun _ => False) L).
  { intros q y [Ho Hd]. destruct (G q) as [_ Gq]. specialize (Gq Ho). unfold data_of in Hd. rewrite Hd in Gq.
    apply all_zero_pool in Gq as ->. split; [left; reflexivity|exact I]. }
  destruct (wide_run_pools e evs _ _ _ _ _ R G0 k x Hx) as [[A|[[]|A]] B]; split; auto.
Qed.

Lemma claims_are_real e evs now L now' L' j ts ms L'' r P :
  genesis e L -> wide_run e now L evs now' L' -> P <> 0 -> ~ made_authority evs P ->
  wide_exec j e ts ms Claim L' = Ok (L'', r) -> account_at ms 0 P ->
  (exists k m, account_at ms 3 k /\ is_mining e L' k m /\ m_pool (wm m) = P) /\
  exec e ts ms Claim L' = Ok (L'', r).
Proof.
  intros G R HP Hno Hx Ha. pose proof Hx as Hx'. apply wide_exec_inv in Hx as [H _]. cbn [wide_process] in H.
  inv_bind H. destruct a as [L1 n]. injection H as -> <-.
  apply wide_claim_inv in E as (pool & mint & vault & mining & owner & auth & dest & w & m & m1 &
    HA & _ & Ho & _ & _ & _ & _ & Hm & _ & Hpm & _).
  pose proof (at_list _ _ _ _ HA Ha ltac:(cbn; lia)) as Ek. injection Ek as ->.
  assert (Hk : account_at ms 3 mining) by (apply (list_at _ _ _ _ HA); reflexivity).
  assert (Hd : data_of L' mining = DMining m).
  { destruct (data_of L' mining) as [|z|x|y|t| |z] eqn:Ed; cbn [load_wide] in Hm.
    - destruct (_ <? _); inv. cbn in HP. contradiction.
    - destruct (_ <? _); inv. cbn in HP. contradiction.
    - exfalso. pose proof (load_wide_id j (DPool x) m x Hm eq_refl) as Hi.
      destruct (wide_pools _ _ _ _ _ _ mining x G R (conj Ho Ed)) as [[A|A] _]; [congruence|].
      apply Hno. rewrite Hpm, Hi. exact A.
    - congruence.
    - destruct (_ <? _); inv. cbn in HP. contradiction.
    - destruct (_ <? _); inv. cbn in HP. contradiction.
    - destruct (_ <? _); inv. cbn in HP. contradiction. }
  split; [exists mining, m; split; [exact Hk|split; [split; assumption|congruence]]|].
  rewrite <- (otherwise_same j); [exact Hx'|]. intros k (p & Hp & Hk'). injection Hp as <-.
  unfold account_at in *. rewrite Hk in Hk'. injection Hk' as <-. left. exists m. exact Hd.
Qed.

(** ** With a total that is a multiple of 2^32 nothing is left open *)
Lemma load_wide_clean j j' x : p_total (wp x) mod 4294967296 = 0 -> load_wide j (DPool x) = load_wide j' (DPool x).
Proof. intros H. cbn [load_wide]. unfold root_of, U32. rewrite H. reflexivity. Qed.
Lemma store_wide_clean j j' x m : p_total (wp x) mod 4294967296 = 0 -> store_wide j (DPool x) m = store_wide j' (DPool x) m.
Proof. intros H. cbn [store_wide]. unfold root_of, U32. rewrite H. reflexivity. Qed.

Lemma nothing_open j j' e ts ms i L k x :
  gives ms i k -> is_pool e L k x -> p_total (wp x) mod 4294967296 = 0 ->
  wide_exec j e ts ms i L = wide_exec j' e ts ms i L.
Proof.
  intros (p & Hp & Hk) [_ Hx] Ht. unfold wide_exec.
  enough (wide_process j e ts ms i L = wide_process j' e ts ms i L) as -> by exact eq_refl. unfold data_of in Hx.
  destruct i; try discriminate Hp; injection Hp as <-; cbn [wide_process].
  - match goal with |- rbind ?a ?f = rbind ?b ?f => enough (a = b) as -> by exact eq_refl end. unfold wide_claim.
    apply rbind_ext; intros [pool i1] E1. apply rbind_ext; intros [mint i2] E2.
    apply rbind_ext; intros [vault i3] E3. apply rbind_ext; intros [mining i4] E4.
    assert (mining = k) as -> by (repeat ldr1; subst; injection Hk as <-; reflexivity).
    rewrite Hx, (load_wide_clean j j' x Ht). clear E1 E2 E3 E4. do 4 (apply rbind_ext; intros [? ?] _).
    do 11 (apply rbind_ext; intros ? _). cbv zeta. rewrite (store_wide_clean j j' x _ Ht). exact eq_refl.
  - match goal with |- no_ret ?a = no_ret ?b => enough (a = b) as -> by exact eq_refl end. unfold wide_close.
    apply rbind_ext; intros [mining i1] E1.
    assert (mining = k) as -> by (repeat ldr1; subst; injection Hk as <-; reflexivity).
    rewrite Hx, (load_wide_clean j j' x Ht). exact eq_refl.
  - match goal with |- no_ret ?a = no_ret ?b => enough (a = b) as -> by exact eq_refl end. unfold wide_change.
    apply rbind_ext; intros [pool i1] E1. apply rbind_ext; intros [mining i2] E2.
    apply rbind_ext; intros [auth i3] E3. apply rbind_ext; intros [owner i4] E4.
    apply rbind_ext; intros [od i5] E5. apply rbind_ext; intros [nd i6] E6.
    assert (od = k) as -> by (repeat ldr1; subst; injection Hk as <-; reflexivity). clear E1 E2 E3 E4 E5 E6.
    do 2 (apply rbind_ext; intros _ _). apply rbind_ext; intros [w m] _. apply rbind_ext; intros _ _.
    assert (E : wide_dlg j L k mining pool = wide_dlg j' L k mining pool).
    { unfold wide_dlg. rewrite Hx, (load_wide_clean j j' x Ht). reflexivity. }
    rewrite E. apply rbind_ext. intros [[[w' m'] o] nd'] H. f_equal. f_equal.
    destruct o as [o|]; [|reflexivity]. cbn [put_wide]. f_equal.
    apply change_frame in H as (_ & _ & H & _). unfold wide_dlg in H.
    destruct (Z.eqb_spec k pool); [destruct H|]. destruct (Z.eqb_spec mining k); [destruct H|].
    unfold put_mining, put_pool. rewrite !acc_put_data_ne by congruence. rewrite Hx. apply store_wide_clean. exact Ht.
Qed.

Lemma run_is_wide e evs : forall now L now' L', run e now L evs now' L' -> wide_run e now L evs now' L'.
Proof.
  induction evs as [|ev evs IH]; intros now L now' L' R; inversion R as [|? ? ? L1 ? ? ? Hs R']; subst; [constructor|].
  econstructor; [|apply IH; exact R']. destruct Hs as [ts ms i L1 r Hn Ht Hi Hx|ts L1 Hn Ht Hx]; [|constructor; assumption].
  apply (wide_ix e now L (Junk (fun _ => Err EPanic) (fun w _ => (wp w, wp_diffs w)) (fun _ => zero_wmining)) ts ms i L1 r); try assumption.
  apply exec_wide. exact Hx.
Qed.
Lemma wide_app e a : forall now L now1 L1 b now2 L2,
  wide_run e now L a now1 L1 -> wide_run e now1 L1 b now2 L2 -> wide_run e now L (a ++ b) now2 L2.
Proof.
  induction a as [|ev a IH]; intros now L now1 L1 b now2 L2 H1 H2; inversion H1; subst; [exact H2|].
  cbn [app]. econstructor; [eassumption|]. eapply IH; eassumption.
Qed.
