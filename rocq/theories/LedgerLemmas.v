(** Inversion of the twelve processors. *)
From stdpp Require Import gmap.
From Verif Require Import Base OMap State Ledger Program ResLemmas.

(** ** Vocabulary used in statements *)

(** the first accounts of the instruction are [ks] *)
Definition accounts_are (ms : list meta) (ks : list pubkey) : Prop :=
  exists rest, map mt_key ms = ks ++ rest.

(** somebody signed for [k] *)
Definition signed (ms : list meta) (k : pubkey) : Prop :=
  exists m, In m ms /\ mt_key m = k /\ mt_signer m = true.
Definition writable (ms : list meta) (k : pubkey) : Prop :=
  exists m, In m ms /\ mt_key m = k /\ mt_writable m = true.

Definition owner_of (L : ledger) (k : pubkey) : pubkey := a_owner (acc L k).
Definition data_of (L : ledger) (k : pubkey) : adata := a_data (acc L k).

Lemma is_signer_ok ms k : is_signer ms k = true <-> signed ms k.
Proof.
  unfold is_signer, signed. rewrite existsb_exists. split.
  - intros (m & Hin & E). apply andb_true_iff in E as [E1 E2]. apply Z.eqb_eq in E1. eauto.
  - intros (m & Hin & E1 & E2). exists m. split; [assumption|].
    rewrite E1, Z.eqb_refl, E2. reflexivity.
Qed.
Lemma is_writable_ok ms k : is_writable ms k = true <-> writable ms k.
Proof.
  unfold is_writable, writable. rewrite existsb_exists. split.
  - intros (m & Hin & E). apply andb_true_iff in E as [E1 E2]. apply Z.eqb_eq in E1. eauto.
  - intros (m & Hin & E1 & E2). exists m. split; [assumption|].
    rewrite E1, Z.eqb_refl, E2. reflexivity.
Qed.

(** ** Ledger updates *)
Lemma acc_insert L k a : acc (<[k := a]> L) k = a.
Proof. unfold acc, ledger in *. rewrite lookup_insert. reflexivity. Qed.
Lemma acc_insert_ne L k k' a : k <> k' -> acc (<[k := a]> L) k' = acc L k'.
Proof. intros. unfold acc, ledger in *. rewrite lookup_insert_ne by assumption. reflexivity. Qed.

Lemma data_put L k d : data_of (put_data L k d) k = d.
Proof. unfold data_of, put_data. rewrite acc_insert. reflexivity. Qed.
Lemma acc_put_data_ne L k k' d : k <> k' -> acc (put_data L k d) k' = acc L k'.
Proof. intros. unfold put_data. apply acc_insert_ne. assumption. Qed.
Lemma owner_put L k d k' : owner_of (put_data L k d) k' = owner_of L k'.
Proof.
  unfold owner_of, put_data. destruct (Z.eq_dec k k') as [->|].
  - rewrite acc_insert. reflexivity.
  - rewrite acc_insert_ne by assumption. reflexivity.
Qed.
Lemma lamports_put L k d k' : a_lamports (acc (put_data L k d) k') = a_lamports (acc L k').
Proof.
  unfold put_data. destruct (Z.eq_dec k k') as [->|].
  - rewrite acc_insert. reflexivity.
  - rewrite acc_insert_ne by assumption. reflexivity.
Qed.

(** ** Loaders *)
Lemma next_with_owner_ok L o it k r :
  next_with_owner L o it = Ok (k, r) ->
  exists m, it = m :: r /\ mt_key m = k /\ owner_of L k = o.
Proof.
  destruct it as [|m r']; cbn; [discriminate|]. unfold owner_of.
  destruct (Z.eqb_spec (a_owner (acc L (mt_key m))) o); intros H; [|discriminate].
  injection H as <- <-. eauto.
Qed.
Lemma next_signer_ok ms it k r :
  next_signer ms it = Ok (k, r) -> exists m, it = m :: r /\ mt_key m = k /\ signed ms k.
Proof.
  destruct it as [|m r']; cbn; [discriminate|].
  destruct (is_signer ms (mt_key m)) eqn:E; intros H; [|discriminate].
  injection H as <- <-. apply is_signer_ok in E. eauto.
Qed.
Lemma next_with_key_ok x it k r :
  next_with_key x it = Ok (k, r) -> exists m, it = m :: r /\ mt_key m = k /\ k = x.
Proof.
  destruct it as [|m r']; cbn; [discriminate|].
  destruct (Z.eqb_spec (mt_key m) x); intros H; [|discriminate].
  injection H as <- <-. eauto.
Qed.
Lemma next_uninitialized_ok L it k r :
  next_uninitialized L it = Ok (k, r) ->
  exists m, it = m :: r /\ mt_key m = k /\ all_zero (data_of L k) = true.
Proof.
  destruct it as [|m r']; cbn; [discriminate|]. unfold data_of.
  destruct (all_zero (a_data (acc L (mt_key m)))) eqn:E; intros H; [|discriminate].
  injection H as <- <-. eauto.
Qed.
Lemma assert_key_ok k x u : assert_account_key k x = Ok u -> k = x.
Proof. unfold assert_account_key. intros H. apply ensure_ok in H. apply Z.eqb_eq in H. assumption. Qed.
Lemma distinct_ok a b er u : distinct a b er = Ok u -> a <> b.
Proof.
  unfold distinct. intros H. apply ensure_ok in H.
  apply negb_true_iff in H. apply Z.eqb_neq in H. assumption.
Qed.
Lemma pda_ok o k : pda o = Ok k -> o = Some k.
Proof. destruct o; cbn; congruence. Qed.
Lemma load_mining_ok d m : load_mining d = Ok m -> d = DMining m.
Proof. destruct d; cbn; try (destruct (_ <? _)); congruence. Qed.
Lemma load_pool_ok d m : load_pool d = Ok m -> d = DPool m.
Proof. destruct d; cbn; try (destruct (_ <? _)); congruence. Qed.
Lemma load_token_ok d m : load_token d = Ok m -> d = DToken m.
Proof. destruct d; cbn; congruence. Qed.

Ltac linv1 :=
  match goal with
  | H : next_with_owner _ _ _ = Ok _ |- _ => apply next_with_owner_ok in H as (? & ? & ? & ?)
  | H : next_signer _ _ = Ok _ |- _ => apply next_signer_ok in H as (? & ? & ? & ?)
  | H : next_with_key _ _ = Ok _ |- _ => apply next_with_key_ok in H as (? & ? & ? & ?)
  | H : next_uninitialized _ _ = Ok _ |- _ => apply next_uninitialized_ok in H as (? & ? & ? & ?)
  | H : assert_account_key _ _ = Ok _ |- _ => apply assert_key_ok in H
  | H : distinct _ _ _ = Ok _ |- _ => apply distinct_ok in H
  | H : pda _ = Ok _ |- _ => apply pda_ok in H
  | H : load_mining _ = Ok _ |- _ => apply load_mining_ok in H
  | H : load_pool _ = Ok _ |- _ => apply load_pool_ok in H
  | H : load_token _ = Ok _ |- _ => apply load_token_ok in H
  | _ => inv1
  end.
Ltac linv := repeat linv1.

(** what [assert_and_get_pool_and_mining] establishes *)
Record stake_ctx (e : env) (ms : list meta) (L : ledger) (owner pool mining auth : pubkey)
    (w : wpool) (m : wmining) : Prop := {
  sc_pool_owner : owner_of L pool = program_id e;
  sc_mining_owner : owner_of L mining = program_id e;
  sc_signed : signed ms auth;
  sc_pool : data_of L pool = DPool w;
  sc_mining : data_of L mining = DMining m;
  sc_pda : cpa_mining e owner pool (m_bump (wm m)) = Some mining;
  sc_auth : auth = p_deposit_auth (wp w);
  sc_mpool : m_pool (wm m) = pool;
  sc_mowner : m_owner (wm m) = owner;
  sc_ne : mining <> pool }.

Lemma assert_and_get_ok e ms L owner mining pool auth w m :
  owner_of L pool = program_id e -> owner_of L mining = program_id e -> signed ms auth ->
  mining <> pool ->
  assert_and_get e L owner mining pool auth = Ok (w, m) ->
  stake_ctx e ms L owner pool mining auth w m.
Proof.
  intros Hp Hm Hs Hne H. unfold assert_and_get in H. linv.
  constructor; auto.
Qed.

(** a verified delegate account: the mining itself, or a distinct mining at the
    derived address of (delegate, pool) *)
Definition delegate_ok (e : env) (L : ledger) (mining dm delegate pool : pubkey) : Prop :=
  dm = mining \/
  (dm <> mining /\ dm <> pool /\ owner_of L dm = program_id e /\
   exists m, data_of L dm = DMining m /\
     cpa_mining e delegate pool (m_bump (wm m)) = Some dm).

Lemma verify_opt_ok e L dm mining delegate pool u :
  owner_of L dm = program_id e ->
  verify_opt e L dm mining delegate pool = Ok u -> delegate_ok e L mining dm delegate pool.
Proof.
  unfold verify_opt, verify_delegate, delegate_ok. intros Ho H.
  destruct (Z.eqb_spec mining dm); [left; congruence|]. right. linv.
  destruct (cpa_mining e delegate pool _) eqn:Ec; linv. subst. split; [congruence|]. eauto.
Qed.

Ltac ldr1 :=
  match goal with
  | H : next_with_owner _ _ _ = Ok _ |- _ => apply next_with_owner_ok in H as (? & ? & ? & ?)
  | H : next_signer _ _ = Ok _ |- _ => apply next_signer_ok in H as (? & ? & ? & ?)
  | H : next_with_key _ _ = Ok _ |- _ => apply next_with_key_ok in H as (? & ? & ? & ?)
  | H : next_uninitialized _ _ = Ok _ |- _ => apply next_uninitialized_ok in H as (? & ? & ? & ?)
  end.
Ltac ldr := repeat ldr1; subst.
Ltac accts := unfold accounts_are; eexists; cbn [map];
  repeat match goal with
         | H : mt_key _ = spl_token_id _ |- _ => rewrite H; clear H
         | H : mt_key _ = rent_id _ |- _ => rewrite H; clear H
         | H : mt_key _ = system_id |- _ => rewrite H; clear H
         end; reflexivity.

Lemma deposit_inv e ts ms L amount p owner delegate L' :
  process_deposit e ts ms L amount p owner delegate = Ok L' ->
  exists pool mining auth dm w m w' m' d',
    accounts_are ms [pool; mining; auth; dm] /\
    stake_ctx e ms L owner pool mining auth w m /\
    delegate_ok e L mining dm delegate pool /\ owner_of L dm = program_id e /\
    deposit ts w m amount p (dlg_of L dm mining) = Ok (w', m', d') /\
    L' = put_dlg (put_mining (put_pool L pool w') mining m') dm d'.
Proof.
  unfold process_deposit. intros H. inv. ldr.
  do 9 eexists. split; [accts|]. repeat linv1.
  split; [eapply assert_and_get_ok; eauto|].
  split; [eapply verify_opt_ok; eauto|]. eauto.
Qed.

Lemma withdraw_inv e ts ms L amount owner delegate L' :
  process_withdraw e ts ms L amount owner delegate = Ok L' ->
  exists pool mining auth dm w m w' m' d',
    accounts_are ms [pool; mining; auth; dm] /\
    stake_ctx e ms L owner pool mining auth w m /\
    delegate_ok e L mining dm delegate pool /\ owner_of L dm = program_id e /\
    withdraw ts w m amount (dlg_of L dm mining) = Ok (w', m', d') /\
    L' = put_dlg (put_mining (put_pool L pool w') mining m') dm d'.
Proof.
  unfold process_withdraw. intros H. inv. ldr.
  do 9 eexists. split; [accts|]. repeat linv1.
  split; [eapply assert_and_get_ok; eauto|].
  split; [eapply verify_opt_ok; eauto|]. eauto.
Qed.

Lemma extend_inv e ts ms L op np st b a owner delegate L' :
  process_extend e ts ms L op np st b a owner delegate = Ok L' ->
  exists pool mining auth dm w m w' m' d',
    accounts_are ms [pool; mining; auth; dm] /\
    stake_ctx e ms L owner pool mining auth w m /\
    delegate_ok e L mining dm delegate pool /\ owner_of L dm = program_id e /\
    extend ts w m op np st b a (dlg_of L dm mining) = Ok (w', m', d') /\
    L' = put_dlg (put_mining (put_pool L pool w') mining m') dm d'.
Proof.
  unfold process_extend. intros H. inv. ldr.
  do 9 eexists. split; [accts|]. repeat linv1.
  split; [eapply assert_and_get_ok; eauto|].
  split; [eapply verify_opt_ok; eauto|]. eauto.
Qed.

Lemma old_dlg_ok ts w m nd L dm mining pool a r :
  change_delegate ts w m nd (old_dlg L dm mining pool) a = Ok r ->
  dm <> pool /\ old_dlg L dm mining pool = dlg_of L dm mining.
Proof.
  unfold old_dlg. destruct (Z.eqb_spec dm pool) as [->|Hne]; [|split; auto].
  unfold change_delegate, delegate_sub. destruct (refresh ts (wp_ci w) m); discriminate.
Qed.

Lemma change_inv e ts ms L amount new_delegate L' :
  process_change_delegate e ts ms L amount new_delegate = Ok L' ->
  exists pool mining auth owner old_dm new_dm w m w' m' od nd,
    accounts_are ms [pool; mining; auth; owner; old_dm; new_dm] /\
    stake_ctx e ms L owner pool mining auth w m /\ signed ms owner /\
    delegate_ok e L mining new_dm new_delegate pool /\
    owner_of L old_dm = program_id e /\ owner_of L new_dm = program_id e /\
    new_dm <> old_dm /\ old_dm <> pool /\
    change_delegate ts w m (dlg_of L new_dm mining) (dlg_of L old_dm mining) amount
      = Ok (w', m', od, nd) /\
    L' = put_dlg (put_dlg (put_mining (put_pool L pool w') mining m') old_dm od) new_dm nd.
Proof.
  unfold process_change_delegate. intros H. inv. ldr.
  match goal with H : change_delegate _ _ _ _ _ _ = Ok _ |- _ =>
    destruct (old_dlg_ok _ _ _ _ _ _ _ _ _ _ H) as [Hne Heq]; rewrite Heq in H end.
  do 12 eexists. split; [accts|]. repeat linv1.
  split; [eapply assert_and_get_ok; eauto|].
  split; [eauto|]. split; [eapply verify_opt_ok; eauto|]. eauto 10.
Qed.

Lemma slash_inv e ts ms L owner n wt dt L' :
  process_slash e ts ms L owner n wt dt = Ok L' ->
  exists auth pool mining w m w' m',
    accounts_are ms [auth; pool; mining] /\
    stake_ctx e ms L owner pool mining auth w m /\
    slash ts w m n wt dt = Ok (w', m') /\
    L' = put_mining (put_pool L pool w') mining m'.
Proof.
  unfold process_slash. intros H. inv. ldr.
  do 7 eexists. split; [accts|]. repeat linv1.
  split; [eapply assert_and_get_ok; eauto|]. eauto.
Qed.

Lemma decrease_inv e ms L owner n L' :
  process_decrease e ms L owner n = Ok L' ->
  exists auth pool mining w m m',
    accounts_are ms [auth; pool; mining] /\
    stake_ctx e ms L owner pool mining auth w m /\
    decrease_rewards n m = Ok m' /\
    L' = put_mining L mining m'.
Proof.
  unfold process_decrease. intros H. inv. ldr.
  do 6 eexists. split; [accts|]. repeat linv1.
  split; [eapply assert_and_get_ok; eauto|]. eauto.
Qed.

Lemma distribute_inv e ts ms L L' :
  process_distribute e ts ms L = Ok L' ->
  exists pool auth w r w',
    accounts_are ms [pool; auth] /\ owner_of L pool = program_id e /\ signed ms auth /\
    data_of L pool = DPool w /\ auth = p_distribute_auth (wp w) /\
    rewards_to_distribute ts (wp w) = Ok r /\ distribute ts r w = Ok w' /\
    L' = put_pool L pool w'.
Proof.
  unfold process_distribute. intros H. inv. ldr.
  do 5 eexists. split; [accts|]. linv. eauto 10.
Qed.

(** SPL transfer *)
Lemma spl_transfer_inv ms L src dst auth amount L' :
  spl_transfer ms L src dst auth amount = Ok L' ->
  exists s d, data_of L src = DToken s /\ data_of L dst = DToken d /\
    writable ms src /\ writable ms dst /\ signed ms auth /\
    amount <= t_amount s /\ t_mint s = t_mint d /\ t_owner s = auth /\
    ((src = dst /\ L' = L) \/
     (src <> dst /\ t_amount d + amount < U64 /\
      L' = put_data (put_data L src (DToken (Token (t_mint s) (t_owner s) (t_amount s - amount))))
             dst (DToken (Token (t_mint d) (t_owner d) (t_amount d + amount))))).
Proof.
  unfold spl_transfer. intros H. inv.
  repeat match goal with
  | H : load_token _ = Ok _ |- _ => apply load_token_ok in H
  | H : is_signer _ _ = true |- _ => apply is_signer_ok in H
  | H : is_writable _ _ = true |- _ => apply is_writable_ok in H
  end.
  do 2 eexists. split; [eassumption|]. split; [eassumption|].
  do 6 (split; [assumption|]).
  destruct (Z.eqb_spec src dst); inv; [left; auto|right; auto].
Qed.

Lemma fill_inv e ts ms L r x L' :
  process_fill_vault e ts ms L r x = Ok L' ->
  exists pool mint vault auth source w w',
    accounts_are ms [pool; mint; vault; auth; source; spl_token_id e] /\
    owner_of L pool = program_id e /\ owner_of L mint = spl_token_id e /\
    owner_of L vault = spl_token_id e /\ owner_of L source = spl_token_id e /\
    signed ms auth /\ r <> 0 /\ data_of L pool = DPool w /\ auth = p_fill_auth (wp w) /\
    cpa_vault e pool mint (p_bump (wp w)) = Some vault /\ auth <> pool /\
    fill_pool ts r x w = Ok w' /\
    spl_transfer ms (put_pool L pool w') source vault auth r = Ok L'.
Proof.
  unfold process_fill_vault. intros H. inv. ldr.
  do 7 eexists. split; [accts|]. linv. subst. repeat (split; [eassumption || reflexivity || (symmetry; eassumption)|]). assumption.
Qed.

Lemma claim_inv e ts ms L L' amount :
  process_claim e ts ms L = Ok (L', amount) ->
  exists pool mint vault mining owner auth dest w m m1 t,
    accounts_are ms [pool; mint; vault; mining; owner; auth; dest; spl_token_id e] /\
    owner_of L pool = program_id e /\ owner_of L mint = spl_token_id e /\
    owner_of L vault = spl_token_id e /\ owner_of L mining = program_id e /\
    owner_of L dest = spl_token_id e /\
    signed ms owner /\ signed ms auth /\
    data_of L dest = DToken t /\ t_owner t = owner /\
    data_of L pool = DPool w /\ auth = p_deposit_auth (wp w) /\
    data_of L mining = DMining m /\ m_owner (wm m) = owner /\ m_pool (wm m) = pool /\
    mining <> pool /\
    cpa_vault e pool mint (p_bump (wp w)) = Some vault /\
    refresh ts (wp_ci w) m = Ok m1 /\ amount = m_unclaimed (wm m1) /\
    let L1 := put_mining L mining (WMining (mining_claim (wm m1)) (wm_diffs m1)) in
    ((amount <= 0 /\ L' = L1) \/
     (0 < amount /\ spl_transfer ms L1 vault dest auth amount = Ok L')).
Proof.
  unfold process_claim. intros H. cbv zeta. inv.
  repeat ldr1. linv. subst.
  do 11 eexists. split; [accts|]. repeat (split; [eassumption || reflexivity || (symmetry; eassumption)|]).
  match goal with H : (if ?b then _ else _) = Ok _ |- _ => destruct b eqn:Eb end; inv.
  - right. split; [assumption|]. assumption.
  - left. split; [assumption|reflexivity].
Qed.

Lemma close_inv e ts ms L L' :
  process_close e ts ms L = Ok L' ->
  exists mining owner target auth pool w m m1,
    accounts_are ms [mining; owner; target; auth; pool] /\
    owner_of L mining = program_id e /\ owner_of L target = system_id /\
    owner_of L pool = program_id e /\
    signed ms owner /\ signed ms auth /\
    data_of L pool = DPool w /\ auth = p_deposit_auth (wp w) /\
    mining <> pool /\ data_of L mining = DMining m /\ m_owner (wm m) = owner /\
    refresh ts (wp_ci w) m = Ok m1 /\ m_sfo (wm m1) <= 0 /\ m_unclaimed (wm m1) = 0 /\
    a_lamports (acc L target) + a_lamports (acc L mining) < U64 /\
    L' = <[mining := Account 0 (owner_of L mining) (DMining zero_wmining)]>
           (put_lamports L target (a_lamports (acc L target) + a_lamports (acc L mining))).
Proof.
  unfold process_close. intros H. inv. repeat ldr1. linv. subst.
  do 8 eexists. split; [accts|]. repeat (split; [eassumption || reflexivity || (symmetry; eassumption)|]). reflexivity.
Qed.

Lemma create_account_inv ms L from to lam space owner L' :
  create_account ms L from to lam space owner = Ok L' ->
  writable ms from /\ writable ms to /\ signed ms from /\
  a_lamports (acc L to) = 0 /\ owner_of L to = system_id /\ data_len (data_of L to) = 0 /\
  owner_of L from = system_id /\ data_len (data_of L from) = 0 /\ from <> to /\
  lam <= a_lamports (acc L from) /\
  L' = <[to := Account lam owner (zeros space)]>
         (put_lamports L from (a_lamports (acc L from) - lam)).
Proof.
  unfold create_account. intros H. inv.
  repeat match goal with
  | H : is_signer _ _ = true |- _ => apply is_signer_ok in H
  | H : is_writable _ _ = true |- _ => apply is_writable_ok in H
  end.
  repeat (split; [assumption|]). reflexivity.
Qed.

Lemma initialize_account_inv ms L account mint auth L' :
  initialize_account ms L account mint auth = Ok L' ->
  writable ms account /\ data_of L account = DZeros TOKEN_LEN /\ data_of L mint = DMint /\
  L' = put_data L account (DToken (Token mint auth 0)).
Proof.
  unfold initialize_account, data_of. intros H. inv. apply is_writable_ok in E.
  destruct (a_data (acc L account)); try discriminate.
  destruct (a_data (acc L mint)); try discriminate. inv. subst. repeat split; auto.
Qed.

Lemma init_pool_inv e ms L f d L' :
  process_initialize_pool e ms L f d = Ok L' ->
  exists pool mint vault payer auth bump w L1 L2,
    accounts_are ms [pool; mint; vault; payer; auth; rent_id e; spl_token_id e; system_id] /\
    owner_of L pool = program_id e /\ owner_of L mint = spl_token_id e /\
    all_zero (data_of L vault) = true /\ signed ms payer /\ signed ms auth /\
    data_of L pool = DPool w /\ p_type (wp w) <> TYPE_POOL /\
    find_vault e pool mint = (vault, bump) /\ payer <> pool /\ auth <> pool /\
    create_account ms L payer vault (rent_min e TOKEN_LEN) TOKEN_LEN (spl_token_id e) = Ok L1 /\
    initialize_account ms L1 vault mint auth = Ok L2 /\
    L' = put_pool L2 pool (WPool (pool_initialize bump auth d f mint) [] []).
Proof.
  unfold process_initialize_pool. intros H. inv.
  match type of H with context [find_vault ?a ?b ?c] => destruct (find_vault a b c) as [vk bump] eqn:Ev end.
  linv. subst.
  do 9 eexists. split; [accts|]. unfold pool_is_initialized in *.
  repeat match goal with H : (_ =? _) = false |- _ => apply Z.eqb_neq in H end.
  repeat (split; [eassumption || reflexivity || (symmetry; eassumption)|]). reflexivity.
Qed.

Lemma init_mining_inv e ms L owner L' :
  process_initialize_mining e ms L owner = Ok L' ->
  exists pool mining payer bump L1,
    accounts_are ms [pool; mining; payer; system_id] /\
    owner_of L pool = program_id e /\ all_zero (data_of L mining) = true /\
    signed ms payer /\ find_mining e owner pool = (mining, bump) /\
    create_account ms L payer mining (rent_min e MINING_LEN) MINING_LEN (program_id e) = Ok L1 /\
    L' = put_mining L1 mining (WMining (mining_initialize pool owner bump) []).
Proof.
  unfold process_initialize_mining. intros H. inv.
  match type of H with context [find_mining ?a ?b ?c] => destruct (find_mining a b c) as [vk bump] eqn:Ev end.
  linv. subst.
  do 5 eexists. split; [accts|]. repeat (split; [eassumption || reflexivity || (symmetry; eassumption)|]). reflexivity.
Qed.

(** ** exec *)
Lemma exec_inv e ts ms i L L' r :
  exec e ts ms i L = Ok (L', r) ->
  process e ts ms i L = Ok (L', r) /\
  forall k, In k (map mt_key ms) -> writable ms k \/ acc L' k = acc L k.
Proof.
  unfold exec. intros H. inv. split; [assumption|].
  unfold readonly_ok in *. intros k Hk. apply in_map_iff in Hk as (m & <- & Hm).
  match goal with H : forallb _ _ = true |- _ => rewrite forallb_forall in H; specialize (H m Hm) as Hw end.
  apply orb_true_iff in Hw as [Hw|Hw]; [left; apply is_writable_ok; assumption|].
  right. apply bool_decide_eq_true in Hw. congruence.
Qed.

Lemma no_ret_ok r L o : no_ret r = Ok (L, o) -> r = Ok L /\ o = None.
Proof. unfold no_ret. intros H. inv. auto. Qed.
