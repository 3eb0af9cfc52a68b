(** Calls made in two parts: from the methods to the ledger (claim C61). *)
From stdpp Require Import gmap.
From Verif Require Import Base OMap State Spec EffectSpec Ledger Program LedgerLemmas LedgerSpec CodecLemmas History HistoryLemmas HistoryThms
  SuccessSpec ResLemmas FrameLemmas WfLemmas EffectMethods ReachThms Clients ClientSpec ClientLemmas LedgerCoreThms AccessLemmas
  Determined SplitSpec Split.

(** ** Ledgers *)
Lemma put_put L k d d' : put_data (put_data L k d) k d' = put_data L k d'.
Proof. unfold put_data. rewrite acc_insert. cbn [a_lamports a_owner]. apply insert_insert. Qed.
Lemma put_comm L k d k' d' : k <> k' -> put_data (put_data L k d) k' d' = put_data (put_data L k' d') k d.
Proof.
  intros N. unfold put_data at 1 3. rewrite !acc_put_data_ne by congruence. unfold put_data. apply insert_commute. congruence.
Qed.

(** ** What the stake calls read before they act *)
(** deposit_mining.rs 13-38, withdraw_mining.rs 13-39 *)
Definition stake_pre (e : env) (ms : list meta) (L : ledger) (owner delegate : pubkey)
  : res (pubkey * pubkey * pubkey * wpool * wmining) :=
  let? (pool, it) := next_with_owner L (program_id e) ms in
  let? (mining, it) := next_with_owner L (program_id e) it in
  let? (auth, it) := next_signer ms it in
  let? (dm, it) := next_with_owner L (program_id e) it in
  let? _ := distinct mining pool EPanic in
  let? (w, m) := assert_and_get e L owner mining pool auth in
  let? _ := verify_opt e L dm mining delegate pool in
  Ok (pool, mining, dm, w, m).
(** change_delegate.rs 13-51 *)
Definition change_pre (e : env) (ms : list meta) (L : ledger) (delegate : pubkey)
  : res (pubkey * pubkey * pubkey * pubkey * wpool * wmining) :=
  let? (pool, it) := next_with_owner L (program_id e) ms in
  let? (mining, it) := next_with_owner L (program_id e) it in
  let? (auth, it) := next_signer ms it in
  let? (owner, it) := next_signer ms it in
  let? (old_dm, it) := next_with_owner L (program_id e) it in
  let? (new_dm, it) := next_with_owner L (program_id e) it in
  check? negb (new_dm =? old_dm) else DelegatesAreTheSame in
  let? _ := distinct mining pool EPanic in
  let? (w, m) := assert_and_get e L owner mining pool auth in
  let? _ := verify_opt e L new_dm mining delegate pool in
  let? _ := distinct old_dm pool EPanic in
  Ok (pool, mining, old_dm, new_dm, w, m).
(** penalties/slash.rs 4-39, penalties/decrease_rewards.rs 4-32 *)
Definition penalty_pre (e : env) (ms : list meta) (L : ledger) (owner : pubkey)
  : res (pubkey * pubkey * wpool * wmining) :=
  let? (auth, it) := next_signer ms ms in
  let? (pool, it) := next_with_owner L (program_id e) it in
  let? (mining, it) := next_with_owner L (program_id e) it in
  let? _ := distinct mining pool EPanic in
  let? (w, m) := assert_and_get e L owner mining pool auth in
  Ok (pool, mining, w, m).

Ltac through := repeat match goal with
  | |- ?x = ?x => reflexivity
  | |- rbind ?a _ = rbind (rbind ?a _) _ => destruct a as [?|?]; cbn [rbind]
  | p : (_ * _)%type |- _ => destruct p; cbn [rbind]
  | u : unit |- _ => destruct u
  end.

Lemma deposit_pre e ts ms L a p o d :
  process_deposit e ts ms L a p o d =
  rbind (stake_pre e ms L o d) (fun '(pool, mining, dm, w, m) =>
    let? (w', m', d') := deposit ts w m a p (dlg_of L dm mining) in
    Ok (put_dlg (put_mining (put_pool L pool w') mining m') dm d')).
Proof. unfold process_deposit, stake_pre. through. Qed.
Lemma withdraw_pre e ts ms L a o d :
  process_withdraw e ts ms L a o d =
  rbind (stake_pre e ms L o d) (fun '(pool, mining, dm, w, m) =>
    let? (w', m', d') := withdraw ts w m a (dlg_of L dm mining) in
    Ok (put_dlg (put_mining (put_pool L pool w') mining m') dm d')).
Proof. unfold process_withdraw, stake_pre. through. Qed.
Lemma change_pre_ok e ts ms L a d L' :
  process_change_delegate e ts ms L a d = Ok L' <->
  rbind (change_pre e ms L d) (fun '(pool, mining, old_dm, new_dm, w, m) =>
    let? (w', m', od, nd) := change_delegate ts w m (dlg_of L new_dm mining) (dlg_of L old_dm mining) a in
    Ok (put_dlg (put_dlg (put_mining (put_pool L pool w') mining m') old_dm od) new_dm nd)) = Ok L'.
Proof.
  assert (X : process_change_delegate e ts ms L a d =
    rbind (let? (pool, it) := next_with_owner L (program_id e) ms in
  let? (mining, it) := next_with_owner L (program_id e) it in
  let? (auth, it) := next_signer ms it in
  let? (owner, it) := next_signer ms it in
  let? (old_dm, it) := next_with_owner L (program_id e) it in
  let? (new_dm, it) := next_with_owner L (program_id e) it in
  check? negb (new_dm =? old_dm) else DelegatesAreTheSame in
  let? _ := distinct mining pool EPanic in
  let? (w, m) := assert_and_get e L owner mining pool auth in
  let? _ := verify_opt e L new_dm mining d pool in
  Ok (pool, mining, old_dm, new_dm, w, m)) (fun '(pool, mining, old_dm, new_dm, w, m) =>
    let? (w', m', od, nd) := change_delegate ts w m (dlg_of L new_dm mining) (old_dlg L old_dm mining pool) a in
    Ok (put_dlg (put_dlg (put_mining (put_pool L pool w') mining m') old_dm od) new_dm nd))).
  { unfold process_change_delegate. through. }
  rewrite X. clear X. unfold change_pre.
  repeat match goal with
  | |- rbind (rbind ?a _) _ = _ <-> _ => destruct a as [?|?]; cbn [rbind]; [|split; intros Y; discriminate Y]
  | p : (_ * _)%type |- _ => destruct p
  | u : unit |- _ => destruct u
  end.
  unfold old_dlg, distinct. destruct (_ =? _); cbn [negb ensure rbind]; [|reflexivity].
  unfold change_delegate, delegate_sub.
  match goal with |- context [refresh ?a ?b ?c] => destruct (refresh a b c) end; cbn [rbind]; split; intros Y; discriminate Y.
Qed.
Lemma slash_pre e ts ms L o n x dt :
  process_slash e ts ms L o n x dt =
  rbind (penalty_pre e ms L o) (fun '(pool, mining, w, m) =>
    let? (w', m') := slash ts w m n x dt in Ok (put_mining (put_pool L pool w') mining m')).
Proof. unfold process_slash, penalty_pre. through. Qed.
Lemma decrease_pre e ms L o n :
  process_decrease e ms L o n =
  rbind (penalty_pre e ms L o) (fun '(pool, mining, w, m) =>
    let? m' := decrease_rewards n m in Ok (put_mining L mining m')).
Proof. unfold process_decrease, penalty_pre. through. Qed.

(** ** Reading again after a call *)
(** the accounts of [L'] have the owners they have in [L] *)
Definition same_owners (L L' : ledger) : Prop := forall k, a_owner (acc L' k) = a_owner (acc L k).
Lemma owners_put L L' k d : same_owners L L' -> same_owners L (put_data L' k d).
Proof. intros H x. specialize (H x). pose proof (owner_put L' k d x) as E. unfold owner_of in E. congruence. Qed.
Lemma next_again L L' o it : same_owners L L' -> next_with_owner L' o it = next_with_owner L o it.
Proof. intros H. destruct it as [|m r]; cbn; [reflexivity|]. rewrite H. reflexivity. Qed.
Lemma get_again e L L' o k P auth w m w' m' :
  assert_and_get e L o k P auth = Ok (w, m) -> stake_only w w' -> same_id m m' ->
  a_data (acc L' k) = DMining m' -> a_data (acc L' P) = DPool w' -> assert_and_get e L' o k P auth = Ok (w', m').
Proof.
  intros H (t & ds & ->) (I1 & I2 & I3 & I4 & I5) Hk HP. unfold assert_and_get in *.
  rewrite Hk, HP. cbn [load_mining load_pool rbind].
  destruct (load_mining _) as [m0|]; [|discriminate]. destruct (load_pool _) as [w0|]; [|discriminate]. cbn [rbind] in H.
  inv_bind H. rename E into E1. inv_bind H. rename E into E2. inv_bind H. rename E into E3. inv_bind H. rename E into E4.
  inv_bind H. rename E into E5. injection H as -> ->. repeat match goal with u : unit |- _ => destruct u end.
  rewrite I4, E1. cbn [rbind]. rewrite E2. cbn [rbind wp set_total p_deposit_auth]. rewrite E3. cbn [rbind]. rewrite I1, E4. cbn [rbind].
  rewrite I2, E5. reflexivity.
Qed.
Lemma verify_again e L L' D k d P y :
  verify_opt e L D k d P = Ok tt ->
  dlg_id (dlg_of L D k) y -> (forall x, y = Some x -> a_data (acc L' D) = DMining x) -> verify_opt e L' D k d P = Ok tt.
Proof.
  unfold verify_opt, dlg_of. destruct (k =? D); [auto|]. unfold verify_delegate. intros H Hi Hd.
  destruct (distinct D P EPanic) as [[]|]; [|discriminate]. cbn [rbind] in *.
  destruct (load_mining _) as [m|]; [|discriminate]. cbn [rbind] in H. cbn [dlg_id] in Hi. destruct y as [x|]; [|contradiction].
  rewrite (Hd x eq_refl). cbn [load_mining rbind]. destruct Hi as (_ & _ & _ & -> & _). exact H.
Qed.
Lemma dlg_again L L' D k y :
  dlg_id (dlg_of L D k) y -> (forall x, y = Some x -> a_data (acc L' D) = DMining x) -> dlg_of L' D k = again y.
Proof.
  unfold dlg_of. destruct (k =? D); [destruct y; [contradiction|reflexivity]|]. intros Hi Hd.
  destruct (load_mining (a_data (acc L D))); destruct y as [x|]; cbn [dlg_id] in Hi; try contradiction. rewrite (Hd x eq_refl). reflexivity.
Qed.
Lemma data_put_ne L x y d : y <> x -> a_data (acc (put_data L y d) x) = a_data (acc L x).
Proof. intros N. rewrite acc_put_data_ne by assumption. reflexivity. Qed.
Lemma data_put_eq L x d : a_data (acc (put_data L x d) x) = d.
Proof. exact (data_put L x d). Qed.
Lemma dlg_there L D k y : dlg_id (dlg_of L D k) y -> y <> None -> D <> k.
Proof. unfold dlg_of. destruct (Z.eqb_spec k D) as [->|]; [|congruence]. destruct y; [contradiction|congruence]. Qed.

(** what has been read *)
Lemma stake_facts e ms L o d P k D w m :
  stake_pre e ms L o d = Ok (P, k, D, w, m) ->
  account_at ms 0 P /\ account_at ms 1 k /\ account_at ms 3 D /\ is_pool e L P w /\ is_mining e L k m /\ owner_of L D = program_id e /\
  k <> P /\ (D <> k -> D <> P).
Proof.
  intros H. unfold stake_pre in H. inv. ldr.
  match goal with H : assert_and_get _ _ _ _ _ _ = Ok _ |- _ => unfold assert_and_get in H; inv end. linv. subst.
  unfold account_at, is_pool, is_mining. cbn [map nth_error].
  split; [reflexivity|]. split; [reflexivity|]. split; [reflexivity|]. split; [split; assumption|]. split; [split; assumption|].
  split; [assumption|]. split; [assumption|].
  intros N. match goal with H : verify_opt _ _ _ _ _ _ = Ok _ |- _ => unfold verify_opt in H; rewrite (proj2 (Z.eqb_neq _ _)) in H by congruence;
    unfold verify_delegate in H; inv end. linv. assumption.
Qed.
Lemma change_facts e ms L d P k O N w m :
  change_pre e ms L d = Ok (P, k, O, N, w, m) ->
  account_at ms 0 P /\ account_at ms 1 k /\ account_at ms 4 O /\ account_at ms 5 N /\ is_pool e L P w /\ is_mining e L k m /\
  owner_of L O = program_id e /\ owner_of L N = program_id e /\ k <> P /\ O <> P /\ N <> O /\ (N <> k -> N <> P).
Proof.
  intros H. unfold change_pre in H. inv. ldr.
  match goal with H : assert_and_get _ _ _ _ _ _ = Ok _ |- _ => unfold assert_and_get in H; inv end. linv. subst.
  unfold account_at, is_pool, is_mining. cbn [map nth_error].
  do 4 (split; [reflexivity|]). split; [split; assumption|]. split; [split; assumption|].
  do 4 (split; [assumption|]). split; [match goal with H : negb (_ =? _) = true |- _ => apply negb_true_iff, Z.eqb_neq in H; assumption | _ => assumption end|].
  intros N. match goal with H : verify_opt _ _ _ _ _ _ = Ok _ |- _ => unfold verify_opt in H; rewrite (proj2 (Z.eqb_neq _ _)) in H by congruence;
    unfold verify_delegate in H; inv end. linv. assumption.
Qed.
Lemma penalty_facts e ms L o P k w m :
  penalty_pre e ms L o = Ok (P, k, w, m) ->
  account_at ms 1 P /\ account_at ms 2 k /\ is_pool e L P w /\ is_mining e L k m /\ k <> P.
Proof.
  intros H. unfold penalty_pre in H. inv. ldr.
  match goal with H : assert_and_get _ _ _ _ _ _ = Ok _ |- _ => unfold assert_and_get in H; inv end. linv. subst.
  unfold account_at, is_pool, is_mining. cbn [map nth_error].
  split; [reflexivity|]. split; [reflexivity|]. split; [split; assumption|]. split; [split; assumption|]. assumption.
Qed.

(** the same is read after the call *)
Lemma stake_again e ms L o d P k D w m w' m' y :
  stake_pre e ms L o d = Ok (P, k, D, w, m) -> stake_only w w' -> same_id m m' -> dlg_id (dlg_of L D k) y ->
  let L' := put_dlg (put_mining (put_pool L P w') k m') D y in
  stake_pre e ms L' o d = Ok (P, k, D, w', m') /\ dlg_of L' D k = again y.
Proof.
  intros H Hw Hm Hy L'. pose proof (stake_facts _ _ _ _ _ _ _ _ _ _ H) as (_ & _ & _ & _ & _ & _ & Nk & ND).
  assert (So : same_owners L L').
  { unfold L'. destruct y; cbn [put_dlg]; unfold put_mining, put_pool; repeat apply owners_put; intros ?; reflexivity. }
  assert (Dk : a_data (acc L' k) = DMining m').
  { unfold L'. pose proof (dlg_there _ _ _ _ Hy) as N. destruct y; cbn [put_dlg]; unfold put_mining; [rewrite data_put_ne by (apply N; discriminate)|]; apply data_put_eq. }
  assert (DP : a_data (acc L' P) = DPool w').
  { unfold L'. pose proof (dlg_there _ _ _ _ Hy) as N. destruct y; cbn [put_dlg]; unfold put_mining, put_pool; [rewrite data_put_ne by (apply ND, N; discriminate)|];
      (rewrite data_put_ne by assumption; apply data_put_eq). }
  assert (DD : forall x, y = Some x -> a_data (acc L' D) = DMining x) by (intros x ->; apply data_put_eq).
  clearbody L'. split; [|eapply dlg_again; eassumption].
  unfold stake_pre in *. inv. rewrite !(next_again L L') by assumption.
  repeat match goal with E : next_with_owner L _ ?it = Ok _ |- context [next_with_owner L' _ ?it] => rewrite (next_again L L'), E by assumption; cbn [rbind]
    | E : ?x = Ok _ |- context [?x] => rewrite E; cbn [rbind] end.
  match goal with E : assert_and_get _ _ _ _ _ _ = Ok _ |- _ => rewrite (get_again _ _ _ _ _ _ _ _ _ _ _ E Hw Hm Dk DP); cbn [rbind] end.
  match goal with E : verify_opt _ _ _ _ _ _ = Ok _ |- _ => rewrite (verify_again _ _ _ _ _ _ _ _ E Hy DD) end. reflexivity.
Qed.
Lemma change_again e ms L d P k O N w m w' m' yo yn :
  change_pre e ms L d = Ok (P, k, O, N, w, m) -> stake_only w w' -> same_id m m' ->
  dlg_id (dlg_of L O k) yo -> dlg_id (dlg_of L N k) yn ->
  let L' := put_dlg (put_dlg (put_mining (put_pool L P w') k m') O yo) N yn in
  change_pre e ms L' d = Ok (P, k, O, N, w', m') /\ dlg_of L' O k = again yo /\ dlg_of L' N k = again yn.
Proof.
  intros H Hw Hm Ho Hn L'. pose proof (change_facts _ _ _ _ _ _ _ _ _ _ H) as (_ & _ & _ & _ & _ & _ & _ & _ & Nk & NO & NN & NP).
  assert (So : same_owners L L').
  { unfold L'. destruct yo, yn; cbn [put_dlg]; unfold put_mining, put_pool; repeat apply owners_put; intros ?; reflexivity. }
  pose proof (dlg_there _ _ _ _ Ho) as To. pose proof (dlg_there _ _ _ _ Hn) as Tn.
  assert (Dk : a_data (acc L' k) = DMining m').
  { unfold L'. destruct yo, yn; cbn [put_dlg]; unfold put_mining;
      repeat rewrite data_put_ne by (first [apply To; discriminate|apply Tn; discriminate]); apply data_put_eq. }
  assert (DP : a_data (acc L' P) = DPool w').
  { unfold L'. destruct yo, yn; cbn [put_dlg]; unfold put_mining, put_pool;
      repeat rewrite data_put_ne by (first [assumption|apply NP, Tn; discriminate]); apply data_put_eq. }
  assert (DN : forall x, yn = Some x -> a_data (acc L' N) = DMining x) by (intros x ->; apply data_put_eq).
  assert (DO : forall x, yo = Some x -> a_data (acc L' O) = DMining x).
  { intros x ->. unfold L'. destruct yn; cbn [put_dlg]; unfold put_mining; [rewrite data_put_ne by assumption|]; apply data_put_eq. }
  clearbody L'. split; [|split; eapply dlg_again; eassumption].
  unfold change_pre in *. 
  repeat (inv_bind H; match goal with a : unit |- _ => destruct a | a : (_ * _)%type |- _ => destruct a end). injection H as -> -> -> -> -> ->.
  repeat match goal with E : next_with_owner L _ ?it = Ok _ |- context [next_with_owner L' _ ?it] => rewrite (next_again L L'), E by assumption; cbn [rbind]
    | E : next_signer _ _ = Ok _ |- context [next_signer _ _] => rewrite E; cbn [rbind]
    | E : distinct _ _ _ = Ok _ |- _ => rewrite E; cbn [rbind]; clear E
    | E : ensure _ _ = Ok _ |- _ => rewrite E; cbn [rbind]; clear E
    | E : assert_and_get _ _ _ _ _ _ = Ok _ |- _ => rewrite (get_again _ _ _ _ _ _ _ _ _ _ _ E Hw Hm Dk DP); cbn [rbind]; clear E
    | E : verify_opt _ _ _ _ _ _ = Ok _ |- _ => rewrite (verify_again _ _ _ _ _ _ _ _ E Hn DN); cbn [rbind]; clear E end.
  reflexivity.
Qed.
Lemma penalty_again e ms L o P k w m w' m' L' :
  penalty_pre e ms L o = Ok (P, k, w, m) -> stake_only w w' -> same_id m m' ->
  same_owners L L' -> a_data (acc L' k) = DMining m' -> a_data (acc L' P) = DPool w' ->
  penalty_pre e ms L' o = Ok (P, k, w', m').
Proof.
  intros H Hw Hm So Dk DP. unfold penalty_pre in *.
  repeat (inv_bind H; match goal with a : unit |- _ => destruct a | a : (_ * _)%type |- _ => destruct a end). injection H as -> -> -> ->.
  repeat match goal with E : next_with_owner L _ ?it = Ok _ |- context [next_with_owner L' _ ?it] => rewrite (next_again L L'), E by assumption; cbn [rbind]
    | E : next_signer _ _ = Ok _ |- context [next_signer _ _] => rewrite E; cbn [rbind]
    | E : distinct _ _ _ = Ok _ |- _ => rewrite E; cbn [rbind]; clear E
    | E : assert_and_get _ _ _ _ _ _ = Ok _ |- _ => rewrite (get_again _ _ _ _ _ _ _ _ _ _ _ E Hw Hm Dk DP); cbn [rbind]; clear E end.
  reflexivity.
Qed.

(** ** Writing twice *)
Lemma lookup_put L x d k : put_data L x d !! k = if x =? k then Some (with_data (acc L k) d) else L !! k.
Proof.
  unfold put_data. destruct (Z.eqb_spec x k) as [->|N]; [etransitivity; [apply lookup_insert|reflexivity]|apply lookup_insert_ne; assumption].
Qed.
Ltac same_ledger := unfold put_mining, put_pool; apply map_eq; intros i; rewrite !lookup_put, !Determined.acc_put;
  repeat match goal with |- context [?a =? i] => destruct (Z.eqb_spec a i); subst end; try congruence; try reflexivity.
Lemma stake_written L P k D w1 m1 y1 w2 m2 y2 :
  k <> P -> (y1 <> None -> y2 <> None) ->
  put_dlg (put_mining (put_pool (put_dlg (put_mining (put_pool L P w1) k m1) D y1) P w2) k m2) D y2 =
  put_dlg (put_mining (put_pool L P w2) k m2) D y2.
Proof.
  intros N1 Ny. destruct y1, y2; cbn [put_dlg]; try (exfalso; apply Ny; congruence); same_ledger.
Qed.
Lemma change_written L P k O N w1 m1 o1 n1 w2 m2 o2 n2 :
  k <> P -> (o1 <> None -> o2 <> None) -> (n1 <> None -> n2 <> None) ->
  put_dlg (put_dlg (put_mining (put_pool (put_dlg (put_dlg (put_mining (put_pool L P w1) k m1) O o1) N n1) P w2) k m2) O o2) N n2 =
  put_dlg (put_dlg (put_mining (put_pool L P w2) k m2) O o2) N n2.
Proof.
  intros N1 Ho Hn. destruct o1, o2, n1, n2; cbn [put_dlg]; try (exfalso; apply Ho; congruence); try (exfalso; apply Hn; congruence); same_ledger.
Qed.

(** ** Filling *)
(** fill_vault.rs 15-47 *)
Definition fill_pre (e : env) (ms : list meta) (L : ledger) (r : Z)
  : res (pubkey * pubkey * pubkey * pubkey * wpool) :=
  let? (pool, it) := next_with_owner L (program_id e) ms in
  let? (mint, it) := next_with_owner L (spl_token_id e) it in
  let? (vault, it) := next_with_owner L (spl_token_id e) it in
  let? (auth, it) := next_signer ms it in
  let? (source, it) := next_with_owner L (spl_token_id e) it in
  let? (_, it) := next_with_key (spl_token_id e) it in
  check? negb (r =? 0) else RewardsMustBeGreaterThanZero in
  let? w := load_pool (a_data (acc L pool)) in
  let? _ := assert_account_key auth (p_fill_auth (wp w)) in
  let? vk := pda (cpa_vault e pool mint (p_bump (wp w))) in
  let? _ := assert_account_key vault vk in
  Ok (pool, vault, auth, source, w).
Lemma fill_pre_ok e ts ms L r x :
  process_fill_vault e ts ms L r x =
  rbind (fill_pre e ms L r) (fun '(pool, vault, auth, source, w) =>
    let? w' := fill_pool ts r x w in
    let? _ := distinct auth pool EBorrow in
    spl_transfer ms (put_pool L pool w') source vault auth r).
Proof. unfold process_fill_vault, fill_pre. through. Qed.
Lemma fill_facts e ms L r P V A S w :
  fill_pre e ms L r = Ok (P, V, A, S, w) ->
  account_at ms 0 P /\ account_at ms 2 V /\ account_at ms 4 S /\ is_pool e L P w /\ owner_of L V = spl_token_id e /\ owner_of L S = spl_token_id e.
Proof.
  intros H. unfold fill_pre in H. inv. ldr. linv. subst.
  unfold account_at, is_pool. cbn [map nth_error]. do 3 (split; [reflexivity|]). split; [split; assumption|]. split; assumption.
Qed.
Lemma fill_again e ms L L' a b P V A S w w' :
  fill_pre e ms L a = Ok (P, V, A, S, w) -> b <> 0 -> same_owners L L' -> a_data (acc L' P) = DPool w' ->
  p_fill_auth (wp w') = p_fill_auth (wp w) -> p_bump (wp w') = p_bump (wp w) ->
  fill_pre e ms L' b = Ok (P, V, A, S, w').
Proof.
  intros H Hb So DP F1 F2. unfold fill_pre in *.
  repeat (inv_bind H; match goal with a : unit |- _ => destruct a | a : (_ * _)%type |- _ => destruct a | _ => idtac end). injection H as -> -> -> -> ->.
  repeat match goal with E : next_with_owner L _ ?it = Ok _ |- context [next_with_owner L' _ ?it] => rewrite (next_again L L'), E by assumption; cbn [rbind]
    | E : next_signer _ _ = Ok _ |- context [next_signer _ _] => rewrite E; cbn [rbind]
    | E : next_with_key _ _ = Ok _ |- context [next_with_key _ _] => rewrite E; cbn [rbind] end.
  rewrite (proj2 (Z.eqb_neq b 0)) by assumption. cbn [negb ensure rbind]. rewrite DP. cbn [load_pool rbind]. rewrite F1, F2.
  repeat match goal with E : assert_account_key ?x _ = Ok _ |- context [assert_account_key ?x _] => rewrite E; cbn [rbind]
    | E : pda _ = Ok _ |- _ => rewrite E; cbn [rbind]; clear E end.
  reflexivity.
Qed.
Lemma transfer_apart ms L S V A x s d :
  S <> V -> data_of L S = DToken s -> data_of L V = DToken d -> writable ms S -> writable ms V -> signed ms A ->
  x <= t_amount s -> t_mint s = t_mint d -> t_owner s = A -> t_amount d + x < U64 ->
  spl_transfer ms L S V A x = Ok (put_data (put_data L S (DToken (Token (t_mint s) (t_owner s) (t_amount s - x)))) V
    (DToken (Token (t_mint d) (t_owner d) (t_amount d + x)))).
Proof.
  intros N Hs Hd W1 W2 Si Hx Hm Ho Hf. unfold spl_transfer, data_of in *.
  rewrite (proj2 (is_writable_ok _ _) W1), (proj2 (is_writable_ok _ _) W2), (proj2 (is_signer_ok _ _) Si). cbn [andb ensure rbind].
  rewrite Hs, Hd. cbn [load_token rbind]. rewrite (proj2 (Z.leb_le _ _) Hx), Hm, Z.eqb_refl, Ho, Z.eqb_refl. cbn [ensure rbind].
  rewrite (proj2 (Z.eqb_neq _ _) N), (proj2 (Z.ltb_lt _ _) Hf). reflexivity.
Qed.

Section env.
Context (e : env) (Henv : env_ok e).
Lemma fill_join now ts ms L L1 L2 a b x :
  ledger_ok e now L -> a <> 0 -> b <> 0 -> 0 <= a -> 0 <= b -> 0 <= x ->
  (forall V S, account_at ms 2 V -> account_at ms 4 S -> S <> V) ->
  process_fill_vault e ts ms L a x = Ok L1 -> process_fill_vault e ts ms L1 b x = Ok L2 ->
  process_fill_vault e ts ms L (a + b) x = Ok L2.
Proof.
  intros HL Na Nb Ha Hb Hx Hout H1 H2. rewrite fill_pre_ok in *.
  destruct (fill_pre e ms L a) as [[[[[P V] A] S] w]|] eqn:E1; [|discriminate H1]. cbn [rbind] in H1.
  destruct (fill_facts _ _ _ _ _ _ _ _ _ E1) as (_ & HV & HS & [Po Pd] & Vo & So). specialize (Hout V S HV HS).
  assert (NV : V <> P) by (intros ->; apply (eo_tok _ Henv); congruence). assert (NS : S <> P) by (intros ->; apply (eo_tok _ Henv); congruence).
  inv_bind H1. rename a0 into w1, E into F1. inv_bind H1. rename E into Da.
  apply spl_transfer_inv in H1 as (s & d & Ds & Dd & W1 & W2 & Si & Hle & Hm & Ho & [[]|(_ & Hf & ->)]); [contradiction|].
  unfold data_of, put_pool in Ds, Dd. rewrite data_put_ne in Ds, Dd by congruence.
  set (L1 := put_data _ V _) in *.
  assert (Ow : same_owners L L1) by (unfold L1, put_pool; repeat apply owners_put; intros ?; reflexivity).
  assert (D1 : a_data (acc L1 P) = DPool w1) by (unfold L1, put_pool; rewrite !data_put_ne by assumption; apply data_put_eq).
  assert (Fr : p_fill_auth (wp w1) = p_fill_auth (wp w) /\ p_bump (wp w1) = p_bump (wp w)).
  { unfold fill_pool in F1. cbv zeta in F1. inv. split; reflexivity. }
  rewrite (fill_again _ _ _ _ _ _ _ _ _ _ _ _ E1 Nb Ow D1 (proj1 Fr) (proj2 Fr)) in H2. cbn [rbind] in H2.
  inv_bind H2. rename a0 into w2, E into F2. inv_bind H2.
  apply spl_transfer_inv in H2 as (s' & d' & Ds' & Dd' & _ & _ & _ & Hle' & Hm' & Ho' & [[]|(_ & Hf' & ->)]); [contradiction|].
  unfold data_of, put_pool in Ds', Dd'. rewrite data_put_ne in Ds', Dd' by congruence.
  unfold L1 in Ds', Dd'. rewrite (data_put_ne _ S V) in Ds' by congruence. rewrite data_put_eq in Ds', Dd'.
  injection Ds' as <-. injection Dd' as <-. cbn [t_amount t_mint t_owner] in *.
  rewrite (fill_again _ _ L L _ (a + b) _ _ _ _ _ _ E1) by (first [exact Pd|lia|reflexivity|intros ?; reflexivity]). cbn [rbind].
  pose proof (ok_pool e now L P w HL Po Pd) as Hp.
  rewrite (fill_twice now _ _ _ _ _ _ _ Hp Ha Hb Hx F1 F2). cbn [rbind]. rewrite Da. cbn [rbind].
  rewrite (transfer_apart _ _ _ _ _ _ s d); try assumption; try lia; unfold data_of, put_pool; rewrite ?data_put_ne by congruence; try assumption.
  f_equal. unfold L1. replace (t_amount s - a - b) with (t_amount s - (a + b)) by lia. replace (t_amount d + a + b) with (t_amount d + (a + b)) by lia.
  same_ledger.
Qed.
Lemma fill_parts now ts ms L L2 a b x :
  ledger_ok e now L -> a <> 0 -> b <> 0 -> 0 <= a -> 0 <= b -> is_u64 x ->
  (forall V S, account_at ms 2 V -> account_at ms 4 S -> S <> V) ->
  process_fill_vault e ts ms L (a + b) x = Ok L2 ->
  exists L1, process_fill_vault e ts ms L a x = Ok L1 /\ process_fill_vault e ts ms L1 b x = Ok L2.
Proof.
  intros HL Na Nb Ha Hb Hx Hout H. pose proof Hx as [Hx0 _].
  cut (exists L1 L3, process_fill_vault e ts ms L a x = Ok L1 /\ process_fill_vault e ts ms L1 b x = Ok L3).
  { intros (L1 & L3 & H1 & H2). exists L1. split; [exact H1|].
    pose proof (fill_join _ _ _ _ _ _ _ _ _ HL Na Nb Ha Hb Hx0 Hout H1 H2). congruence. }
  rewrite fill_pre_ok in H.
  destruct (fill_pre e ms L (a + b)) as [[[[[P V] A] S] w]|] eqn:E1; [|discriminate H]. cbn [rbind] in H.
  destruct (fill_facts _ _ _ _ _ _ _ _ _ E1) as (_ & HV & HS & [Po Pd] & Vo & So). specialize (Hout V S HV HS).
  assert (NV : V <> P) by (intros ->; apply (eo_tok _ Henv); congruence). assert (NS : S <> P) by (intros ->; apply (eo_tok _ Henv); congruence).
  inv_bind H. rename a0 into w2, E into F. inv_bind H. rename E into Da.
  apply spl_transfer_inv in H as (s & d & Ds & Dd & W1 & W2 & Si & Hle & Hm & Ho & [[]|(_ & Hf & ->)]); [contradiction|].
  unfold data_of, put_pool in Ds, Dd. rewrite data_put_ne in Ds, Dd by congruence.
  pose proof (ok_pool e now L P w HL Po Pd) as Hp.
  destruct (fill_split now _ _ _ _ _ _ Hp Hx Ha Hb F) as (w1 & F1 & F2).
  do 2 eexists. split.
  - rewrite fill_pre_ok. rewrite (fill_again _ _ L L _ a _ _ _ _ _ _ E1) by (first [exact Pd|lia|reflexivity|intros ?; reflexivity]). cbn [rbind].
    rewrite F1. cbn [rbind]. rewrite Da. cbn [rbind].
    apply (transfer_apart _ _ _ _ _ _ s d); try assumption; try lia; unfold data_of, put_pool; rewrite ?data_put_ne by congruence; try assumption.
  - rewrite fill_pre_ok. 
    assert (Fr : p_fill_auth (wp w1) = p_fill_auth (wp w) /\ p_bump (wp w1) = p_bump (wp w)).
    { unfold fill_pool in F1. cbv zeta in F1. inv. split; reflexivity. }
    match goal with |- context [fill_pre e ms ?x b] => set (L1 := x) end.
    assert (Ow : same_owners L L1) by (unfold L1, put_pool; repeat apply owners_put; intros ?; reflexivity).
    assert (D1 : a_data (acc L1 P) = DPool w1) by (unfold L1, put_pool; rewrite !data_put_ne by assumption; apply data_put_eq).
    rewrite (fill_again _ _ _ _ _ _ _ _ _ _ _ _ E1 Nb Ow D1 (proj1 Fr) (proj2 Fr)). cbn [rbind]. rewrite F2. cbn [rbind]. rewrite Da. cbn [rbind].
    apply (transfer_apart _ _ _ _ _ _ (Token (t_mint s) (t_owner s) (t_amount s - a)) (Token (t_mint d) (t_owner d) (t_amount d + a)));
      try assumption; unfold data_of, put_pool; rewrite ?(data_put_ne L1) by congruence; unfold L1.
    + rewrite data_put_ne by congruence. apply data_put_eq.
    + apply data_put_eq.
    + cbn [t_amount]. lia.
    + cbn [t_amount]. lia.
Qed.

(** ** Staking *)
Lemma dlg_known L D k y : dlg_id (dlg_of L D k) y ->
  match y with None => D = k | Some _ => D <> k /\ exists x, data_of L D = DMining x /\ dlg_of L D k = Some (Ok x) end.
Proof.
  unfold dlg_of. destruct (Z.eqb_spec k D) as [->|N]; [destruct y; [contradiction|auto]|].
  destruct (load_mining (a_data (acc L D))) as [x|] eqn:E; destruct y; cbn [dlg_id]; try contradiction. intros _.
  split; [congruence|]. apply load_mining_ok in E. exists x. auto.
Qed.
(** a delegate of the call as the methods see it *)
Lemma dlg_current ts ms i L n P k D w y :
  delegates_up_to_date e ts ms i L -> In n (delegate_positions i) ->
  account_at ms 0 P -> account_at ms 1 k -> account_at ms n D -> is_pool e L P w -> owner_of L D = program_id e ->
  dlg_id (dlg_of L D k) y -> dlg_up ts (wp_ci w) (dlg_of L D k).
Proof.
  intros Hu Hn AP Ak AD Hw Ho Hy. apply dlg_known in Hy. destruct y; [|subst; unfold dlg_of; rewrite Z.eqb_refl; exact I].
  destruct Hy as (N & x & Dx & ->). cbn [dlg_up]. eapply Hu; try eassumption. split; assumption.
Qed.
Lemma dlg_small ms L n k D y :
  stakes_fit e ms L -> account_at ms n D -> owner_of L D = program_id e -> dlg_id (dlg_of L D k) y -> dlg_fits (dlg_of L D k).
Proof.
  intros Hf AD Ho Hy. apply dlg_known in Hy. destruct y; [|subst; unfold dlg_of; rewrite Z.eqb_refl; exact I].
  destruct Hy as (N & x & Dx & ->). cbn [dlg_fits]. apply (Hf n D x AD). split; assumption.
Qed.
Lemma dlg_some d y : dlg_id d y -> y <> None <-> d <> None.
Proof. destruct d as [[|]|], y; cbn; intros; split; try contradiction; congruence. Qed.

Lemma deposit_join now ts ms L L1 L2 a b p o d :
  ledger_ok e now L -> 0 <= now <= ts -> 0 <= a -> 0 <= b -> delegates_up_to_date e ts ms (DepositMining (a + b) p o d) L ->
  process_deposit e ts ms L a p o d = Ok L1 -> process_deposit e ts ms L1 b p o d = Ok L2 ->
  process_deposit e ts ms L (a + b) p o d = Ok L2.
Proof.
  intros HL Hts Ha Hb Hu H1 H2. rewrite deposit_pre in *.
  destruct (stake_pre e ms L o d) as [[[[[P k] D] w] m]|] eqn:E1; [|discriminate H1]. cbn [rbind] in *.
  destruct (stake_facts _ _ _ _ _ _ _ _ _ _ E1) as (AP & Ak & AD & [Po Pd] & [Mo Md] & Do & Nk & ND).
  destruct (deposit ts w m a p (dlg_of L D k)) as [[[w1 m1] y1]|] eqn:F1; [|discriminate H1]. cbn [rbind] in H1. injection H1 as <-.
  destruct (deposit_frame _ _ _ _ _ _ _ _ _ F1) as (Fw & Fm & Fd).
  destruct (stake_again _ _ _ _ _ _ _ _ _ _ _ _ _ E1 Fw Fm Fd) as [E2 Ed]. rewrite E2 in H2. cbn [rbind] in H2. rewrite Ed in H2.
  destruct (deposit ts w1 m1 b p (again y1)) as [[[w2 m2] y2]|] eqn:F2; [|discriminate H2]. cbn [rbind] in H2.
  assert (Hdw : dlg_wf (dlg_of L D k)) by (eapply ok_dlg; eassumption).
  assert (Hup : dlg_up ts (wp_ci w) (dlg_of L D k)) by (eapply dlg_current; try eassumption; [cbn; auto|split; assumption]).
  rewrite (deposit_twice now ts w m a b p _ _ _ _ _ _ _ ltac:(lia) (ok_pool e _ _ _ _ HL Po Pd) (ok_mining e _ _ _ _ HL Mo Md) Hdw Hup Ha Hb F1 F2).
  cbn [rbind]. rewrite <- H2. f_equal. symmetry. apply stake_written; [assumption|].
  destruct (deposit_frame _ _ _ _ _ _ _ _ _ F2) as (_ & _ & Fd2). intros Hy. apply (dlg_some _ _ Fd2). destruct y1; congruence.
Qed.
Lemma deposit_parts now ts ms L L2 a b p o d :
  ledger_ok e now L -> 0 <= now <= ts -> 0 <= a -> 0 <= b -> delegates_up_to_date e ts ms (DepositMining (a + b) p o d) L ->
  stakes_fit e ms L2 -> process_deposit e ts ms L (a + b) p o d = Ok L2 ->
  exists L1, process_deposit e ts ms L a p o d = Ok L1 /\ process_deposit e ts ms L1 b p o d = Ok L2.
Proof.
  intros HL Hts Ha Hb Hu Hfit H. pose proof H as H0. rewrite deposit_pre in H.
  destruct (stake_pre e ms L o d) as [[[[[P k] D] w] m]|] eqn:E1; [|discriminate H]. cbn [rbind] in *.
  destruct (stake_facts _ _ _ _ _ _ _ _ _ _ E1) as (AP & Ak & AD & [Po Pd] & [Mo Md] & Do & Nk & ND).
  destruct (deposit ts w m (a + b) p (dlg_of L D k)) as [[[w2 m2] y2]|] eqn:F; [|discriminate H]. cbn [rbind] in H. injection H as H.
  destruct (deposit_frame _ _ _ _ _ _ _ _ _ F) as (Fw & Fm & Fd).
  destruct (stake_again _ _ _ _ _ _ _ _ _ _ _ _ _ E1 Fw Fm Fd) as [E2 _]. rewrite H in E2.
  destruct (stake_facts _ _ _ _ _ _ _ _ _ _ E2) as (_ & _ & _ & _ & Hm2 & _).
  assert (Hdw : dlg_wf (dlg_of L D k)) by (eapply ok_dlg; eassumption).
  assert (Hup : dlg_up ts (wp_ci w) (dlg_of L D k)) by (eapply dlg_current; try eassumption; [cbn; auto|split; assumption]).
  destruct (deposit_split now ts w m a b p _ _ _ _ ltac:(lia) (ok_pool e _ _ _ _ HL Po Pd) (ok_mining e _ _ _ _ HL Mo Md) Hdw Hup Ha Hb F (Hfit _ _ _ Ak Hm2)) as (w1 & m1 & y1 & F1 & F2).
  destruct (deposit_frame _ _ _ _ _ _ _ _ _ F1) as (Fw1 & Fm1 & Fd1).
  destruct (stake_again _ _ _ _ _ _ _ _ _ _ _ _ _ E1 Fw1 Fm1 Fd1) as [E3 Ed].
  eexists. split; [rewrite deposit_pre, E1; cbn [rbind]; rewrite F1; reflexivity|].
  rewrite deposit_pre, E3. cbn [rbind]. rewrite Ed, F2. cbn [rbind]. rewrite <- H. f_equal. apply stake_written; [assumption|].
  destruct (deposit_frame _ _ _ _ _ _ _ _ _ F2) as (_ & _ & Fd2). intros Hy. apply (dlg_some _ _ Fd2). destruct y1; congruence.
Qed.

Lemma withdraw_join now ts ms L L1 L2 a b o d :
  ledger_ok e now L -> 0 <= a -> 0 <= b -> delegates_up_to_date e ts ms (WithdrawMining (a + b) o d) L ->
  process_withdraw e ts ms L a o d = Ok L1 -> process_withdraw e ts ms L1 b o d = Ok L2 ->
  process_withdraw e ts ms L (a + b) o d = Ok L2.
Proof.
  intros HL Ha Hb Hu H1 H2. rewrite withdraw_pre in *.
  destruct (stake_pre e ms L o d) as [[[[[P k] D] w] m]|] eqn:E1; [|discriminate H1]. cbn [rbind] in *.
  destruct (stake_facts _ _ _ _ _ _ _ _ _ _ E1) as (AP & Ak & AD & [Po Pd] & [Mo Md] & Do & Nk & ND).
  destruct (withdraw ts w m a (dlg_of L D k)) as [[[w1 m1] y1]|] eqn:F1; [|discriminate H1]. cbn [rbind] in H1. injection H1 as <-.
  destruct (withdraw_frame _ _ _ _ _ _ _ _ F1) as (Fw & Fm & Fd).
  destruct (stake_again _ _ _ _ _ _ _ _ _ _ _ _ _ E1 Fw Fm Fd) as [E2 Ed]. rewrite E2 in H2. cbn [rbind] in H2. rewrite Ed in H2.
  destruct (withdraw ts w1 m1 b (again y1)) as [[[w2 m2] y2]|] eqn:F2; [|discriminate H2]. cbn [rbind] in H2.
  assert (Hdw : dlg_wf (dlg_of L D k)) by (eapply ok_dlg; eassumption).
  assert (Hup : dlg_up ts (wp_ci w) (dlg_of L D k)) by (eapply dlg_current; try eassumption; [cbn; auto|split; assumption]).
  rewrite (withdraw_twice now ts w m a b _ _ _ _ _ _ _ (ok_pool e _ _ _ _ HL Po Pd) (ok_mining e _ _ _ _ HL Mo Md) Hdw Hup Ha Hb F1 F2).
  cbn [rbind]. rewrite <- H2. f_equal. symmetry. apply stake_written; [assumption|].
  destruct (withdraw_frame _ _ _ _ _ _ _ _ F2) as (_ & _ & Fd2). intros Hy. apply (dlg_some _ _ Fd2). destruct y1; congruence.
Qed.
Lemma withdraw_parts now ts ms L L2 a b o d :
  ledger_ok e now L -> 0 <= a -> 0 <= b -> delegates_up_to_date e ts ms (WithdrawMining (a + b) o d) L ->
  stakes_fit e ms L -> process_withdraw e ts ms L (a + b) o d = Ok L2 ->
  exists L1, process_withdraw e ts ms L a o d = Ok L1 /\ process_withdraw e ts ms L1 b o d = Ok L2.
Proof.
  intros HL Ha Hb Hu Hfit H. pose proof H as H0. rewrite withdraw_pre in H.
  destruct (stake_pre e ms L o d) as [[[[[P k] D] w] m]|] eqn:E1; [|discriminate H]. cbn [rbind] in *.
  destruct (stake_facts _ _ _ _ _ _ _ _ _ _ E1) as (AP & Ak & AD & [Po Pd] & [Mo Md] & Do & Nk & ND).
  destruct (withdraw ts w m (a + b) (dlg_of L D k)) as [[[w2 m2] y2]|] eqn:F; [|discriminate H]. cbn [rbind] in H. injection H as H.
  destruct (withdraw_frame _ _ _ _ _ _ _ _ F) as (Fw & Fm & Fd).
  assert (Hdw : dlg_wf (dlg_of L D k)) by (eapply ok_dlg; eassumption).
  assert (Hup : dlg_up ts (wp_ci w) (dlg_of L D k)) by (eapply dlg_current; try eassumption; [cbn; auto|split; assumption]).
  assert (Hdf : dlg_fits (dlg_of L D k)) by (eapply dlg_small; eassumption).
  assert (Hmf : m_share (wm m) + m_sfo (wm m) < U64) by (apply (Hfit _ _ _ Ak); split; assumption).
  destruct (withdraw_split now ts w m a b _ _ _ _ (ok_pool e _ _ _ _ HL Po Pd) (ok_mining e _ _ _ _ HL Mo Md) Hdw Hup Hdf Ha Hb F Hmf) as (w1 & m1 & y1 & F1 & F2).
  destruct (withdraw_frame _ _ _ _ _ _ _ _ F1) as (Fw1 & Fm1 & Fd1).
  destruct (stake_again _ _ _ _ _ _ _ _ _ _ _ _ _ E1 Fw1 Fm1 Fd1) as [E3 Ed].
  eexists. split; [rewrite withdraw_pre, E1; cbn [rbind]; rewrite F1; reflexivity|].
  rewrite withdraw_pre, E3. cbn [rbind]. rewrite Ed, F2. cbn [rbind]. rewrite <- H. f_equal. apply stake_written; [assumption|].
  destruct (withdraw_frame _ _ _ _ _ _ _ _ F2) as (_ & _ & Fd2). intros Hy. apply (dlg_some _ _ Fd2). destruct y1; congruence.
Qed.

Lemma change_join now ts ms L L1 L2 a b d :
  ledger_ok e now L -> 0 <= a -> 0 <= b -> delegates_up_to_date e ts ms (ChangeDelegate (a + b) d) L ->
  total_covers e ms (ChangeDelegate (a + b) d) L ->
  process_change_delegate e ts ms L a d = Ok L1 -> process_change_delegate e ts ms L1 b d = Ok L2 ->
  process_change_delegate e ts ms L (a + b) d = Ok L2.
Proof.
  intros HL Ha Hb Hu Ht H1 H2. rewrite change_pre_ok in *.
  destruct (change_pre e ms L d) as [[[[[[P k] O] N] w] m]|] eqn:E1; [|discriminate H1]. cbn [rbind] in *.
  destruct (change_facts _ _ _ _ _ _ _ _ _ _ E1) as (AP & Ak & AO & AN & [Po Pd] & [Mo Md] & Oo & No & Nk & NO & NN & NP).
  destruct (change_delegate ts w m (dlg_of L N k) (dlg_of L O k) a) as [[[[w1 m1] o1] n1]|] eqn:F1; [|discriminate H1]. cbn [rbind] in H1. injection H1 as <-.
  destruct (change_frame _ _ _ _ _ _ _ _ _ _ F1) as (Fw & Fm & Fo & Fn).
  destruct (change_again _ _ _ _ _ _ _ _ _ _ _ _ _ _ E1 Fw Fm Fo Fn) as (E2 & Eo & En). rewrite E2 in H2. cbn [rbind] in H2. rewrite Eo, En in H2.
  destruct (change_delegate ts w1 m1 (again n1) (again o1) b) as [[[[w2 m2] o2] n2]|] eqn:F2; [|discriminate H2]. cbn [rbind] in H2.
  assert (Hwo : dlg_wf (dlg_of L O k)) by (eapply ok_dlg; eassumption). assert (Hwn : dlg_wf (dlg_of L N k)) by (eapply ok_dlg; eassumption).
  assert (Huo : dlg_up ts (wp_ci w) (dlg_of L O k)) by (eapply (dlg_current ts ms _ L 4); try eassumption; [cbn; auto|split; assumption]).
  assert (Hun : dlg_up ts (wp_ci w) (dlg_of L N k)) by (eapply (dlg_current ts ms _ L 5); try eassumption; [cbn; auto|split; assumption]).
  rewrite (change_twice now ts w m a b _ _ _ _ _ _ _ _ _ _ (ok_pool e _ _ _ _ HL Po Pd) (ok_mining e _ _ _ _ HL Mo Md) Hwo Hwn Huo Hun Ha Hb (Ht P w AP (conj Po Pd)) F1 F2).
  cbn [rbind]. rewrite <- H2. f_equal. symmetry.
  destruct (change_frame _ _ _ _ _ _ _ _ _ _ F2) as (_ & _ & Fo2 & Fn2).
  apply change_written; [assumption| |]; intros Hy; [apply (dlg_some _ _ Fo2); destruct o1|apply (dlg_some _ _ Fn2); destruct n1]; congruence.
Qed.
Lemma change_parts now ts ms L L2 a b d :
  ledger_ok e now L -> 0 <= a -> 0 <= b -> delegates_up_to_date e ts ms (ChangeDelegate (a + b) d) L ->
  stakes_fit e ms L -> process_change_delegate e ts ms L (a + b) d = Ok L2 ->
  exists L1, process_change_delegate e ts ms L a d = Ok L1 /\ process_change_delegate e ts ms L1 b d = Ok L2.
Proof.
  intros HL Ha Hb Hu Hfit H. rewrite change_pre_ok in H.
  destruct (change_pre e ms L d) as [[[[[[P k] O] N] w] m]|] eqn:E1; [|discriminate H]. cbn [rbind] in *.
  destruct (change_facts _ _ _ _ _ _ _ _ _ _ E1) as (AP & Ak & AO & AN & [Po Pd] & [Mo Md] & Oo & No & Nk & NO & NN & NP).
  destruct (change_delegate ts w m (dlg_of L N k) (dlg_of L O k) (a + b)) as [[[[w2 m2] o2] n2]|] eqn:F; [|discriminate H]. cbn [rbind] in H. injection H as H.
  destruct (change_frame _ _ _ _ _ _ _ _ _ _ F) as (Fw & Fm & Fo & Fn).
  assert (Hwo : dlg_wf (dlg_of L O k)) by (eapply ok_dlg; eassumption). assert (Hwn : dlg_wf (dlg_of L N k)) by (eapply ok_dlg; eassumption).
  assert (Huo : dlg_up ts (wp_ci w) (dlg_of L O k)) by (eapply (dlg_current ts ms _ L 4); try eassumption; [cbn; auto|split; assumption]).
  assert (Hun : dlg_up ts (wp_ci w) (dlg_of L N k)) by (eapply (dlg_current ts ms _ L 5); try eassumption; [cbn; auto|split; assumption]).
  assert (Hfo : dlg_fits (dlg_of L O k)) by (eapply dlg_small; eassumption).
  assert (Hmf : m_share (wm m) + m_sfo (wm m) < U64) by (apply (Hfit _ _ _ Ak); split; assumption).
  destruct (change_split now ts w m a b _ _ _ _ _ _ (ok_pool e _ _ _ _ HL Po Pd) (ok_mining e _ _ _ _ HL Mo Md) Hwo Hwn Huo Hun Hfo Ha Hb Hmf F) as (w1 & m1 & o1 & n1 & F1 & F2).
  destruct (change_frame _ _ _ _ _ _ _ _ _ _ F1) as (Fw1 & Fm1 & Fo1 & Fn1).
  destruct (change_again _ _ _ _ _ _ _ _ _ _ _ _ _ _ E1 Fw1 Fm1 Fo1 Fn1) as (E2 & Eo & En).
  eexists. split; [rewrite change_pre_ok, E1; cbn [rbind]; rewrite F1; reflexivity|].
  rewrite change_pre_ok, E2. cbn [rbind]. rewrite Eo, En, F2. cbn [rbind]. rewrite <- H. f_equal.
  destruct (change_frame _ _ _ _ _ _ _ _ _ _ F2) as (_ & _ & Fo2 & Fn2).
  apply change_written; [assumption| |]; intros Hy; [apply (dlg_some _ _ Fo2); destruct o1|apply (dlg_some _ _ Fn2); destruct n1]; congruence.
Qed.

(** ** Penalties *)
Lemma slashed L P k (w' : wpool) m' :
  k <> P -> let L' := put_mining (put_pool L P w') k m' in
  same_owners L L' /\ a_data (acc L' k) = DMining m' /\ a_data (acc L' P) = DPool w'.
Proof.
  intros N L'. unfold L', put_mining, put_pool. split; [repeat apply owners_put; intros ?; reflexivity|]. split; [apply data_put_eq|].
  rewrite data_put_ne by assumption. apply data_put_eq.
Qed.
Lemma slash_join now ts ms L L1 L2 o n1 n2 a b dt :
  ledger_ok e now L -> 0 <= n1 -> 0 <= n2 -> 0 <= a -> 0 <= b ->
  process_slash e ts ms L o n1 a dt = Ok L1 -> process_slash e ts ms L1 o n2 b dt = Ok L2 ->
  process_slash e ts ms L o (n1 + n2) (a + b) dt = Ok L2.
Proof.
  intros HL Hn1 Hn2 Ha Hb H1 H2. rewrite slash_pre in *.
  destruct (penalty_pre e ms L o) as [[[[P k] w] m]|] eqn:E1; [|discriminate H1]. cbn [rbind] in *.
  destruct (penalty_facts _ _ _ _ _ _ _ _ E1) as (_ & _ & [Po Pd] & [Mo Md] & Nk).
  destruct (slash ts w m n1 a dt) as [[w1 m1]|] eqn:F1; [|discriminate H1]. cbn [rbind] in H1. injection H1 as <-.
  destruct (slash_frame _ _ _ _ _ _ _ _ F1) as (Fw & Fm). destruct (slashed L P k w1 m1 Nk) as (S1 & S2 & S3).
  rewrite (penalty_again _ _ _ _ _ _ _ _ _ _ _ E1 Fw Fm S1 S2 S3) in H2. cbn [rbind] in H2.
  destruct (slash ts w1 m1 n2 b dt) as [[w2 m2]|] eqn:F2; [|discriminate H2]. cbn [rbind] in H2.
  rewrite (slash_twice now ts w m n1 n2 a b dt _ _ _ _ (ok_pool e _ _ _ _ HL Po Pd) (ok_mining e _ _ _ _ HL Mo Md) Hn1 Hn2 Ha Hb F1 F2).
  cbn [rbind]. rewrite <- H2. f_equal. symmetry. apply (stake_written L P k k w1 m1 None w2 m2 None); [assumption|congruence].
Qed.
Lemma slash_parts now ts ms L L2 o n1 n2 a b dt :
  ledger_ok e now L -> 0 <= n1 -> 0 <= n2 -> 0 <= a -> 0 <= b -> (dt <> None -> n1 <= a /\ n2 <= b) -> stakes_fit e ms L ->
  process_slash e ts ms L o (n1 + n2) (a + b) dt = Ok L2 ->
  exists L1, process_slash e ts ms L o n1 a dt = Ok L1 /\ process_slash e ts ms L1 o n2 b dt = Ok L2.
Proof.
  intros HL Hn1 Hn2 Ha Hb Hn Hfit H. rewrite slash_pre in H.
  destruct (penalty_pre e ms L o) as [[[[P k] w] m]|] eqn:E1; [|discriminate H]. cbn [rbind] in *.
  destruct (penalty_facts _ _ _ _ _ _ _ _ E1) as (_ & Ak & [Po Pd] & [Mo Md] & Nk).
  destruct (slash ts w m (n1 + n2) (a + b) dt) as [[w2 m2]|] eqn:F; [|discriminate H]. cbn [rbind] in H. injection H as H.
  assert (Hmf : m_share (wm m) + m_sfo (wm m) < U64) by (apply (Hfit _ _ _ Ak); split; assumption).
  destruct (slash_split now ts w m n1 n2 a b dt _ _ (ok_pool e _ _ _ _ HL Po Pd) (ok_mining e _ _ _ _ HL Mo Md) Hn1 Hn2 Ha Hb Hn F Hmf) as (w1 & m1 & F1 & F2).
  destruct (slash_frame _ _ _ _ _ _ _ _ F1) as (Fw & Fm). destruct (slashed L P k w1 m1 Nk) as (S1 & S2 & S3).
  eexists. split; [rewrite slash_pre, E1; cbn [rbind]; rewrite F1; reflexivity|].
  rewrite slash_pre, (penalty_again _ _ _ _ _ _ _ _ _ _ _ E1 Fw Fm S1 S2 S3). cbn [rbind]. rewrite F2. cbn [rbind]. rewrite <- H. f_equal.
  apply (stake_written L P k k w1 m1 None w2 m2 None); [assumption|congruence].
Qed.
Lemma decreased L P k w m' :
  k <> P -> data_of L P = DPool w -> let L' := put_mining L k m' in
  same_owners L L' /\ a_data (acc L' k) = DMining m' /\ a_data (acc L' P) = DPool w.
Proof.
  intros N D L'. unfold L', put_mining. split; [repeat apply owners_put; intros ?; reflexivity|]. split; [apply data_put_eq|].
  rewrite data_put_ne by assumption. exact D.
Qed.
Lemma decrease_join now ms L L1 L2 o a b :
  ledger_ok e now L -> 0 <= a -> 0 <= b ->
  process_decrease e ms L o a = Ok L1 -> process_decrease e ms L1 o b = Ok L2 -> process_decrease e ms L o (a + b) = Ok L2.
Proof.
  intros HL Ha Hb H1 H2. rewrite decrease_pre in *.
  destruct (penalty_pre e ms L o) as [[[[P k] w] m]|] eqn:E1; [|discriminate H1]. cbn [rbind] in *.
  destruct (penalty_facts _ _ _ _ _ _ _ _ E1) as (_ & _ & [Po Pd] & [Mo Md] & Nk).
  destruct (decrease_rewards a m) as [m1|] eqn:F1; [|discriminate H1]. cbn [rbind] in H1. injection H1 as <-.
  pose proof (decrease_frame _ _ _ F1) as Fm. destruct (decreased L P k w m1 Nk Pd) as (S1 & S2 & S3).
  rewrite (penalty_again _ _ _ _ _ _ _ _ _ _ _ E1 (stake_only_refl w) Fm S1 S2 S3) in H2. cbn [rbind] in H2.
  destruct (decrease_rewards b m1) as [m2|] eqn:F2; [|discriminate H2]. cbn [rbind] in H2.
  rewrite (decrease_twice m a b _ _ (ok_mining e _ _ _ _ HL Mo Md) Ha Hb F1 F2).
  cbn [rbind]. rewrite <- H2. f_equal. symmetry. apply put_put.
Qed.
Lemma decrease_parts now ms L L2 o a b :
  ledger_ok e now L -> 0 <= a -> 0 <= b -> process_decrease e ms L o (a + b) = Ok L2 ->
  exists L1, process_decrease e ms L o a = Ok L1 /\ process_decrease e ms L1 o b = Ok L2.
Proof.
  intros HL Ha Hb H. rewrite decrease_pre in H.
  destruct (penalty_pre e ms L o) as [[[[P k] w] m]|] eqn:E1; [|discriminate H]. cbn [rbind] in *.
  destruct (penalty_facts _ _ _ _ _ _ _ _ E1) as (_ & _ & [Po Pd] & [Mo Md] & Nk).
  destruct (decrease_rewards (a + b) m) as [m2|] eqn:F; [|discriminate H]. cbn [rbind] in H. injection H as H.
  destruct (decrease_split m a b _ (ok_mining e _ _ _ _ HL Mo Md) Ha Hb F) as (m1 & F1 & F2).
  pose proof (decrease_frame _ _ _ F1) as Fm. destruct (decreased L P k w m1 Nk Pd) as (S1 & S2 & S3).
  eexists. split; [rewrite decrease_pre, E1; cbn [rbind]; rewrite F1; reflexivity|].
  rewrite decrease_pre, (penalty_again _ _ _ _ _ _ _ _ _ _ _ E1 (stake_only_refl w) Fm S1 S2 S3). cbn [rbind]. rewrite F2. cbn [rbind]. rewrite <- H. f_equal.
  apply put_put.
Qed.

(** ** Calls *)
Lemma no_ret_intro r L : r = Ok L -> no_ret r = Ok (L, None).
Proof. intros ->. reflexivity. Qed.
Lemma join now ts ms i j k L L1 L2 r1 r2 :
  reached e now L -> now <= ts -> ix_in_range i -> ix_in_range j -> in_two i j k ->
  delegates_up_to_date e ts ms k L -> total_covers e ms k L -> outside_source ms k ->
  exec e ts ms i L = Ok (L1, r1) -> exec e ts ms j L1 = Ok (L2, r2) -> exec e ts ms k L = Ok (L2, r2).
Proof.
  intros HR Hts Hi Hj T Hu Hc Ho X1 X2. destruct (reached_ok e Henv _ _ HR) as (HL & _ & H0).
  assert (P : process e ts ms k L = Ok (L2, r2)).
  { pose proof X1 as P1. pose proof X2 as P2. apply exec_inv in P1 as [P1 _]. apply exec_inv in P2 as [P2 _].
    destruct T; cbn [process ix_in_range outside_source] in *; unfold is_u64 in *; apply no_ret_ok in P1 as [P1 ->]; apply no_ret_ok in P2 as [P2 ->]; apply no_ret_intro.
    - eapply fill_join; try eassumption; try tauto; try (intuition lia).
    - eapply deposit_join; try eassumption; try (intuition lia).
    - eapply withdraw_join; try eassumption; try (intuition lia).
    - eapply change_join; try eassumption; try (intuition lia).
    - eapply slash_join; try eassumption; try (intuition lia).
    - eapply decrease_join; try eassumption; try (intuition lia). }
  unfold exec. rewrite P. cbn [rbind]. rewrite readonly_intro; [reflexivity|].
  intros x N. destruct (is_writable ms x) eqn:W; [apply is_writable_ok; exact W|].
  exfalso. apply N. rewrite (not_writable_same _ _ _ _ _ _ _ _ X2 W). exact (not_writable_same _ _ _ _ _ _ _ _ X1 W).
Qed.
Lemma split now ts ms i j k L L2 r :
  reached e now L -> now <= ts -> ix_in_range i -> ix_in_range j -> ix_in_range k -> in_two i j k -> sound_part i -> sound_part j ->
  flags_suffice k ms -> delegates_up_to_date e ts ms k L -> outside_source ms k -> stakes_fit e ms L -> stakes_fit e ms L2 ->
  exec e ts ms k L = Ok (L2, r) -> exists L1 r1, exec e ts ms i L = Ok (L1, r1) /\ exec e ts ms j L1 = Ok (L2, r).
Proof.
  intros HR Hts Hi Hj Hk T Si Sj Hf Hu Ho Hs Hs2 X. destruct (reached_ok e Henv _ _ HR) as (HL & _ & H0).
  apply exec_inv in X as [X _].
  assert (Fi : flags_suffice i ms /\ flags_suffice j ms) by (destruct T; split; exact Hf). destruct Fi as [Fi Fj].
  cut (exists L1, process e ts ms i L = Ok (L1, None) /\ process e ts ms j L1 = Ok (L2, None) /\ r = None).
  { intros (L1 & P1 & P2 & ->). exists L1, None. split; apply exec_intro; assumption. }
  destruct T; cbn [process ix_in_range outside_source sound_part] in *; unfold is_u64 in *; apply no_ret_ok in X as [X ->].
  - eapply fill_parts in X as (L1 & P1 & P2); try eassumption; try tauto; try (unfold is_u64; intuition lia).
    exists L1. rewrite P1, P2. auto.
  - eapply deposit_parts in X as (L1 & P1 & P2); try eassumption; try (intuition lia). exists L1. rewrite P1, P2. auto.
  - eapply withdraw_parts in X as (L1 & P1 & P2); try eassumption; try (intuition lia). exists L1. rewrite P1, P2. auto.
  - eapply change_parts in X as (L1 & P1 & P2); try eassumption; try (intuition lia). exists L1. rewrite P1, P2. auto.
  - eapply slash_parts in X as (L1 & P1 & P2); try eassumption; try (intuition lia); [|destruct x; [auto|congruence]]. exists L1. rewrite P1, P2. auto.
  - eapply decrease_parts in X as (L1 & P1 & P2); try eassumption; try (intuition lia). exists L1. rewrite P1, P2. auto.
Qed.
End env.
