(** More about calls that give a longer account where a mining is expected: who signs, what can
    change, what is conserved, and accounts that are neither pool nor mining. *)
From stdpp Require Import gmap.
From Verif Require Import Base OMap State Spec EffectSpec ResLemmas TreeLemmas MapSum FrameLemmas Ledger Program Codec CodecLemmas WfLemmas
  History HistoryLemmas LedgerLemmas LedgerSpec HistoryThms ReachThms AccessLemmas ConserveLemmas Changes Overlay OverlaySpec OverlayThms.

(** ** The two processors that move lamports and tokens, with what the transfers need *)
Lemma wide_claim_moves j e ts ms L L' amount :
  wide_claim j e ts ms L = Ok (L', amount) ->
  exists pool mint vault mining owner auth dest w m m1,
    accounts_are ms [pool; mint; vault; mining; owner; auth; dest; spl_token_id e] /\
    owner_of L vault = spl_token_id e /\ owner_of L mining = program_id e /\ owner_of L dest = spl_token_id e /\
    (exists t, data_of L dest = DToken t /\ owner = t_owner t) /\
    data_of L pool = DPool w /\ cpa_vault e pool mint (p_bump (wp w)) = Some vault /\
    refresh ts (wp_ci w) m = Ok m1 /\ amount = m_unclaimed (wm m1) /\
    let L1 := put_data L mining (store_wide j (data_of L mining) (WMining (mining_claim (wm m1)) (wm_diffs m1))) in
    (amount <= 0 /\ L' = L1 \/ 0 < amount /\ spl_transfer ms L1 vault dest auth amount = Ok L').
Proof.
  unfold wide_claim. intros H. cbv zeta in *. inv. repeat ldr1. subst. repeat linv1.
  do 10 eexists. split; [accts|].
  do 3 (split; [eassumption|]).
  split; [eexists; split; [eassumption|]; congruence|].
  split; [eassumption|]. split; [congruence|]. split; [eassumption|]. split; [reflexivity|].
  match goal with H : (if ?b then _ else _) = Ok _ |- _ => destruct b eqn:Eb end; inv; [right|left].
  - split; [lia|assumption].
  - split; [lia|reflexivity].
Qed.
Lemma wide_close_moves j e ts ms L L' :
  wide_close j e ts ms L = Ok L' ->
  exists mining owner target auth pool,
    accounts_are ms [mining; owner; target; auth; pool] /\
    owner_of L mining = program_id e /\ owner_of L target = system_id /\
    L' = <[mining := Account 0 (owner_of L mining) (zeros (data_len (data_of L mining)))]>
           (put_lamports L target (a_lamports (acc L target) + a_lamports (acc L mining))).
Proof.
  unfold wide_close. intros H. inv. repeat ldr1. subst. repeat linv1.
  do 5 eexists. split; [accts|]. do 2 (split; [eassumption|]).
  reflexivity.
Qed.

(** ** The deposit authority signs *)
Lemma wide_signed j e ts ms i L L' r ro :
  wide_exec j e ts ms i L = Ok (L', r) -> role_of i = Some ro ->
  exists k w, account_at ms (pool_position i) k /\ is_pool e L k w /\ signed ms (holder w ro).
Proof.
  intros H Hr. pose proof H as H0. apply wide_exec_inv in H as [H _].
  assert (G : wide_process j e ts ms i L = process e ts ms i L -> exec e ts ms i L = Ok (L', r)).
  { intros E. rewrite <- H0. unfold exec, wide_exec. rewrite E. reflexivity. }
  destruct i; cbn [wide_process] in G;
    try (match type of G with ?a = ?a -> _ => eapply authority_signed; [exact (G eq_refl)|exact Hr] end); cbn [role_of] in Hr; injection Hr as <-;
    cbn [wide_process pool_position holder] in *.
  - inv_bind H. destruct a as [L1 n]. apply wide_claim_inv in E as (pool & mint & vault & mining & owner & auth & dest & w & m & m1 &
      HA & Hpo & _ & So & Sa & Hp & -> & _).
    exists pool, w. split; [at_|]. split; [split; assumption|assumption].
  - apply no_ret_ok in H as [H _]. apply wide_close_inv in H as (mining & owner & target & auth & pool & w & m & m1 & lam &
      HA & _ & Ht & Hpo & So & Sa & Hp & -> & _).
    exists pool, w. split; [at_|]. split; [split; assumption|assumption].
  - apply no_ret_ok in H as [H _]. apply wide_change_inv in H as (pool & mining & auth & owner & od & nd & w & m & w' & m' & o' & n' &
      HA & [] & _); subst.
    exists (m_pool (wm m)), w. split; [at_|]. split; [split; assumption|assumption].
Qed.

(** ** Only named, writable accounts change *)
Lemma wide_changed_position j e ts ms i L L' r k :
  wide_process j e ts ms i L = Ok (L', r) -> acc L' k <> acc L k ->
  exists n, In n (may_change i) /\ account_at ms n k.
Proof.
  intros H Hne.
  destruct i; cbn [wide_process] in H; try (match type of H with process _ _ _ _ _ = _ => eapply changed_position; [exact H|exact Hne] end); cbn [may_change].
  - inv_bind H. destruct a as [L1 x]. injection H as <- <-.
    apply wide_claim_inv in E as (pool & mint & vault & mining & owner & auth & dest & w & m & m1 & A & _ & _ & _ & _ & _ & _ & _ & _ & _ & _ & _ & H).
    cbv zeta in H. destruct H as [->|[n Ht]].
    + chase Hne k; [pos 3%nat|congruence].
    + apply spl_transfer_inv in Ht as (s & d & _ & _ & _ & _ & _ & _ & _ & _ & [[-> ->]|(_ & _ & ->)]).
      * chase Hne k; [pos 3%nat|congruence].
      * chase Hne k; [pos 6%nat|pos 2%nat|pos 3%nat|congruence].
  - apply no_ret_ok in H as [H _]. apply wide_close_moves in H as (mining & owner & target & auth & pool & A & _ & _ & ->).
    chase Hne k; [pos 0%nat|pos 2%nat|congruence].
  - apply no_ret_ok in H as [H _]. apply wide_change_inv in H as (pool & mining & auth & owner & od & nd & w & m & w' & m' & od' & nd' & A & _ & _ & _ & _ & _ & ->).
    destruct nd' as [nd'|]; destruct od' as [od'|]; cbn [put_wide put_dlg] in Hne;
    chase Hne k; first [pos 5%nat|pos 4%nat|pos 1%nat|pos 0%nat|congruence].
Qed.
Lemma wide_changed j e ts ms i L L' r k :
  wide_exec j e ts ms i L = Ok (L', r) -> acc L' k <> acc L k ->
  (exists n, In n (may_change i) /\ account_at ms n k) /\ writable ms k.
Proof.
  intros H Hne. apply wide_exec_inv in H as [H Hw]. pose proof (wide_changed_position _ _ _ _ _ _ _ _ _ H Hne) as Hpos.
  split; [assumption|]. destruct Hpos as (n & _ & Hn). unfold account_at in Hn.
  apply nth_error_In in Hn. apply Hw in Hn as [|]; [assumption|contradiction].
Qed.

(** ** Conservation *)
Lemma wide_lamports j e ts ms i L L' r : env_ok e ->
  wide_exec j e ts ms i L = Ok (L', r) -> lamports_total L' = lamports_total L.
Proof.
  intros Henv H. pose proof H as H0. apply wide_exec_inv in H as [H _].
  assert (G : wide_process j e ts ms i L = process e ts ms i L -> exec e ts ms i L = Ok (L', r)).
  { intros E. rewrite <- H0. unfold exec, wide_exec. rewrite E. reflexivity. }
  destruct i; cbn [wide_process] in G;
    try (match type of G with ?a = ?a -> _ => eapply lamports_conserved; [exact Henv|exact (G eq_refl)] end); clear G; cbn [wide_process] in *.
  - inv_bind H. destruct a as [L1 x]. injection H as <- <-.
    apply wide_claim_inv in E as (pool & mint & vault & mining & owner & auth & dest & w & m & m1 & A & _ & _ & _ & _ & _ & _ & _ & _ & _ & _ & _ & H).
    cbv zeta in H. destruct H as [->|[n Ht]]; [apply lam_put|]. apply lam_transfer in Ht. rewrite Ht. apply lam_put.
  - apply no_ret_ok in H as [H _]. apply wide_close_moves in H as (mining & owner & target & auth & pool & A & Hm & Ht & ->).
    rewrite lam_ins, lam_put_lam, acc_put_lam.
    destruct (Z.eqb_spec mining target) as [->|]; [pose proof (eo_sys _ Henv); congruence|]. cbn. lia.
  - apply no_ret_ok in H as [H _]. apply wide_change_inv in H as (pool & mining & auth & owner & od & nd & w & m & w' & m' & od' & nd' & A & _ & _ & _ & _ & _ & ->).
    rewrite lam_put_dlg. unfold put_wide. destruct od'; rewrite ?lam_put; unfold put_mining, put_pool; rewrite !lam_put; reflexivity.
Qed.
Lemma wide_tokens j e ts ms i L L' r mint : env_ok e ->
  wide_exec j e ts ms i L = Ok (L', r) -> tokens_total e mint L' = tokens_total e mint L.
Proof.
  intros Henv H. pose proof H as H0. apply wide_exec_inv in H as [H _].
  assert (G : wide_process j e ts ms i L = process e ts ms i L -> exec e ts ms i L = Ok (L', r)).
  { intros E. rewrite <- H0. unfold exec, wide_exec. rewrite E. reflexivity. }
  destruct i; cbn [wide_process] in G;
    try (match type of G with ?a = ?a -> _ => eapply tokens_conserved; [exact Henv|exact (G eq_refl)] end); clear G; cbn [wide_process] in *.
  - inv_bind H. destruct a as [L1 x]. injection H as <- <-.
    apply wide_claim_moves in E as (pool & mt & vault & mining & owner & auth & dest & w & m & m1 & A & Hv & Hm & Hd & _ & _ & _ & _ & _ & H).
    cbv zeta in H. destruct H as [[_ ->]|[_ Ht]]; [apply tok_put; assumption|].
    apply (tok_transfer e mint) in Ht; [|rewrite owner_put; assumption ..]. rewrite Ht. apply tok_put; assumption.
  - apply no_ret_ok in H as [H _]. apply wide_close_moves in H as (mining & owner & target & auth & pool & A & Hm & Ht & ->).
    rewrite tok_ins, tok_put_lam.
    assert (mining <> target) by (intros ->; pose proof (eo_sys _ Henv); congruence).
    rewrite acc_put_lam. destruct (Z.eqb_spec mining target); [contradiction|].
    rewrite !tok_foreign; [lia| |]; cbn [a_owner]; unfold owner_of in *; pose proof (eo_tok _ Henv); congruence.
  - apply no_ret_ok in H as [H _]. apply wide_change_inv in H as (pool & mining & auth & owner & od & nd & w & m & w' & m' & od' & nd' & A & [] & Ho & Hn & _ & _ & ->).
    assert (Hw : forall q, owner_of (put_wide j (put_mining (put_pool L pool w') mining m') od od') q = owner_of L q).
    { intros q. unfold put_wide. destruct od'; unfold put_mining, put_pool; rewrite ?owner_put; reflexivity. }
    rewrite tok_put_dlg; [|exact Henv|etransitivity; [apply Hw|assumption]].
    unfold put_wide. destruct od'; [rewrite tok_put; [|exact Henv|unfold put_mining, put_pool; rewrite !owner_put; assumption]|];
      unfold put_mining, put_pool; rewrite !tok_put by (rewrite ?owner_put; assumption); reflexivity.
Qed.

(** ** Accounts that are neither pool nor mining *)
Lemma load_wide_other j d m : (forall w, d <> DPool w) -> (forall x, d <> DMining x) -> load_wide j d = Ok m ->
  1776 <= data_len d /\ m_pool (wm m) = 0 /\ m_owner (wm m) = 0 /\ m_sfo (wm m) = 0.
Proof.
  intros Hp Hm. destruct d; cbn [load_wide]; try (exfalso; eapply Hp; reflexivity); try (exfalso; eapply Hm; reflexivity);
    match goal with |- context [if ?b then _ else _] => destruct b eqn:E end; intros H; try discriminate H; injection H as <-;
    unfold MINING_LEN in E; (split; [lia|]); cbn; auto.
Qed.

Lemma change_old_needs ts w m nd (x : res wmining) a w' m' o' n' :
  change_delegate ts w m nd (Some x) a = Ok (w', m', o', n') -> exists y, x = Ok y /\ a <= m_sfo (wm y).
Proof.
  intros H. destruct x as [y|er].
  - apply change_old_some in H as [H _]. exists y. split; [reflexivity|exact H].
  - apply change_frame in H as (_ & _ & [] & _).
Qed.

(** nothing of such an account can be claimed, closed or taken away *)
Lemma other_accounts j e ts ms i L L' r k :
  wide_exec j e ts ms i L = Ok (L', r) -> gives ms i k ->
  (forall w, data_of L k <> DPool w) -> (forall m, data_of L k <> DMining m) ->
  1776 <= data_len (data_of L k) /\
  match i with
  | Claim => account_at ms 0 0 /\ signed ms 0
  | CloseMining => signed ms 0
  | ChangeDelegate a _ => a <= 0
  | _ => False
  end.
Proof.
  intros H (p & Hp & Hk) Np Nm. apply wide_exec_inv in H as [H _].
  destruct i; try discriminate Hp; injection Hp as <-; cbn [wide_process] in H.
  - inv_bind H. destruct a as [L1 n]. injection H as <- <-.
    apply wide_claim_inv in E as (pool & mint & vault & mining & owner & auth & dest & w & m & m1 &
      HA & Hpo & _ & So & Sa & Hp & -> & Hm & -> & Hpm & _).
    pose proof (at_list _ _ _ _ HA Hk ltac:(cbn; lia)) as Ek. injection Ek as ->.
    apply load_wide_other in Hm as (H1 & H2 & H3 & _); [|assumption..].
    split; [exact H1|]. rewrite H2 in Hpm. subst pool. rewrite H3 in So.
    split; [apply (list_at _ _ _ _ HA); reflexivity|exact So].
  - apply no_ret_ok in H as [H _]. apply wide_close_inv in H as (mining & owner & target & auth & pool & w & m & m1 & lam &
      HA & _ & Ht & Hpo & So & Sa & Hp & -> & Hne & Hm & -> & _).
    pose proof (at_list _ _ _ _ HA Hk ltac:(cbn; lia)) as Ek. injection Ek as ->.
    apply load_wide_other in Hm as (H1 & _ & H3 & _); [|assumption..].
    split; [exact H1|]. rewrite H3 in So. exact So.
  - apply no_ret_ok in H as [H _]. apply wide_change_inv in H as (pool & mining & auth & owner & od & nd & w & m & w' & m' & o' & n' &
      HA & Hc & _ & Hnd & Hne & H & ->).
    pose proof (at_list _ _ _ _ HA Hk ltac:(cbn; lia)) as Ek. injection Ek as ->.
    unfold wide_dlg in H. destruct (Z.eqb_spec k pool) as [->|Hkp].
    { apply change_frame in H as (_ & _ & [] & _). }
    destruct (Z.eqb_spec mining k) as [->|Hmk]; [exfalso; eapply Nm; exact (sc_mining _ _ _ _ _ _ _ _ _ Hc)|].
    apply change_old_needs in H as (y & Hy & Ha). apply load_wide_other in Hy as (H1 & _ & _ & H3); [|assumption..].
    split; [exact H1|]. rewrite H3 in Ha. exact Ha.
Qed.

(** ** Lengths *)
Lemma len_zeros n : data_len (zeros n) = n.
Proof.
  unfold zeros. destruct (Z.eqb_spec n 0); [subst; reflexivity|]. destruct (Z.eqb_spec n MINING_LEN); [subst; reflexivity|].
  destruct (Z.eqb_spec n POOL_LEN); [subst; reflexivity|]. reflexivity.
Qed.
Lemma len_store j d m : data_len (store_wide j d m) = data_len d.
Proof.
  destruct d; cbn [store_wide data_len]; try reflexivity.
  destruct (_ =? 0); [reflexivity|]. destruct (j_left _ _ _). reflexivity.
Qed.
Lemma len_put L k d q : data_len d = data_len (data_of L k) -> data_len (data_of (put_data L k d) q) = data_len (data_of L q).
Proof.
  intros H. destruct (Z.eq_dec k q) as [->|Hne]; [rewrite data_put; exact H|]. unfold data_of. rewrite acc_put_data_ne by exact Hne. reflexivity.
Qed.
Lemma len_transfer ms L s d a x L' q : spl_transfer ms L s d a x = Ok L' -> data_len (data_of L' q) = data_len (data_of L q).
Proof.
  intros H. apply spl_transfer_inv in H as (u & v & Hs & Hd & _ & _ & _ & _ & _ & _ & [[_ ->]|(Hne & _ & ->)]); [reflexivity|].
  rewrite len_put; [apply len_put; rewrite Hs; reflexivity|].
  unfold data_of in *. rewrite acc_put_data_ne by assumption. rewrite Hd. reflexivity.
Qed.
Lemma load_len L k m : load_mining (a_data (acc L k)) = Ok m -> data_of L k = DMining m.
Proof. intros H. apply load_mining_ok in H. exact H. Qed.

Lemma wide_lengths j e ts ms i L L' r q :
  wide_exec j e ts ms i L = Ok (L', r) -> open_position i <> None -> data_len (data_of L' q) = data_len (data_of L q).
Proof.
  intros H Hi. apply wide_exec_inv in H as [H _].
  destruct i; try (destruct Hi; reflexivity); cbn [wide_process] in H.
  - inv_bind H. destruct a as [L1 x]. injection H as <- <-.
    apply wide_claim_inv in E as (pool & mint & vault & mining & owner & auth & dest & w & m & m1 & A & _ & _ & _ & _ & _ & _ & _ & _ & _ & _ & _ & H).
    cbv zeta in H. destruct H as [->|[n Ht]]; [apply len_put, len_store|].
    apply len_transfer with (q := q) in Ht. rewrite Ht. apply len_put, len_store.
  - apply no_ret_ok in H as [H _]. apply wide_close_moves in H as (mining & owner & target & auth & pool & A & Hm & Ht & ->).
    unfold data_of. rewrite acc_ins, acc_put_lam. destruct (Z.eqb_spec q mining) as [->|].
    + cbn [a_data]. rewrite len_zeros. reflexivity.
    + destruct (Z.eqb_spec q target) as [->|]; reflexivity.
  - apply no_ret_ok in H as [H _]. apply wide_change_inv in H as (pool & mining & auth & owner & od & nd & w & m & w' & m' & o' & n' &
      HA & Hc & _ & Hnd & Hne & H & ->).
    apply change_frame in H as (_ & _ & _ & Fn).
    assert (L1 : forall q, data_len (data_of (put_mining (put_pool L pool w') mining m') q) = data_len (data_of L q)).
    { intros p. unfold put_mining, put_pool. rewrite len_put; [apply len_put; rewrite (sc_pool _ _ _ _ _ _ _ _ _ Hc); reflexivity|].
      rewrite len_put; rewrite ?(sc_mining _ _ _ _ _ _ _ _ _ Hc), ?(sc_pool _ _ _ _ _ _ _ _ _ Hc); reflexivity. }
    assert (L2 : forall q, data_len (data_of (put_wide j (put_mining (put_pool L pool w') mining m') od o') q) = data_len (data_of L q)).
    { intros p. unfold put_wide. destruct o'; [|apply L1]. rewrite len_put; [apply L1|]. apply len_store. }
    destruct n' as [n'|]; cbn [put_dlg]; [|apply L2]. unfold put_mining at 1. rewrite len_put; [apply L2|].
    rewrite L2. unfold dlg_of in Fn. destruct (_ =? _); [destruct Fn|].
    destruct (load_mining _) as [z|] eqn:Ez; [|destruct Fn]. apply load_len in Ez. rewrite Ez. reflexivity.
Qed.
