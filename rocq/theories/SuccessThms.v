(** When instructions succeed on a reached ledger: exactly when they are [allowed]. *)
From stdpp Require Import gmap.
From Verif Require Import Base OMap State Spec EffectSpec Ledger Program LedgerLemmas LedgerSpec CodecLemmas History HistoryLemmas HistoryThms
  SuccessSpec ResLemmas TreeLemmas AccrualLemmas RefreshLemmas FrameLemmas WfLemmas CoreSteps CoreLive EffectLemmas EffectMethods
  SuccessLemmas SuccessMethods ReachThms Clients ClientSpec ClientLemmas LedgerCoreThms.

(** ** Loaders *)
Lemma load_owner L o it k t :
  map mt_key it = k :: t -> owner_of L k = o -> exists r, next_with_owner L o it = Ok (k, r) /\ map mt_key r = t.
Proof.
  destruct it as [|m r]; [discriminate|]. cbn. intros E Ho. injection E as <- <-. exists r.
  unfold owner_of in Ho. rewrite Ho, Z.eqb_refl. auto.
Qed.
Lemma load_signer ms it k t :
  map mt_key it = k :: t -> signed ms k -> exists r, next_signer ms it = Ok (k, r) /\ map mt_key r = t.
Proof.
  destruct it as [|m r]; [discriminate|]. cbn. intros E Ho. injection E as <- <-. exists r.
  rewrite (proj2 (is_signer_ok _ _)) by assumption. auto.
Qed.
Lemma load_key it k t :
  map mt_key it = k :: t -> exists r, next_with_key k it = Ok (k, r) /\ map mt_key r = t.
Proof.
  destruct it as [|m r]; [discriminate|]. cbn. intros E. injection E as <- <-. exists r.
  rewrite Z.eqb_refl. auto.
Qed.
Lemma load_blank L it k t :
  map mt_key it = k :: t -> all_zero (data_of L k) = true -> exists r, next_uninitialized L it = Ok (k, r) /\ map mt_key r = t.
Proof.
  destruct it as [|m r]; [discriminate|]. cbn. intros E Ho. injection E as <- <-. exists r.
  unfold data_of in Ho. rewrite Ho. auto.
Qed.
Lemma key_ok k : assert_account_key k k = Ok tt.
Proof. unfold assert_account_key. rewrite Z.eqb_refl. reflexivity. Qed.
Lemma distinct_intro a b er : a <> b -> distinct a b er = Ok tt.
Proof. intros H. unfold distinct. rewrite (proj2 (Z.eqb_neq a b)) by assumption. reflexivity. Qed.

Section env.
Context (e : env) (Henv : env_ok e).

Lemma pool_not_mining L k w k' m : is_pool e L k w -> is_mining e L k' m -> k' <> k.
Proof. intros [_ H1] [_ H2] ->. congruence. Qed.

Lemma get_ok ms L pool mining auth owner w m :
  stake_accounts e ms L pool mining auth owner w m ->
  mining <> pool /\ assert_and_get e L owner mining pool auth = Ok (w, m).
Proof.
  intros [Hw Hm Ha Hs Ho Hof Hd]. split; [eapply pool_not_mining; eassumption|].
  destruct Hw as [_ Hw], Hm as [_ Hm]. unfold assert_and_get, data_of in *. rewrite Hm, Hw. cbn [load_mining load_pool rbind].
  rewrite Hd. cbn [pda rbind]. rewrite key_ok, <- Ha, key_ok, Hof, key_ok. cbn [rbind]. rewrite <- Ho, Z.eqb_refl. reflexivity.
Qed.
Lemma ctx_accounts ms L owner pool mining auth w m :
  stake_ctx e ms L owner pool mining auth w m -> stake_accounts e ms L pool mining auth owner w m.
Proof. intros []. constructor; auto; split; assumption. Qed.

Lemma part_dlg L mining dm d : delegate_part e L mining dm d -> dlg_of L dm mining = some_dlg d.
Proof.
  intros [[-> ->]|(Hne & x & [_ Hx] & ->)]; unfold dlg_of.
  - rewrite Z.eqb_refl. reflexivity.
  - rewrite (proj2 (Z.eqb_neq mining dm)) by congruence. unfold data_of in Hx. rewrite Hx. reflexivity.
Qed.
Lemma part_wf now L mining dm d : ledger_ok e now L -> delegate_part e L mining dm d -> odlg_wf d.
Proof.
  intros HL [[_ ->]|(_ & x & [H1 H2] & ->)]; [exact I|]. eapply ok_mining; eassumption.
Qed.
Lemma part_owner L mining dm d m : is_mining e L mining m -> delegate_part e L mining dm d -> owner_of L dm = program_id e.
Proof. intros [H _] [[-> _]|(_ & x & [H1 H2] & _)]; assumption. Qed.
Lemma part_ne L mining dm d m pool w :
  is_mining e L mining m -> is_pool e L pool w -> delegate_part e L mining dm d -> dm <> pool.
Proof. intros Hm Hp [[-> _]|(_ & x & Hx & _)]; eapply pool_not_mining; eassumption. Qed.
Lemma checked_ok L mining dm pool wallet d m w :
  is_mining e L mining m -> is_pool e L pool w ->
  checked_delegate e L mining dm pool wallet d -> verify_opt e L dm mining wallet pool = Ok tt.
Proof.
  intros Hm Hp [Hpart Hc]. unfold verify_opt. destruct Hpart as [[-> ->]|(Hne & x & Hx & ->)].
  - rewrite Z.eqb_refl. reflexivity.
  - rewrite (proj2 (Z.eqb_neq mining dm)) by congruence. unfold verify_delegate.
    rewrite distinct_intro by (eapply pool_not_mining; eassumption). cbn [rbind].
    destruct Hx as [_ Hx]. unfold data_of in Hx. rewrite Hx. cbn [load_mining rbind]. rewrite Hc, Z.eqb_refl. reflexivity.
Qed.
Lemma ok_checked L mining dm wallet pool :
  delegate_ok e L mining dm wallet pool -> exists d, checked_delegate e L mining dm pool wallet d.
Proof.
  intros [->|(Hne & _ & Ho & x & Hx & Hc)].
  - exists None. split; [left; auto|exact I].
  - exists (Some x). split; [right|exact Hc]. split; [assumption|]. exists x. repeat split; assumption.
Qed.

Lemma vacant_ok L k : vacant L k -> all_zero (data_of L k) = true /\ data_len (data_of L k) = 0.
Proof. intros (_ & _ & [->| ->]); auto. Qed.

(** ** Necessity *)
Lemma transfer_needs ms L src dst auth x L' :
  spl_transfer ms L src dst auth x = Ok L' -> can_send e L src dst auth x.
Proof.
  intros H. apply spl_transfer_inv in H as (s & d & Hs & Hd & _ & _ & _ & H1 & H2 & H3 & H4).
  exists s, d. repeat (split; [assumption|]). intros Hne. destruct H4 as [[? _]|(_ & ? & _)]; [contradiction|assumption].
Qed.
Lemma can_send_frame L L' src dst auth x :
  acc L' src = acc L src -> acc L' dst = acc L dst -> can_send e L' src dst auth x <-> can_send e L src dst auth x.
Proof. intros E1 E2. unfold can_send, data_of. rewrite E1, E2. reflexivity. Qed.

Lemma allowed_needed now ts ms i L L' r :
  ledger_ok e now L -> 0 <= now <= ts -> ix_in_range i -> exec e ts ms i L = Ok (L', r) -> allowed e ts ms i L.
Proof.
  intros HL Hts Hi X. apply exec_inv in X as [X _]. destruct i; cbn [process] in X; cbn [allowed ix_in_range] in *.
  all: try (apply no_ret_ok in X as [X _]).
  - apply init_pool_inv in X as (pool & mint & vault & payer & auth & bump & w & L1 & L2 & Ha & Ho & Hmo & Hz & Hps & Has & Hw & Ht & Hf & N1 & N2 & Hc & Hin & ->).
    apply create_account_inv in Hc as (_ & _ & _ & Hl & Hv & Hd & Hpo & Hpd & Hne & Hlam & ->).
    apply initialize_account_inv in Hin as (_ & _ & Hmd & _).
    assert (mint <> vault) by (intros ->; rewrite Hv in Hmo; apply (eo_toksys _ Henv); congruence).
    assert (mint <> payer) by (intros ->; rewrite Hpo in Hmo; apply (eo_toksys _ Henv); congruence).
    exists pool, mint, vault, payer, auth, w. split; [assumption|]. split; [split; assumption|]. split; [assumption|].
    split; [assumption|]. split.
    { unfold data_of, put_lamports in Hmd. rewrite !acc_insert_ne in Hmd by congruence. exact Hmd. }
    rewrite Hf. split; [reflexivity|]. split.
    { split; [assumption|]. split; [assumption|]. destruct (data_of L vault) eqn:Ed; cbn in Hd; try discriminate; auto; subst; auto. }
    split; [repeat (split; [assumption|]); assumption|]. auto.
  - apply fill_inv in X as (pool & mint & vault & auth & source & w & w' & Ha & Ho & Hmo & Hv & Hs & Hsg & Hr & Hw & Hau & Hc & Hne & Hf & X).
    apply transfer_needs in X.
    exists pool, mint, vault, auth, source, w. split; [assumption|]. split; [split; assumption|]. repeat (split; [assumption || congruence|]).
    pose proof (proj1 (fill_iff now ts rewards ends_at w (ok_pool e _ _ _ _ HL Ho Hw) (proj2 Hi)) (ex_intro _ _ Hf)) as (F1 & F2 & F3).
    repeat (split; [assumption|]). eapply can_send_frame; [..|exact X]; symmetry; apply acc_put_data_ne;
      intros ->; apply (eo_tok _ Henv); congruence.
  - apply init_mining_inv in X as (pool & mining & payer & bump & L1 & Ha & Ho & Hz & Hps & Hf & Hc & ->).
    apply create_account_inv in Hc as (_ & _ & _ & Hl & Hv & Hd & Hpo & Hpd & Hne & Hlam & ->).
    exists pool, mining, payer. split; [assumption|]. split; [assumption|]. rewrite Hf. split; [reflexivity|]. split.
    { split; [assumption|]. split; [assumption|]. destruct (data_of L mining) eqn:Ed; cbn in Hd; try discriminate; auto; subst; auto. }
    split; [repeat (split; [assumption|]); assumption|]. assumption.
  - apply deposit_inv in X as (pool & mining & auth & dm & w & m & w' & m' & d' & Ha & Hc & Hd & Ho & X & _).
    apply ok_checked in Hd as [d Hd]. pose proof (ok_ctx e _ _ _ _ _ _ _ _ _ HL Hc) as [Hww Hmw]. apply ctx_accounts in Hc.
    exists pool, mining, auth, dm, w, m, d. repeat (split; [assumption|]). destruct Hd as [Hd _].
    rewrite (part_dlg _ _ _ _ Hd) in X. eapply deposit_iff; [exact Hww|exact Hmw|eapply part_wf; eassumption|apply Hi|]; eauto.
  - apply withdraw_inv in X as (pool & mining & auth & dm & w & m & w' & m' & d' & Ha & Hc & Hd & Ho & X & _).
    apply ok_checked in Hd as [d Hd]. pose proof (ok_ctx e _ _ _ _ _ _ _ _ _ HL Hc) as [Hww Hmw]. apply ctx_accounts in Hc.
    exists pool, mining, auth, dm, w, m, d. repeat (split; [assumption|]). destruct Hd as [Hd _].
    rewrite (part_dlg _ _ _ _ Hd) in X. eapply withdraw_iff; [exact Hww|exact Hmw|eapply part_wf; eassumption|apply Hi|]; eauto.
  - apply rbind_ok in X as ([L2 x] & X & _).
    apply claim_inv in X as (pool & mint & vault & mining & owner & auth & dest & w & m & m1 & t & Ha & Ho & Hmo & Hv & Hmio & Hdo & So & Sa & Hdd & Hto & Hw & Hau & Hm & Hmow & Hmp & Hne & Hc & Hr & -> & X).
    cbv zeta in X. pose proof (ok_pool e _ _ _ _ HL Ho Hw) as Hww. pose proof (ok_mining e _ _ _ _ HL Hmio Hm) as Hmw.
    pose proof (pool_wf_hist _ _ Hww) as Hh.
    assert (R : refreshed ts (wp_ci w) m m1) by (apply refresh_refreshed; [assumption|apply mining_wf_min; assumption|assumption]).
    exists pool, mint, vault, mining, owner, auth, dest, w, m, t. split; [assumption|]. split; [split; assumption|]. split; [split; assumption|].
    repeat (split; [assumption || congruence|]). split; [apply refresh_iff; eauto|].
    replace (tokens_at ts (wp_ci w) m) with (m_unclaimed (wm m1)) by apply R.
    intros Hpos. destruct X as [[X _]|[_ X]]; [lia|]. apply transfer_needs in X.
    eapply can_send_frame; [..|exact X]; symmetry; apply acc_put_data_ne; intros ->; apply (eo_tok _ Henv); congruence.
  - apply extend_inv in X as (pool & mining & auth & dm & w & m & w' & m' & d' & Ha & Hc & Hd & Ho & X & _).
    apply ok_checked in Hd as [d Hd]. pose proof (ok_ctx e _ _ _ _ _ _ _ _ _ HL Hc) as [Hww Hmw]. apply ctx_accounts in Hc.
    exists pool, mining, auth, dm, w, m, d. repeat (split; [assumption|]). destruct Hd as [Hd _].
    rewrite (part_dlg _ _ _ _ Hd) in X. eapply extend_iff; [exact Hww|exact Hmw|eapply part_wf; eassumption|lia|apply Hi|apply Hi|apply Hi|]; eauto.
  - apply distribute_inv in X as (pool & auth & w & r0 & w' & Ha & Ho & Hs & Hw & Hau & Hr & Hd & _).
    exists pool, auth, w. split; [assumption|]. split; [split; assumption|]. split; [congruence|]. split; [assumption|].
    eapply distribute_iff; [eapply ok_pool; eassumption|]. rewrite Hr. cbn [rbind]. eauto.
  - apply close_inv in X as (mining & owner & target & auth & pool & w & m & m1 & Ha & Hmio & Hto & Ho & So & Sa & Hw & Hau & Hne & Hm & Hmow & Hr & Hsf & Hu & Hlam & _).
    pose proof (ok_pool e _ _ _ _ HL Ho Hw) as Hww. pose proof (ok_mining e _ _ _ _ HL Hmio Hm) as Hmw.
    pose proof (pool_wf_hist _ _ Hww) as Hh.
    assert (R : refreshed ts (wp_ci w) m m1) by (apply refresh_refreshed; [assumption|apply mining_wf_min; assumption|assumption]).
    exists mining, owner, target, auth, pool, w, m. split; [assumption|]. split; [split; assumption|]. split; [split; assumption|].
    repeat (split; [assumption || congruence|]). split; [apply refresh_iff; eauto|].
    split. { pose proof (mw_sfo _ Hmw) as Hp. unfold is_u64 in Hp. rewrite (rf_sfo _ _ _ _ R) in Hsf. lia. }
    split; [|assumption]. rewrite <- Hu. symmetry. apply R.
  - apply change_inv in X as (pool & mining & auth & owner & old_dm & new_dm & w & m & w' & m' & od & nd & Ha & Hc & So & Hd & Hoo & Hno & Hne & Hop & X & _).
    apply ok_checked in Hd as [new Hnew]. pose proof (ok_ctx e _ _ _ _ _ _ _ _ _ HL Hc) as [Hww Hmw]. apply ctx_accounts in Hc.
    rewrite (part_dlg _ _ _ _ (proj1 Hnew)) in X.
    assert (Hold : exists old, delegate_part e L mining old_dm old).
    { unfold dlg_of in X. destruct (Z.eqb_spec mining old_dm) as [->|Hne2]; [exists None; left; auto|].
      destruct (load_mining (a_data (acc L old_dm))) as [x|] eqn:El.
      - apply load_mining_ok in El. exists (Some x). right. split; [congruence|]. exists x. repeat split; assumption.
      - unfold change_delegate in X. destruct (refresh _ _ _); cbn [rbind] in X; [|discriminate]. cbn [delegate_sub rbind] in X. discriminate. }
    destruct Hold as [old Hold]. rewrite (part_dlg _ _ _ _ Hold) in X.
    exists pool, mining, auth, owner, old_dm, new_dm, w, m, old, new. repeat (split; [assumption || congruence|]).
    eapply change_iff; [exact Hww|exact Hmw|eapply part_wf; eassumption|destruct Hnew; eapply part_wf; eassumption|apply Hi|eauto].
  - apply slash_inv in X as (auth & pool & mining & w & m & w' & m' & Ha & Hc & X & _).
    pose proof (ok_ctx e _ _ _ _ _ _ _ _ _ HL Hc) as [Hww Hmw]. apply ctx_accounts in Hc.
    exists auth, pool, mining, w, m. repeat (split; [assumption|]). eapply slash_iff; [exact Hww|exact Hmw|apply Hi|eauto].
  - apply decrease_inv in X as (auth & pool & mining & w & m & m' & Ha & Hc & X & _).
    pose proof (ok_ctx e _ _ _ _ _ _ _ _ _ HL Hc) as [Hww Hmw]. apply ctx_accounts in Hc.
    exists auth, pool, mining, w, m. repeat (split; [assumption|]). apply decrease_iff; [exact Hmw|apply Hi|eauto].
Qed.

(** ** Sufficiency *)
Ltac load1 :=
  match goal with
  | H : map mt_key ?it = _ :: _ |- context [next_with_owner ?L ?o ?it] =>
      let r := fresh "r" in let E := fresh "E" in
      edestruct (load_owner L o it) as (r & E & ?); [exact H|assumption|rewrite E; clear E; cbn [rbind]]
  | H : map mt_key ?it = _ :: _ |- context [next_signer ?ms ?it] =>
      let r := fresh "r" in let E := fresh "E" in
      edestruct (load_signer ms it) as (r & E & ?); [exact H|assumption|rewrite E; clear E; cbn [rbind]]
  | H : map mt_key ?it = ?k :: _ |- context [next_with_key ?k ?it] =>
      let r := fresh "r" in let E := fresh "E" in
      edestruct (load_key it) as (r & E & ?); [exact H|rewrite E; clear E; cbn [rbind]]
  | H : map mt_key ?it = _ :: _ |- context [next_uninitialized ?L ?it] =>
      let r := fresh "r" in let E := fresh "E" in
      edestruct (load_blank L it) as (r & E & ?); [exact H|assumption|rewrite E; clear E; cbn [rbind]]
  end.
Ltac loads := repeat load1.

Lemma accounts_at ms ks n k : accounts_are ms ks -> nth_error ks n = Some k -> account_at ms n k.
Proof.
  intros [rest E] H. unfold account_at. rewrite E. rewrite nth_error_app1; [assumption|].
  apply nth_error_Some. congruence.
Qed.
Lemma at_same ms n k k' : account_at ms n k -> account_at ms n k' -> k' = k.
Proof. unfold account_at. congruence. Qed.

Lemma transfer_intro ms L src dst auth x :
  writable ms src -> writable ms dst -> signed ms auth -> can_send e L src dst auth x ->
  succeeds (spl_transfer ms L src dst auth x).
Proof.
  intros W1 W2 S (s & d & Hs & Hd & Ho & Hmi & Hle & Hf). unfold spl_transfer, data_of in *.
  rewrite (proj2 (is_writable_ok _ _) W1), (proj2 (is_writable_ok _ _) W2), (proj2 (is_signer_ok _ _) S). cbn [andb ensure rbind].
  rewrite Hs, Hd. cbn [load_token rbind]. rewrite (proj2 (Z.leb_le _ _) Hle), Hmi, Z.eqb_refl, Ho, Z.eqb_refl. cbn [ensure rbind].
  destruct (Z.eqb_spec src dst); [eauto|]. rewrite (proj2 (Z.ltb_lt (t_amount d + x) U64)) by (apply Hf; assumption). cbn [ensure rbind]. eauto.
Qed.

Lemma create_intro ms L from to lam space owner :
  writable ms from -> writable ms to -> can_pay ms L from lam -> vacant L to -> from <> to ->
  create_account ms L from to lam space owner =
  Ok (<[to := Account lam owner (zeros space)]> (put_lamports L from (a_lamports (acc L from) - lam))).
Proof.
  intros W1 W2 (S & Ho & Hd & Hl) V Hne. destruct (vacant_ok _ _ V) as [_ Vd]. destruct V as (Vl & Vo & _).
  unfold create_account, lamports_of, owner_of, data_of in *.
  rewrite (proj2 (is_writable_ok _ _) W1), (proj2 (is_writable_ok _ _) W2), (proj2 (is_signer_ok _ _) S). cbn [andb ensure rbind].
  rewrite Vl, Vo, Vd, Ho, Hd, (proj2 (Z.eqb_neq from to)) by assumption. cbn. rewrite (proj2 (Z.leb_le _ _) Hl). reflexivity.
Qed.

Lemma process_intro now ts ms i L :
  ledger_ok e now L -> 0 <= now <= ts -> ix_in_range i ->
  (forall k, hands_on e ts ms i L k -> writable ms k) ->
  allowed e ts ms i L -> succeeds (process e ts ms i L).
Proof.
  intros HL Hts Hi HW A.
  assert (Hno : forall r, succeeds r -> succeeds (no_ret r)) by (intros r (x & ->); cbn; eauto).
  destruct i; cbn [process allowed ix_in_range hands_on] in *.
  - destruct A as (pool & mint & vault & payer & auth & w & Ha & [Ho Hw] & Ht & Hmo & Hmd & Hf & V & P & Hne & Sa & Hna).
    apply Hno. destruct (vacant_ok _ _ V) as [Vz Vd]. pose proof P as (Sp & Hpo & _).
    assert (W1 : writable ms vault) by (apply HW; left; eapply accounts_at; [exact Ha|reflexivity]).
    assert (W2 : writable ms payer) by (apply HW; right; eapply accounts_at; [exact Ha|reflexivity]).
    destruct Ha as [rest Ha]. cbn [app] in Ha.
    unfold process_initialize_pool. loads. unfold data_of in Hw. rewrite Hw. cbn [data_len load_pool rbind ensure].
    change (POOL_LEN =? POOL_LEN) with true. cbn [ensure rbind]. unfold pool_is_initialized.
    rewrite (proj2 (Z.eqb_neq (p_type (wp w)) _)) by exact Ht. cbn [negb ensure rbind].
    destruct (find_vault e pool mint) as [vk b]. cbn [fst] in Hf. subst vk. rewrite key_ok. cbn [rbind].
    rewrite distinct_intro by (intros ->; apply (eo_sys _ Henv); congruence). cbn [rbind].
    rewrite (create_intro _ _ _ _ _ _ _ W2 W1 P V Hne). cbn [rbind].
    rewrite distinct_intro by assumption. cbn [rbind]. unfold initialize_account.
    rewrite (proj2 (is_writable_ok _ _) W1). cbn [ensure rbind]. rewrite acc_insert. cbn [a_data].
    change (zeros TOKEN_LEN) with (DZeros 165). cbv iota beta.
    assert (mint <> vault) by (destruct V as (_ & V & _); intros ->; apply (eo_toksys _ Henv); congruence).
    assert (mint <> payer) by (intros ->; apply (eo_toksys _ Henv); congruence).
    unfold put_lamports. rewrite !acc_insert_ne by congruence. unfold data_of in Hmd. rewrite Hmd.
    cbn. eauto.
  - destruct A as (pool & mint & vault & auth & source & w & Ha & [Ho Hw] & Hmo & Hv & Hs & Hau & Sa & Hna & Hc & Hr & F1 & F2 & F3 & T).
    apply Hno.
    assert (W1 : writable ms vault) by (apply HW; left; eapply accounts_at; [exact Ha|reflexivity]).
    assert (W2 : writable ms source) by (apply HW; right; eapply accounts_at; [exact Ha|reflexivity]).
    destruct Ha as [rest Ha]. cbn [app] in Ha.
    destruct (proj2 (fill_iff now ts rewards ends_at w (ok_pool e _ _ _ _ HL Ho Hw) (proj2 Hi)) (conj F1 (conj F2 F3))) as [w' Hf].
    unfold process_fill_vault. loads. rewrite (proj2 (Z.eqb_neq rewards 0)) by assumption. cbn [negb ensure rbind].
    unfold data_of in Hw. rewrite Hw. cbn [load_pool rbind]. rewrite Hau, key_ok. cbn [rbind]. rewrite Hc. cbn [pda rbind]. rewrite key_ok. cbn [rbind].
    rewrite Hf. cbn [rbind]. rewrite distinct_intro by assumption. cbn [rbind].
    apply transfer_intro; [assumption..|]. eapply can_send_frame; [..|exact T]; apply acc_put_data_ne;
      intros <-; apply (eo_tok _ Henv); congruence.
  - destruct A as (pool & mining & payer & Ha & Ho & Hf & V & P & Hne). apply Hno.
    assert (W1 : writable ms mining) by (apply HW; left; eapply accounts_at; [exact Ha|reflexivity]).
    assert (W2 : writable ms payer) by (apply HW; right; eapply accounts_at; [exact Ha|reflexivity]).
    destruct (vacant_ok _ _ V) as [Vz Vd]. pose proof P as (Sp & Hpo & _). destruct Ha as [rest Ha]. cbn [app] in Ha.
    unfold process_initialize_mining. loads. destruct (find_mining e mining_owner pool) as [vk b]. cbn [fst] in Hf. subst vk. rewrite key_ok. cbn [rbind].
    rewrite (create_intro _ _ _ _ _ _ _ W2 W1 P V Hne). cbn [rbind]. rewrite acc_insert. cbn. eauto.
  - destruct A as (pool & mining & auth & dm & w & m & d & Ha & Hc & Hd & C).
    apply Hno. destruct Ha as [rest Ha]. cbn [app] in Ha. pose proof (get_ok _ _ _ _ _ _ _ _ Hc) as [Hmp Hg].
    destruct Hc as [Hw Hm _ Sa _ _ _]. pose proof (part_owner _ _ _ _ _ Hm (proj1 Hd)) as Hdo.
    pose proof (checked_ok _ _ _ _ _ _ _ _ Hm Hw Hd) as Hv.
    apply (deposit_iff now) in C as [[[w' m'] d'] X];
      [|eapply ok_pool; [exact HL|apply Hw|apply Hw]|eapply ok_mining; [exact HL|apply Hm|apply Hm]|destruct Hd; eapply part_wf; eassumption|apply Hi].
    rewrite <- (part_dlg _ _ _ _ (proj1 Hd)) in X. pose proof (proj1 Hw) as Ho. pose proof (proj1 Hm) as Hmo.
    unfold process_deposit. loads. rewrite distinct_intro by assumption. cbn [rbind]. rewrite Hg. cbn [rbind]. rewrite Hv. cbn [rbind].
    rewrite X. cbn [rbind]. eauto.
  - destruct A as (pool & mining & auth & dm & w & m & d & Ha & Hc & Hd & C).
    apply Hno. destruct Ha as [rest Ha]. cbn [app] in Ha. pose proof (get_ok _ _ _ _ _ _ _ _ Hc) as [Hmp Hg].
    destruct Hc as [Hw Hm _ Sa _ _ _]. pose proof (part_owner _ _ _ _ _ Hm (proj1 Hd)) as Hdo.
    pose proof (checked_ok _ _ _ _ _ _ _ _ Hm Hw Hd) as Hv.
    apply (withdraw_iff now) in C as [[[w' m'] d'] X];
      [|eapply ok_pool; [exact HL|apply Hw|apply Hw]|eapply ok_mining; [exact HL|apply Hm|apply Hm]|destruct Hd; eapply part_wf; eassumption|apply Hi].
    rewrite <- (part_dlg _ _ _ _ (proj1 Hd)) in X. pose proof (proj1 Hw) as Ho. pose proof (proj1 Hm) as Hmo.
    unfold process_withdraw. loads. rewrite distinct_intro by assumption. cbn [rbind]. rewrite Hg. cbn [rbind]. rewrite Hv. cbn [rbind].
    rewrite X. cbn [rbind]. eauto.
  - destruct A as (pool & mint & vault & mining & owner & auth & dest & w & m & t & Ha & Hp & Hmi & Hmo & Hv & Hdo & Hdd & Hto & So & Sa & Hau & Hmow & Hmp & Hc & R & T).
    assert (W : 0 < tokens_at ts (wp_ci w) m -> writable ms vault /\ writable ms dest).
    { intros Hpos.
      assert (X : exists pool mining w m, account_at ms 0 pool /\ account_at ms 3 mining /\
                    is_pool e L pool w /\ is_mining e L mining m /\ 0 < tokens_at ts (wp_ci w) m).
      { exists pool, mining, w, m. split; [eapply accounts_at; [exact Ha|reflexivity]|]. split; [eapply accounts_at; [exact Ha|reflexivity]|]. auto. }
      split; apply HW; (split; [|exact X]); [left|right]; eapply accounts_at; try exact Ha; reflexivity. }
    destruct Ha as [rest Ha]. cbn [app] in Ha. pose proof (pool_not_mining _ _ _ _ _ Hp Hmi) as Hne.
    destruct Hp as [Ho Hw], Hmi as [Hmio Hm].
    pose proof (ok_pool e _ _ _ _ HL Ho Hw) as Hww. pose proof (ok_mining e _ _ _ _ HL Hmio Hm) as Hmw.
    pose proof (pool_wf_hist _ _ Hww) as Hh.
    apply refresh_iff in R as [m1 Hr]; [|assumption..].
    assert (R : refreshed ts (wp_ci w) m m1) by (apply refresh_refreshed; [assumption|apply mining_wf_min; assumption|assumption]).
    replace (tokens_at ts (wp_ci w) m) with (m_unclaimed (wm m1)) in T, W by apply R.
    enough (X : succeeds (process_claim e ts ms L)) by (destruct X as ([L1 x] & ->); cbn; eauto).
    unfold process_claim. loads. unfold data_of in *. rewrite Hdd. cbn [load_token rbind]. rewrite Hto, key_ok. cbn [rbind]. rewrite Hw. cbn [load_pool rbind].
    rewrite Hau, key_ok. cbn [rbind]. rewrite distinct_intro by assumption. cbn [rbind]. rewrite Hm. cbn [load_mining rbind]. rewrite Hmow, key_ok. cbn [rbind].
    rewrite Hmp, key_ok. cbn [rbind]. rewrite Hc. cbn [pda rbind]. rewrite key_ok. cbn [rbind]. rewrite Hr. cbn [rbind].
    destruct (Z.ltb_spec 0 (m_unclaimed (wm m1))) as [Hpos|]; [|cbn [rbind]; eauto].
    destruct (W Hpos) as [W1 W2]. rewrite bind_ex. edestruct transfer_intro as [L1 X]; [exact W1|exact W2|exact Sa| |exists L1; split; [exact X|eauto]].
    eapply can_send_frame; [..|exact (T Hpos)]; apply acc_put_data_ne; intros <-; apply (eo_tok _ Henv); congruence.
  - destruct A as (pool & mining & auth & dm & w & m & d & Ha & Hc & Hd & C).
    apply Hno. destruct Ha as [rest Ha]. cbn [app] in Ha. pose proof (get_ok _ _ _ _ _ _ _ _ Hc) as [Hmp Hg].
    destruct Hc as [Hw Hm _ Sa _ _ _]. pose proof (part_owner _ _ _ _ _ Hm (proj1 Hd)) as Hdo.
    pose proof (checked_ok _ _ _ _ _ _ _ _ Hm Hw Hd) as Hv.
    apply (extend_iff now) in C as [[[w' m'] d'] X];
      [|eapply ok_pool; [exact HL|apply Hw|apply Hw]|eapply ok_mining; [exact HL|apply Hm|apply Hm]|destruct Hd; eapply part_wf; eassumption|lia|apply Hi|apply Hi|apply Hi].
    rewrite <- (part_dlg _ _ _ _ (proj1 Hd)) in X. pose proof (proj1 Hw) as Ho. pose proof (proj1 Hm) as Hmo.
    unfold process_extend. loads. rewrite distinct_intro by assumption. cbn [rbind]. rewrite Hg. cbn [rbind]. rewrite Hv. cbn [rbind].
    rewrite X. cbn [rbind]. eauto.
  - destruct A as (pool & auth & w & Ha & [Ho Hw] & Hau & Sa & C). apply Hno. destruct Ha as [rest Ha]. cbn [app] in Ha.
    apply (distribute_iff now) in C; [|eapply ok_pool; eassumption]. apply bind_ex in C as (r0 & Hr & w' & Hd).
    unfold process_distribute. loads. unfold data_of in Hw. rewrite Hw. cbn [load_pool rbind]. rewrite Hr. cbn [rbind]. rewrite Hau, key_ok. cbn [rbind].
    rewrite Hd. cbn [rbind]. eauto.
  - destruct A as (mining & owner & target & auth & pool & w & m & Ha & Hp & Hmi & Hto & So & Sa & Hau & Hmow & R & Hsf & Hu & Hlam).
    apply Hno. destruct Ha as [rest Ha]. cbn [app] in Ha. pose proof (pool_not_mining _ _ _ _ _ Hp Hmi) as Hne.
    destruct Hp as [Ho Hw], Hmi as [Hmio Hm].
    pose proof (ok_pool e _ _ _ _ HL Ho Hw) as Hww. pose proof (ok_mining e _ _ _ _ HL Hmio Hm) as Hmw.
    pose proof (pool_wf_hist _ _ Hww) as Hh.
    apply refresh_iff in R as [m1 Hr]; [|assumption..].
    assert (R : refreshed ts (wp_ci w) m m1) by (apply refresh_refreshed; [assumption|apply mining_wf_min; assumption|assumption]).
    replace (tokens_at ts (wp_ci w) m) with (m_unclaimed (wm m1)) in Hu by apply R. rewrite <- (rf_sfo _ _ _ _ R) in Hsf.
    unfold process_close. loads. unfold data_of, lamports_of in *. rewrite Hw. cbn [load_pool rbind].
    rewrite Hau, key_ok. cbn [rbind]. rewrite distinct_intro by assumption. cbn [rbind]. rewrite Hm. cbn [load_mining rbind]. rewrite Hmow, key_ok. cbn [rbind].
    rewrite Hr. cbn [rbind]. rewrite Hsf, Hu. cbn [Z.ltb Z.compare negb ensure rbind Z.eqb].
    rewrite (proj2 (safe_add64_ok _ _ _) (conj Hlam eq_refl)). cbn [rbind]. eauto.
  - destruct A as (pool & mining & auth & owner & old_dm & new_dm & w & m & old & new & Ha & Hc & So & Hne & Hold & Hnew & C).
    apply Hno. destruct Ha as [rest Ha]. cbn [app] in Ha. pose proof (get_ok _ _ _ _ _ _ _ _ Hc) as [Hmp Hg].
    destruct Hc as [Hw Hm _ Sa _ _ _]. pose proof (part_owner _ _ _ _ _ Hm Hold) as Hoo. pose proof (part_owner _ _ _ _ _ Hm (proj1 Hnew)) as Hno'.
    pose proof (checked_ok _ _ _ _ _ _ _ _ Hm Hw Hnew) as Hv.
    apply (change_iff now) in C as [[[[w' m'] od] nd] X];
      [|eapply ok_pool; [exact HL|apply Hw|apply Hw]|eapply ok_mining; [exact HL|apply Hm|apply Hm]|eapply part_wf; eassumption|destruct Hnew; eapply part_wf; eassumption|apply Hi].
    rewrite <- (part_dlg _ _ _ _ Hold), <- (part_dlg _ _ _ _ (proj1 Hnew)) in X.
    pose proof (part_ne _ _ _ _ _ _ _ Hm Hw Hold) as Hnp. pose proof (proj1 Hw) as Ho. pose proof (proj1 Hm) as Hmo.
    unfold process_change_delegate. loads. rewrite (proj2 (Z.eqb_neq new_dm old_dm)) by congruence. cbn [negb ensure rbind].
    rewrite distinct_intro by assumption. cbn [rbind]. rewrite Hg. cbn [rbind]. rewrite Hv. cbn [rbind].
    unfold old_dlg. rewrite (proj2 (Z.eqb_neq old_dm pool)) by assumption. rewrite X. cbn [rbind]. eauto.
  - destruct A as (auth & pool & mining & w & m & Ha & Hc & C).
    apply Hno. destruct Ha as [rest Ha]. cbn [app] in Ha. pose proof (get_ok _ _ _ _ _ _ _ _ Hc) as [Hmp Hg].
    destruct Hc as [Hw Hm _ Sa _ _ _].
    apply (slash_iff now) in C as [[w' m'] X];
      [|eapply ok_pool; [exact HL|apply Hw|apply Hw]|eapply ok_mining; [exact HL|apply Hm|apply Hm]|apply Hi].
    pose proof (proj1 Hw) as Ho. pose proof (proj1 Hm) as Hmo.
    unfold process_slash. loads. rewrite distinct_intro by assumption. cbn [rbind]. rewrite Hg. cbn [rbind]. rewrite X. cbn [rbind]. eauto.
  - destruct A as (auth & pool & mining & w & m & Ha & Hc & C).
    apply Hno. destruct Ha as [rest Ha]. cbn [app] in Ha. pose proof (get_ok _ _ _ _ _ _ _ _ Hc) as [Hmp Hg].
    destruct Hc as [Hw Hm _ Sa _ _ _].
    apply decrease_iff in C as [m' X]; [|eapply ok_mining; [exact HL|apply Hm|apply Hm]|apply Hi].
    pose proof (proj1 Hw) as Ho. pose proof (proj1 Hm) as Hmo.
    unfold process_decrease. loads. rewrite distinct_intro by assumption. cbn [rbind]. rewrite Hg. cbn [rbind]. rewrite X. cbn [rbind]. eauto.
Qed.

Lemma allowed_signs ts ms i L n k :
  allowed e ts ms i L -> In n (must_sign i) -> account_at ms n k -> signed ms k.
Proof.
  intros A Hn Hk.
  destruct i; cbn [allowed must_sign] in *; repeat match goal with
  | H : exists _, _ |- _ => destruct H
  | H : _ /\ _ |- _ => destruct H
  | H : can_pay _ _ _ _ |- _ => destruct H as [? _]
  | H : stake_accounts _ _ _ _ _ _ _ _ _ |- _ => destruct H
  end.
  all: cbn [In] in Hn; repeat destruct Hn as [<-|Hn]; try contradiction.
  all: match goal with H : accounts_are _ _ |- _ => destruct H as [rest Hr] end;
       unfold account_at in Hk; rewrite Hr in Hk; cbn in Hk; injection Hk as <-; assumption.
Qed.

Lemma succeeds_iff now ts ms i L :
  reached e now L -> now <= ts -> ix_in_range i ->
  (forall n k, In n (may_change i) -> account_at ms n k -> writable ms k) ->
  succeeds (exec e ts ms i L) <-> allowed e ts ms i L.
Proof.
  intros HR Hts Hi HW. destruct (reached_ok e Henv _ _ HR) as (HL & _ & H0). split.
  - intros [[L' r] X]. eapply allowed_needed; [exact HL| |exact Hi|exact X]. lia.
  - intros A.
    assert (HW' : forall k, hands_on e ts ms i L k -> writable ms k).
    { intros k Hk. destruct i; cbn [hands_on] in Hk; try contradiction;
        repeat match goal with H : _ /\ _ |- _ => destruct H | H : _ \/ _ |- _ => destruct H end;
        (eapply HW; [|eassumption]; cbn; auto). }
    destruct (process_intro now ts ms i L HL ltac:(lia) Hi HW' A) as [x X]. exists x.
    apply exec_intro; [exact X|]. split; [|exact HW]. intros n k. apply (allowed_signs ts ms i L n k A).
Qed.

Lemma only_allowed now ts ms i L L' r :
  reached e now L -> now <= ts -> ix_in_range i -> exec e ts ms i L = Ok (L', r) -> allowed e ts ms i L.
Proof.
  intros HR Hts Hi X. destruct (reached_ok e Henv _ _ HR) as (HL & _ & H0).
  eapply allowed_needed; [exact HL| |exact Hi|exact X]. lia.
Qed.
Lemma built_iff now ts ms i L :
  reached e now L -> now <= ts -> ix_in_range i -> built e ms i ->
  succeeds (exec e ts ms i L) <-> allowed e ts ms i L.
Proof.
  intros HR Hts Hi Hb. apply (succeeds_iff now); [assumption..|]. apply (built_flags e ms i Hb).
Qed.
End env.
