(** What one instruction can do to one account. *)
From stdpp Require Import gmap.
From Verif Require Import Base OMap State Spec Ledger Program ResLemmas TreeLemmas AccrualLemmas RefreshLemmas
  LedgerLemmas LedgerSpec CodecLemmas FrameLemmas WfLemmas History HistoryLemmas.

(** ** Index monotonicity *)
Lemma update_index_ge ci d s u j u' j' : mining_update_index ci d s u j = Ok (u', j') -> j <= j'.
Proof. unfold mining_update_index. intros H. inv. assumption. Qed.

Lemma consume_loop_ge ci b l : forall s u j s' u' j' ds,
  mining_consume_loop ci b l s u j = Ok (s', u', j', ds) -> j <= j'.
Proof.
  induction l as [|[k v] r IH]; intros s u j s' u' j' ds H; cbn in H; [inv; lia|].
  destruct (b <? k); inv; [lia|].
  match goal with H : mining_update_index _ _ _ _ _ = _ |- _ => apply update_index_ge in H end.
  match goal with H : mining_consume_loop _ _ _ _ _ _ = _ |- _ => apply IH in H end. lia.
Qed.

(** the mining is the same one and has not gone back *)
Definition mining_grows (m m' : wmining) : Prop := same_id m m' /\ m_index (wm m) <= m_index (wm m').

Lemma mining_grows_trans a b c : mining_grows a b -> mining_grows b c -> mining_grows a c.
Proof. intros [A B] [C D]. split; [eapply same_id_trans; eassumption|lia]. Qed.
Lemma mining_grows_refl a : mining_grows a a.
Proof. split; [apply same_id_refl|lia]. Qed.

Lemma refresh_grows ts ci m m' : refresh ts ci m = Ok m' -> mining_grows m m'.
Proof.
  intros H. split; [eapply refresh_id; eassumption|].
  unfold refresh in H. cbv zeta in H. inv. unfold mining_consume in *. inv. cbn.
  match goal with H : mining_update_index _ _ _ _ _ = _ |- _ => apply update_index_ge in H end.
  match goal with H : mining_consume_loop _ _ _ _ _ _ = _ |- _ => apply consume_loop_ge in H end. lia.
Qed.

Definition dlg_grows (d : dlg) (d' : option wmining) : Prop :=
  match d, d' with
  | None, None => True
  | Some (Ok m), Some m' => mining_grows m m'
  | _, _ => False
  end.

Lemma delegate_sub_grows ts a ci t d t' d' : delegate_sub ts a ci t d = Ok (t', d') -> dlg_grows d d'.
Proof.
  destruct d as [[m|]|]; cbn [delegate_sub]; intros H; inv; cbn; auto.
  match goal with H : refresh _ _ _ = _ |- _ => apply refresh_grows in H; exact H end.
Qed.
Lemma delegate_add_grows ts a ci t d t' d' : delegate_add ts a ci t d = Ok (t', d') -> dlg_grows d d'.
Proof.
  destruct d as [[m|]|]; cbn [delegate_add]; intros H; inv; cbn; auto.
  match goal with H : refresh _ _ _ = _ |- _ => apply refresh_grows in H; exact H end.
Qed.

(** the pool is the same one, its index has not fallen, its history has only been extended,
    with days from [ts] on *)
Definition pool_grows (ts : Z) (w w' : wpool) : Prop :=
  same_config w w' /\ p_index (wp w) <= p_index (wp w') /\
  exists s, wp_ci w' = wp_ci w ++ s /\ dates (fun k => day_start ts <= k) s.

Lemma dates_nil P : dates P [].
Proof. intros ? ? []. Qed.
Lemma pool_grows_refl ts w : pool_grows ts w w.
Proof. split; [apply same_config_refl|]. split; [lia|]. exists []. rewrite app_nil_r. split; [reflexivity|apply dates_nil]. Qed.
Lemma pool_grows_trans ts ts' a b c : ts <= ts' -> pool_grows ts a b -> pool_grows ts' b c -> pool_grows ts a c.
Proof.
  intros Ht (A & B & s & C & D) (A' & B' & s' & C' & D'). split; [eapply same_config_trans; eassumption|].
  split; [lia|]. exists (s ++ s'). rewrite C', C, app_assoc. split; [reflexivity|].
  intros k v Hin. apply in_app_iff in Hin as [Hin|Hin]; [eapply D; eassumption|].
  apply D' in Hin. rewrite <- !bod_day_start in *. pose proof (bod_mono ts ts' Ht). lia.
Qed.
Lemma pool_grows_mono ts ts' w w' : ts <= ts' -> pool_grows ts' w w' -> pool_grows ts w w'.
Proof. intros H G. eapply pool_grows_trans; [exact H|apply pool_grows_refl|exact G]. Qed.
Lemma stake_only_grows ts w w' : stake_only w w' -> pool_grows ts w w'.
Proof.
  intros H. split; [apply stake_only_config; assumption|]. destruct H as (t & ds & ->). cbn.
  split; [lia|]. exists []. rewrite app_nil_r. split; [reflexivity|apply dates_nil].
Qed.
Lemma fill_grows ts r x w w' : fill_pool ts r x w = Ok w' -> pool_grows ts w w'.
Proof.
  intros H. split; [eapply fill_config; eassumption|]. unfold fill_pool in H. cbv zeta in H. inv. cbn.
  split; [lia|]. exists []. rewrite app_nil_r. split; [reflexivity|apply dates_nil].
Qed.
Lemma distribute_grows now ts r w w' :
  now <= ts -> 0 <= r -> pool_wf now w -> distribute ts r w = Ok w' -> pool_grows ts w w'.
Proof.
  intros Hn Hr Hp H. split; [eapply distribute_config; eassumption|].
  unfold distribute in H. cbv zeta in H. inv.
  match goal with H : pool_consume _ _ _ = Ok _ |- _ =>
    eapply pool_consume_wf in H as [Hs Ht1]; [|eapply pool_wf_sched; eassumption|apply Hp] end.
  destruct (ohas (bod ts) (wp_ci w)) eqn:Eh; inv; cbn [wp wp_ci set_total set_index set_avail p_index].
  - split; [lia|]. exists []. rewrite app_nil_r. split; [reflexivity|apply dates_nil].
  - unfold pool_update_index in *. inv. cbn [set_total p_index p_total] in *.
    split.
    + assert (0 <= PRECISION * r / z); [|lia].
      apply Z.div_pos; [unfold PRECISION; lia|]. unfold is_u64 in Ht1. lia.
    + unfold oinsert. rewrite Eh. destruct (_ <? _); [|exists []; rewrite app_nil_r; split; [reflexivity|apply dates_nil]].
      assert (Hlt : forall k v, In (k, v) (wp_ci w) -> k < bod ts).
      { intros k v Hin. pose proof (pool_wf_mono _ _ _ Hn Hp) as Hp'.
        pose proof (pw_ci_dates _ _ Hp' _ _ Hin) as B. rewrite <- bod_day_start in B.
        apply ohas_false in Eh. assert (k <> bod ts); [|lia].
        intros ->. rewrite oget_none in Eh. eapply Eh. eassumption. }
      rewrite (oput_last _ _ _ Hlt). eexists. split; [reflexivity|].
      intros k v [Ei|[]]. injection Ei as <- _. rewrite <- bod_day_start. lia.
Qed.

(** ** Per-method *)
Lemma deposit_grows ts w m a p d w' m' d' :
  deposit ts w m a p d = Ok (w', m', d') -> pool_grows ts w w' /\ mining_grows m m' /\ dlg_grows d d'.
Proof.
  intros H. split; [apply stake_only_grows; eapply deposit_frame; eassumption|].
  unfold deposit in H. inv.
  split; [|eapply delegate_add_grows; eassumption].
  match goal with H : refresh _ _ _ = _ |- _ => apply refresh_grows in H as [[] ?] end.
  split; [split; assumption|assumption].
Qed.
Lemma withdraw_grows ts w m a d w' m' d' :
  withdraw ts w m a d = Ok (w', m', d') -> pool_grows ts w w' /\ mining_grows m m' /\ dlg_grows d d'.
Proof.
  intros H. split; [apply stake_only_grows; eapply withdraw_frame; eassumption|].
  unfold withdraw in H. inv.
  split; [|eapply delegate_sub_grows; eassumption].
  match goal with H : refresh _ _ _ = _ |- _ => apply refresh_grows in H as [[] ?] end.
  split; [split; assumption|assumption].
Qed.
Lemma slash_grows ts w m n wt dt w' m' :
  slash ts w m n wt dt = Ok (w', m') -> pool_grows ts w w' /\ mining_grows m m'.
Proof.
  intros H. pose proof (slash_frame _ _ _ _ _ _ _ _ H) as [A B].
  split; [apply stake_only_grows; assumption|]. split; [assumption|].
  unfold slash in H.
  destruct (withdraw ts w m wt None) as [[[w1 m1] d1]|] eqn:E; cbn [rbind] in H; [|discriminate].
  apply withdraw_grows in E as (_ & [_ Hm] & _). destruct dt; cbv zeta in H; inv; assumption.
Qed.
Lemma extend_grows ts w m op np st b a d w' m' d' :
  extend ts w m op np st b a d = Ok (w', m', d') -> pool_grows ts w w' /\ mining_grows m m' /\ dlg_grows d d'.
Proof.
  intros H. split; [apply stake_only_grows; eapply extend_frame; eassumption|].
  unfold extend in H.
  destruct (refresh ts (wp_ci w) m) as [m1|] eqn:E1; cbn [rbind] in H; [|discriminate].
  destruct (if lockup_eqb op LFlex then _ else _) as [oe|]; cbn [rbind] in H; [|discriminate].
  destruct (safe_mul64 b _) as [fl|]; cbn [rbind] in H; [|discriminate].
  match type of H with rbind ?x _ = _ => destruct x as [[m2 t]|] eqn:E2 end; cbn [rbind] in H; [|discriminate].
  destruct (safe_add64 b a) as [am|]; cbn [rbind] in H; [|discriminate].
  destruct (delegate_sub _ _ _ _ _) as [[t' d1]|] eqn:E3; cbn [rbind] in H; [|discriminate].
  apply deposit_grows in H as (_ & Hm & Hd). apply delegate_sub_grows in E3.
  apply refresh_grows in E1.
  split.
  - eapply mining_grows_trans; [exact E1|]. eapply mining_grows_trans; [|exact Hm].
    destruct (ts <? oe); inv; (split; [repeat split|cbn; lia]).
  - destruct d as [[m0|]|], d1 as [m1'|], d' as [m2'|]; cbn in *; try contradiction; auto.
    eapply mining_grows_trans; eassumption.
Qed.
Lemma change_grows ts w m nd od a w' m' od' nd' :
  change_delegate ts w m nd od a = Ok (w', m', od', nd') ->
  pool_grows ts w w' /\ mining_grows m m' /\ dlg_grows od od' /\ dlg_grows nd nd'.
Proof.
  intros H. split; [apply stake_only_grows; eapply change_frame; eassumption|].
  unfold change_delegate in H. inv.
  split; [eapply refresh_grows; eassumption|].
  split; [eapply delegate_sub_grows; eassumption|eapply delegate_add_grows; eassumption].
Qed.
Lemma decrease_grows n m m' : decrease_rewards n m = Ok m' -> mining_grows m m'.
Proof.
  intros H. split; [eapply decrease_frame; eassumption|].
  unfold decrease_rewards in H. destruct (n =? 0); inv; [lia|].
  destruct (_ <? n); inv. cbn. lia.
Qed.

(** ** Accounts *)
Lemma at_pos ms ks n k : accounts_are ms ks -> nth_error ks n = Some k -> account_at ms n k.
Proof.
  intros [rest H] E. unfold account_at. rewrite H, nth_error_app1; [assumption|].
  apply nth_error_Some. congruence.
Qed.
Lemma at_fun ms n k k' : account_at ms n k -> account_at ms n k' -> k = k'.
Proof. unfold account_at. congruence. Qed.

Ltac at_ := eapply at_pos; [eassumption|reflexivity].

Inductive change (e : env) (ts : Z) (ms : list meta) (i : ix) (k : pubkey) (a a' : account) : Prop :=
| ch_same : a' = a -> change e ts ms i k a a'
| ch_pool w w' :
    a_owner a = program_id e -> a_data a = DPool w ->
    a' = Account (a_lamports a) (a_owner a) (DPool w') -> pool_grows ts w w' -> change e ts ms i k a a'
| ch_pool_init w vault bump auth dist fill mint :
    i = InitializePool fill dist -> account_at ms 0 k -> signed ms auth ->
    a_owner a = program_id e -> a_data a = DPool w -> p_type (wp w) <> TYPE_POOL ->
    find_vault e k mint = (vault, bump) ->
    a' = Account (a_lamports a) (a_owner a) (DPool (WPool (pool_initialize bump auth dist fill mint) [] [])) ->
    change e ts ms i k a a'
| ch_mining m m' :
    a_owner a = program_id e -> a_data a = DMining m ->
    a' = Account (a_lamports a) (a_owner a) (DMining m') -> mining_grows m m' -> change e ts ms i k a a'
| ch_mining_new pool owner bump :
    i = InitializeMining owner -> account_at ms 0 pool ->
    a_owner a = system_id -> a_lamports a = 0 -> data_len (a_data a) = 0 ->
    find_mining e owner pool = (k, bump) ->
    a' = Account (rent_min e MINING_LEN) (program_id e)
           (DMining (WMining (mining_initialize pool owner bump) [])) ->
    change e ts ms i k a a'
| ch_mining_close m :
    i = CloseMining -> account_at ms 0 k -> a_owner a = program_id e -> a_data a = DMining m ->
    a' = Account 0 (a_owner a) (DMining zero_wmining) -> change e ts ms i k a a'
| ch_lamports x :
    a_owner a = system_id -> a' = Account x (a_owner a) (a_data a) -> change e ts ms i k a a'
| ch_token t x :
    a_owner a = spl_token_id e -> a_data a = DToken t ->
    a' = Account (a_lamports a) (a_owner a) (DToken (Token (t_mint t) (t_owner t) x)) -> change e ts ms i k a a'
| ch_vault_new pool bump mint auth :
    a_owner a = system_id -> a_lamports a = 0 -> data_len (a_data a) = 0 ->
    find_vault e pool mint = (k, bump) ->
    a' = Account (rent_min e TOKEN_LEN) (spl_token_id e) (DToken (Token mint auth 0)) ->
    (exists fill dist, i = InitializePool fill dist) -> account_at ms 0 pool -> change e ts ms i k a a'.

Lemma acc_put L k d k' :
  acc (put_data L k d) k' =
  if k' =? k then Account (a_lamports (acc L k)) (a_owner (acc L k)) d else acc L k'.
Proof.
  destruct (Z.eqb_spec k' k) as [->|]; [apply acc_insert|]. unfold put_data. apply acc_insert_ne. congruence.
Qed.
Lemma acc_ins L k a k' : acc (<[k := a]> L) k' = if k' =? k then a else acc L k'.
Proof. destruct (Z.eqb_spec k' k) as [->|]; [apply acc_insert|]. apply acc_insert_ne. congruence. Qed.
Lemma acc_put_lam L k x k' :
  acc (put_lamports L k x) k' =
  if k' =? k then Account x (a_owner (acc L k)) (a_data (acc L k)) else acc L k'.
Proof. unfold put_lamports. apply acc_ins. Qed.

Lemma dlg_of_cases L dm mining d' :
  dlg_grows (dlg_of L dm mining) d' ->
  (dm = mining /\ d' = None) \/
  (dm <> mining /\ exists m m', data_of L dm = DMining m /\ d' = Some m' /\ mining_grows m m').
Proof.
  unfold dlg_of. destruct (Z.eqb_spec mining dm).
  - destruct d'; cbn; [contradiction|]. left. split; [congruence|reflexivity].
  - destruct (load_mining _) as [m|] eqn:E; cbn; [|contradiction].
    destruct d' as [m'|]; [|contradiction]. intros H. right. split; [congruence|].
    apply load_mining_ok in E. exists m, m'. auto.
Qed.

(** acc of the ledger after a stake instruction, account by account *)
Lemma stake_change e ts ms i L pool mining dm w w' m m' d' :
  owner_of L pool = program_id e -> data_of L pool = DPool w -> pool_grows ts w w' ->
  owner_of L mining = program_id e -> data_of L mining = DMining m -> mining_grows m m' ->
  owner_of L dm = program_id e -> dm <> pool -> mining <> pool ->
  dlg_grows (dlg_of L dm mining) d' ->
  forall k, change e ts ms i k (acc L k) (acc (put_dlg (put_mining (put_pool L pool w') mining m') dm d') k).
Proof.
  intros Hp Hpd Hpg Hm Hmd Hmg Hd Hdp Hmp Hdg k.
  assert (Hbase : forall k, k <> dm \/ d' = None ->
    change e ts ms i k (acc L k) (acc (put_mining (put_pool L pool w') mining m') k)).
  { intros k' _. unfold put_mining, put_pool. rewrite !acc_put.
    destruct (Z.eqb_spec k' mining) as [->|].
    - destruct (Z.eqb_spec mining pool); [contradiction|].
      eapply ch_mining; eauto.
    - destruct (Z.eqb_spec k' pool) as [->|]; [|apply ch_same; reflexivity].
      eapply ch_pool; eauto. }
  apply dlg_of_cases in Hdg as [[-> ->]|(Hne & dmm & dmm' & Hdd & -> & Hg)]; cbn [put_dlg].
  - apply Hbase. auto.
  - unfold put_mining at 1. rewrite acc_put. destruct (Z.eqb_spec k dm) as [->|]; [|apply Hbase; auto].
    unfold put_mining, put_pool. rewrite !acc_put.
    destruct (Z.eqb_spec dm mining); [contradiction|]. destruct (Z.eqb_spec dm pool); [contradiction|].
    eapply ch_mining; eauto.
Qed.

Lemma delegate_ne_pool e ms L owner pool mining auth w m dm delegate :
  stake_ctx e ms L owner pool mining auth w m -> delegate_ok e L mining dm delegate pool -> dm <> pool.
Proof. intros [] [->|(_ & H & _)]; assumption. Qed.

Lemma process_change e now ts ms i L L' r :
  env_ok e -> now <= ts -> ledger_ok e now L ->
  process e ts ms i L = Ok (L', r) -> forall k, change e ts ms i k (acc L k) (acc L' k).
Proof.
  intros Henv Hts HL H.
  assert (Hgen : forall i0, i0 = i -> forall k, change e ts ms i0 k (acc L k) (acc L' k)); [|apply Hgen; reflexivity].
  intros i0 Hi0. destruct i; cbn [process] in *; try (apply no_ret_ok in H as [H _]).
  - apply init_pool_inv in H as (pool & mint & vault & payer & auth & bump & w & L1 & L2 & HA & Hp & _ & _ & _ & Hsg & Hd & Ht & Hv & Hpp & _ & Hc & Ha & ->).
    apply create_account_inv in Hc as (_ & _ & _ & Hl0 & Hvo & Hvd & Hfo & Hfd & Hfv & _ & ->).
    apply initialize_account_inv in Ha as (_ & _ & _ & ->).
    assert (Hvp : vault <> pool) by (intros ->; pose proof (eo_sys _ Henv); congruence).
    intros k. unfold put_pool. rewrite !acc_put, !acc_ins, !acc_put_lam.
    destruct (Z.eqb_spec pool vault); [congruence|]. destruct (Z.eqb_spec pool payer); [congruence|].
    destruct (Z.eqb_spec k pool) as [->|].
    + eapply ch_pool_init; [exact Hi0|at_|eassumption|eassumption|eassumption|eassumption|eassumption|reflexivity].
    + rewrite Z.eqb_refl. destruct (Z.eqb_spec k vault) as [->|].
      * eapply ch_vault_new; [eauto ..|at_].
      * destruct (Z.eqb_spec k payer) as [->|]; [|apply ch_same; reflexivity].
        eapply ch_lamports; eauto.
  - apply fill_inv in H as (pool & mint & vault & auth & src & w & w' & _ & Ho & _ & Hvo & Hso & _ & _ & Hd & _ & _ & _ & Hf & Ht).
    apply fill_grows in Hf.
    assert (Hv : vault <> pool) by (intros ->; pose proof (eo_tok _ Henv); congruence).
    assert (Hs : src <> pool) by (intros ->; pose proof (eo_tok _ Henv); congruence).
    assert (Hbase : forall k, k <> vault -> k <> src -> change e ts ms i0 k (acc L k) (acc (put_pool L pool w') k)).
    { intros k _ _. unfold put_pool. rewrite acc_put. destruct (Z.eqb_spec k pool) as [->|]; [|apply ch_same; reflexivity].
      eapply ch_pool; eauto. }
    apply spl_transfer_inv in Ht as (s & d & Hsd & Hdd & _ & _ & _ & _ & _ & _ & Hcase).
    unfold data_of, put_pool in Hsd, Hdd. rewrite acc_put in Hsd, Hdd.
    destruct (Z.eqb_spec src pool); [contradiction|]. destruct (Z.eqb_spec vault pool); [contradiction|].
    intros k. destruct Hcase as [[-> ->]|(Hne & _ & ->)].
    + destruct (Z.eq_dec k vault) as [->|]; [|auto]. unfold put_pool. rewrite acc_put.
      destruct (Z.eqb_spec vault pool); [contradiction|]. apply ch_same. reflexivity.
    + rewrite !acc_put. destruct (Z.eqb_spec vault src) as [->|]; [congruence|].
      destruct (Z.eqb_spec k vault) as [->|].
      * unfold put_pool. rewrite !acc_put. destruct (Z.eqb_spec vault pool); [contradiction|].
        eapply ch_token; [exact Hvo|exact Hdd|]. reflexivity.
      * destruct (Z.eqb_spec k src) as [->|]; [|auto].
        unfold put_pool. rewrite !acc_put. destruct (Z.eqb_spec src pool); [contradiction|].
        eapply ch_token; [exact Hso|exact Hsd|]. reflexivity.
  - apply init_mining_inv in H as (pool & mining & payer & bump & L1 & HA & _ & _ & _ & Hf & Hc & ->).
    apply create_account_inv in Hc as (_ & _ & _ & Hl0 & Hvo & Hvd & Hfo & Hfd & Hfv & _ & ->).
    intros k. unfold put_mining. rewrite !acc_put, !acc_ins, !acc_put_lam, Z.eqb_refl.
    destruct (Z.eqb_spec k mining) as [->|].
    + eapply ch_mining_new; [exact Hi0|at_|eauto ..].
    + destruct (Z.eqb_spec k payer) as [->|]; [|apply ch_same; reflexivity].
      eapply ch_lamports; eauto.
  - apply deposit_inv in H as (pool & mining & auth & dm & w & m & w' & m' & d' & _ & Hc & Hdo & Ho & Hd & ->).
    pose proof (delegate_ne_pool _ _ _ _ _ _ _ _ _ _ _ Hc Hdo). destruct Hc.
    apply deposit_grows in Hd as (A & B & C). eapply stake_change; eauto.
  - apply withdraw_inv in H as (pool & mining & auth & dm & w & m & w' & m' & d' & _ & Hc & Hdo & Ho & Hd & ->).
    pose proof (delegate_ne_pool _ _ _ _ _ _ _ _ _ _ _ Hc Hdo). destruct Hc.
    apply withdraw_grows in Hd as (A & B & C). eapply stake_change; eauto.
  - destruct (process_claim e ts ms L) as [[L1 x]|] eqn:E; [|discriminate]. injection H as <- <-.
    apply claim_inv in E as (pool & mint & vault & mining & owner & auth & dest & w & m & m1 & t & _ & Hp & _ & Hvo & Hmo & Hdo & _ & _ & _ & _ & Hpd & _ & Hmd & _ & _ & _ & _ & Hr & Hz & Hcase).
    cbv zeta in Hcase. apply refresh_grows in Hr.
    assert (Hm : mining_grows m (WMining (mining_claim (wm m1)) (wm_diffs m1))).
    { destruct Hr as [[] ?]. split; [split; assumption|assumption]. }
    assert (Hv : vault <> mining) by (intros ->; pose proof (eo_tok _ Henv); congruence).
    assert (Hs : dest <> mining) by (intros ->; pose proof (eo_tok _ Henv); congruence).
    set (mm := WMining (mining_claim (wm m1)) (wm_diffs m1)) in *. clearbody mm.
    assert (Hbase : forall k, change e ts ms i0 k (acc L k) (acc (put_mining L mining mm) k)).
    { intros k. unfold put_mining. rewrite acc_put. destruct (Z.eqb_spec k mining) as [->|]; [|apply ch_same; reflexivity].
      eapply ch_mining; eauto. }
    destruct Hcase as [[_ ->]|[_ Ht]]; [assumption|].
    apply spl_transfer_inv in Ht as (s & d & Hsd & Hdd & _ & _ & _ & _ & _ & _ & Hcase).
    unfold data_of, put_mining in Hsd, Hdd. rewrite acc_put in Hsd, Hdd.
    destruct (Z.eqb_spec vault mining); [contradiction|]. destruct (Z.eqb_spec dest mining); [contradiction|].
    intros k. destruct Hcase as [[-> ->]|(Hne & _ & ->)]; [auto|].
    rewrite !acc_put. destruct (Z.eqb_spec dest vault) as [->|]; [congruence|].
    destruct (Z.eqb_spec k dest) as [->|].
    + unfold put_mining. rewrite !acc_put. destruct (Z.eqb_spec dest mining); [contradiction|].
      eapply ch_token; [exact Hdo|exact Hdd|]. reflexivity.
    + destruct (Z.eqb_spec k vault) as [->|]; [|auto].
      unfold put_mining. rewrite !acc_put. destruct (Z.eqb_spec vault mining); [contradiction|].
      eapply ch_token; [exact Hvo|exact Hsd|]. reflexivity.
  - apply extend_inv in H as (pool & mining & auth & dm & w & m & w' & m' & d' & _ & Hc & Hdo & Ho & Hd & ->).
    pose proof (delegate_ne_pool _ _ _ _ _ _ _ _ _ _ _ Hc Hdo). destruct Hc.
    apply extend_grows in Hd as (A & B & C). eapply stake_change; eauto.
  - apply distribute_inv in H as (pool & auth & w & r0 & w' & _ & Ho & _ & Hd & _ & Hr & Hdi & ->).
    pose proof (ok_pool _ _ _ _ _ HL Ho Hd) as Hw.
    intros k. unfold put_pool. rewrite acc_put. destruct (Z.eqb_spec k pool) as [->|]; [|apply ch_same; reflexivity].
    eapply ch_pool; eauto. eapply distribute_grows; [exact Hts| |exact Hw|exact Hdi].
    unfold rewards_to_distribute in Hr. cbv zeta in Hr. pose proof (pw_avail _ _ Hw) as Ha. unfold is_u64 in Ha.
    destruct (_ =? 0); inv; [lia|].
    apply Z.div_pos; [|unfold PRECISION; lia]. apply Z.div_pos; [unfold PRECISION; lia|].
    assert (0 <= saturating_sub (p_ends_at (wp w)) ts / DAY); [|lia].
    apply Z.div_pos; [|unfold DAY; lia]. unfold saturating_sub. destruct (Z.leb_spec ts (p_ends_at (wp w))); lia.
  - apply close_inv in H as (mining & owner & target & auth & pool & w & m & m1 & HA & Hmo & Hto & _ & _ & _ & _ & _ & _ & Hmd & _ & _ & _ & _ & _ & ->).
    intros k. rewrite acc_ins, acc_put_lam. destruct (Z.eqb_spec k mining) as [->|].
    + eapply ch_mining_close; [exact Hi0|at_|eauto ..].
    + destruct (Z.eqb_spec k target) as [->|]; [|apply ch_same; reflexivity].
      eapply ch_lamports; eauto.
  - apply change_inv in H as (pool & mining & auth & owner & od & nd & w & m & w' & m' & od' & nd' & _ & Hc & _ & Hno & Hoo & Hnn & Hnd & Hop & Hd & ->).
    pose proof (delegate_ne_pool _ _ _ _ _ _ _ _ _ _ _ Hc Hno) as Hnp. destruct Hc.
    apply change_grows in Hd as (A & B & C & D).
    intros k.
    pose proof (stake_change e ts ms i0 L pool mining od w w' m m' od' sc_pool_owner sc_pool A sc_mining_owner sc_mining B Hoo Hop sc_ne C) as Hbase.
    apply dlg_of_cases in D as [[-> ->]|(Hne & dmm & dmm' & Hdd & -> & Hg)]; cbn [put_dlg]; [apply Hbase|].
    unfold put_mining at 1. rewrite acc_put. destruct (Z.eqb_spec k nd) as [->|]; [|apply Hbase].
    assert (E : acc (put_dlg (put_mining (put_pool L pool w') mining m') od od') nd = acc L nd).
    { assert (E0 : acc (put_mining (put_pool L pool w') mining m') nd = acc L nd).
      { unfold put_mining, put_pool. rewrite !acc_put.
        destruct (Z.eqb_spec nd mining); [contradiction|]. destruct (Z.eqb_spec nd pool); [contradiction|]. reflexivity. }
      destruct od' as [x|]; [|exact E0]. cbn [put_dlg]. unfold put_mining at 1. rewrite acc_put.
      destruct (Z.eqb_spec nd od); [contradiction|]. exact E0. }
    rewrite E. eapply ch_mining; eauto.
  - apply slash_inv in H as (auth & pool & mining & w & m & w' & m' & _ & Hc & Hd & ->).
    destruct Hc. apply slash_grows in Hd as (A & B).
    apply (stake_change e ts ms _ L pool mining mining w w' m m' None); auto.
    unfold dlg_of. rewrite Z.eqb_refl. exact I.
  - apply decrease_inv in H as (auth & pool & mining & w & m & m' & _ & Hc & Hd & ->).
    destruct Hc. apply decrease_grows in Hd.
    intros k. unfold put_mining. rewrite acc_put. destruct (Z.eqb_spec k mining) as [->|]; [|apply ch_same; reflexivity].
    eapply ch_mining; eauto.
Qed.
