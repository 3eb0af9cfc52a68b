(** Every error an instruction returns has its reason. *)
From stdpp Require Import gmap.
From Verif Require Import Base OMap State Spec EffectSpec Ledger Program LedgerLemmas LedgerSpec CodecLemmas History HistoryLemmas HistoryThms
  AccessLemmas SuccessSpec ResLemmas TreeLemmas WfLemmas ReachThms Clients ClientSpec ErrorSpec ErrorLemmas.

Section env.
Context (e : env) (Henv : env_ok e).

Lemma load_mining_err d x : load_mining d = Err x -> explained x = false.
Proof. destruct d; cbn [load_mining]; try discriminate; destruct (_ <? _); intros H; injection H as <-; reflexivity. Qed.
Lemma load_pool_err d x : load_pool d = Err x -> explained x = false.
Proof. destruct d; cbn [load_pool]; try discriminate; destruct (_ <? _); intros H; injection H as <-; reflexivity. Qed.
Lemma load_mining_some d m : load_mining d = Ok m -> d = DMining m.
Proof. destruct d; cbn [load_mining]; try (destruct (_ <? _); discriminate). congruence. Qed.
Lemma load_pool_some d m : load_pool d = Ok m -> d = DPool m.
Proof. destruct d; cbn [load_pool]; try (destruct (_ <? _); discriminate). congruence. Qed.
Lemma distinct_err a b er x : distinct a b er = Err x -> x = er.
Proof. unfold distinct. intros H. apply ensure_err in H. apply H. Qed.
Lemma key_err a b x : assert_account_key a b = Err x -> x = EInvalidArgument.
Proof. unfold assert_account_key. intros H. apply ensure_err in H. apply H. Qed.
Lemma pda_err o x : pda o = Err x -> x = EPda.
Proof. destruct o; cbn; congruence. Qed.
Lemma token_err d x : load_token d = Err x -> x = EToken.
Proof. destruct d; cbn; congruence. Qed.

Lemma get_err L owner mining pool auth x :
  assert_and_get e L owner mining pool auth = Err x -> explained x = false.
Proof.
  unfold assert_and_get, data_of. intros H.
  apply rbind_err in H as [H|(m & _ & H)]; [eapply load_mining_err; eassumption|].
  apply rbind_err in H as [H|(p & _ & H)]; [eapply load_pool_err; eassumption|].
  apply rbind_err in H as [H|(? & _ & H)]; [apply pda_err in H as ->; reflexivity|].
  apply rbind_err in H as [H|(? & _ & H)]; [apply key_err in H as ->; reflexivity|].
  apply rbind_err in H as [H|(? & _ & H)]; [apply key_err in H as ->; reflexivity|].
  apply rbind_err in H as [H|(? & _ & H)]; [apply key_err in H as ->; reflexivity|].
  apply rbind_err in H as [H|(? & _ & H)]; [|discriminate H].
  apply ensure_err in H as [_ ->]. reflexivity.
Qed.
Lemma get_some L owner mining pool auth w m :
  assert_and_get e L owner mining pool auth = Ok (w, m) -> data_of L pool = DPool w /\ data_of L mining = DMining m.
Proof.
  unfold assert_and_get, data_of. intros H.
  apply rbind_ok in H as (m' & E1 & H). apply rbind_ok in H as (w' & E2 & H).
  do 5 (apply rbind_ok in H as (? & _ & H)). injection H as -> ->.
  split; [apply load_pool_some|apply load_mining_some]; assumption.
Qed.
Lemma verify_err L dm mining wallet pool x :
  verify_opt e L dm mining wallet pool = Err x -> explained x = true ->
  exists y, data_of L dm = DMining y /\
    (x = ECustom 14 /\ cpa_mining e wallet pool (m_bump (wm y)) = None \/
     exists k, x = ECustom 13 /\ cpa_mining e wallet pool (m_bump (wm y)) = Some k /\ k <> dm).
Proof.
  unfold verify_opt, verify_delegate, data_of. destruct (mining =? dm); [discriminate|]. intros H X.
  apply rbind_err in H as [H|(? & _ & H)]; [apply distinct_err in H as ->; discriminate X|].
  apply rbind_err in H as [H|(y & E & H)]; [apply load_mining_err in H; congruence|].
  exists y. split; [apply load_mining_some; assumption|].
  destruct (cpa_mining e wallet pool (m_bump (wm y))) as [k|]; [|left; split; [injection H as <-|]; reflexivity].
  right. exists k. apply ensure_err in H as [H ->]. apply Z.eqb_neq in H. auto.
Qed.
Lemma unreadable_err L dm mining x :
  unreadable (dlg_of L dm mining) x -> explained x = false.
Proof.
  unfold unreadable, dlg_of, data_of. destruct (mining =? dm); [discriminate|]. intros H. injection H as H.
  apply load_mining_err in H; assumption.
Qed.
Lemma unreadable_old_err L dm mining pool x :
  unreadable (old_dlg L dm mining pool) x -> explained x = false.
Proof.
  unfold old_dlg. destruct (dm =? pool); [|apply unreadable_err].
  unfold unreadable. intros H. injection H as <-. reflexivity.
Qed.

Lemma transfer_err ms L src dst auth a x :
  spl_transfer ms L src dst auth a = Err x -> explained x = true -> signed ms auth ->
  x = EPrivilege /\ (~ writable ms src \/ ~ writable ms dst).
Proof.
  unfold spl_transfer. intros H X S. rewrite <- !is_writable_ok. apply is_signer_ok in S.
  apply rbind_err in H as [H|(? & _ & H)].
  { apply ensure_err in H as [H ->]. split; [reflexivity|]. apply andb_false_iff in H as [->| ->]; [left|right]; discriminate. }
  exfalso.
  apply rbind_err in H as [H|(? & _ & H)]; [apply ensure_err in H as [H _]; congruence|].
  apply rbind_err in H as [H|(s & _ & H)]; [apply token_err in H as ->; discriminate X|].
  apply rbind_err in H as [H|(d & _ & H)]; [apply token_err in H as ->; discriminate X|].
  do 3 (apply rbind_err in H as [H|(? & _ & H)]; [apply ensure_err in H as [_ ->]; discriminate X|]).
  destruct (src =? dst); [discriminate H|].
  apply rbind_err in H as [H|(? & _ & H)]; [apply ensure_err in H as [_ ->]; discriminate X|discriminate H].
Qed.
Lemma create_err ms L from to lam sp o x :
  create_account ms L from to lam sp o = Err x -> explained x = true -> signed ms from ->
  x = EPrivilege /\ (~ writable ms from \/ ~ writable ms to).
Proof.
  unfold create_account. intros H X S. rewrite <- !is_writable_ok. apply is_signer_ok in S.
  apply rbind_err in H as [H|(? & _ & H)].
  { apply ensure_err in H as [H ->]. split; [reflexivity|]. apply andb_false_iff in H as [->| ->]; [left|right]; discriminate. }
  exfalso.
  apply rbind_err in H as [H|(? & _ & H)]; [apply ensure_err in H as [H _]; congruence|].
  do 4 (apply rbind_err in H as [H|(? & _ & H)]; [apply ensure_err in H as [_ ->]; discriminate X|]).
  discriminate H.
Qed.
Lemma account_err ms L k mint auth x :
  initialize_account ms L k mint auth = Err x -> explained x = true -> x = EPrivilege /\ ~ writable ms k.
Proof.
  unfold initialize_account. intros H X. rewrite <- is_writable_ok.
  apply rbind_err in H as [H|(? & _ & H)].
  { apply ensure_err in H as [-> ->]. split; [reflexivity|discriminate]. }
  exfalso. destruct (a_data (acc L k)), (a_data (acc L mint)); try (injection H as <-; discriminate X).
  apply rbind_err in H as [H|(? & _ & H)]; [apply ensure_err in H as [_ ->]; discriminate X|discriminate H].
Qed.

(** the account in a position, once the list is spelled out *)
Ltac at_pos c := first [c 0%nat | c 1%nat | c 2%nat | c 3%nat | c 4%nat | c 5%nat | c 6%nat | c 7%nat].
Ltac few H := injection H as <-; apply why_few; cbn [length arity]; lia.
Ltac acct H :=
  match type of H with
  | rbind (next_with_owner _ _ ?it) _ = Err _ =>
      let E := fresh "Ho" in
      destruct it as [|[] it]; [cbn in H; few H|];
      cbn [next_with_owner mt_key] in H;
      match type of H with context [if ?a =? ?b then Ok _ else _] => destruct (Z.eqb_spec a b) as [E|E] end;
      cbn [rbind] in H;
      [fold (owner_of) in E|injection H as <-;
         at_pos ltac:(fun p => eapply (why_owner _ _ _ _ _ p); [reflexivity|reflexivity|exact E])]
  | rbind (next_signer _ ?it) _ = Err _ =>
      let E := fresh "Hs" in
      destruct it as [|[] it]; [cbn in H; few H|];
      cbn [next_signer mt_key] in H;
      match type of H with context [if ?a then Ok _ else _] => destruct a eqn:E end;
      cbn [rbind] in H;
      [apply is_signer_ok in E
      |injection H as <-; apply not_true_iff_false in E; rewrite is_signer_ok in E;
         at_pos ltac:(fun p => eapply (why_unsigned _ _ _ _ _ p); [cbn [must_sign In]; lia|reflexivity|exact E])]
  | rbind (next_with_key _ ?it) _ = Err _ =>
      destruct it as [|[] it]; [cbn in H; few H|];
      cbn [next_with_key mt_key] in H;
      match type of H with context [if ?a =? ?b then Ok _ else _] => destruct (Z.eqb_spec a b) end;
      cbn [rbind] in H; [|injection H as <-; discriminate]
  | rbind (next_uninitialized _ ?it) _ = Err _ =>
      let E := fresh "Hz" in
      destruct it as [|[] it]; [cbn in H; few H|];
      cbn [next_uninitialized mt_key] in H;
      match type of H with context [if ?a then Ok _ else _] => destruct a eqn:E end;
      cbn [rbind] in H;
      [|injection H as <-; first [eapply why_used_vault; [reflexivity|exact E]|eapply why_used_mining; [reflexivity|exact E]]]
  end.
Ltac at_at := reflexivity.
Ltac privilege H := at_pos ltac:(fun p => eapply (why_privilege _ _ _ _ _ p); [cbn [may_change In]; lia|reflexivity|exact H]).
Ltac numeric H := destruct H as [-> | ->]; [apply why_math; reflexivity|apply why_conversion; reflexivity].
Ltac check_key H X := apply rbind_err in H as [H|(? & _ & H)]; [apply key_err in H as ->; discriminate X|].
Ltac check_distinct H X := apply rbind_err in H as [H|(? & _ & H)]; [apply distinct_err in H as ->; discriminate X|].
Ltac check_pda H X := apply rbind_err in H as [H|(? & _ & H)]; [apply pda_err in H as ->; discriminate X|].
Ltac check_pool H X w E :=
  apply rbind_err in H as [H|(w & E & H)]; [apply load_pool_err in H; congruence|apply load_pool_some in E].
Ltac check_mining H X w E :=
  apply rbind_err in H as [H|(w & E & H)]; [apply load_mining_err in H; congruence|apply load_mining_some in E].
Ltac check_get H X w m Ew Em :=
  let E := fresh "E" in
  apply rbind_err in H as [H|([w m] & E & H)];
  [apply get_err in H; congruence|apply get_some in E as [Ew Em]].
Ltac check_verify H X :=
  apply rbind_err in H as [H|([] & _ & H)];
  [apply verify_err in H as (y & Hy & [[-> H]|(k & -> & H & Hk)]);
   [eapply why_no_address; [reflexivity|reflexivity|reflexivity|exact Hy|exact H]
   |eapply why_wrong_delegate; [reflexivity|reflexivity|reflexivity|exact Hy|exact H|exact Hk]
   |exact X]|].
Ltac unread H X := first [apply unreadable_err in H|apply unreadable_old_err in H]; congruence.

Lemma no_ret_err r x : no_ret r = Err x -> r = Err x.
Proof. destruct r; cbn; congruence. Qed.

Lemma process_reason now ts ms i L x :
  ledger_ok e now L -> 0 <= now <= ts -> ix_in_range i ->
  process e ts ms i L = Err x -> explained x = true -> reason e ts ms L i x.
Proof.
  intros HL Hts Hi H X.
  destruct i; cbn [process ix_in_range] in *; try apply no_ret_err in H.
  - (* InitializePool *)
    unfold process_initialize_pool in H. do 8 acct H.
    apply rbind_err in H as [H|(? & _ & H)]; [apply ensure_err in H as [_ ->]; discriminate X|].
    check_pool H X w Ew.
    apply rbind_err in H as [H|(? & _ & H)].
    { apply ensure_err in H as [H ->]. apply negb_false_iff, Z.eqb_eq in H. eapply why_initialized; [reflexivity|exact Ew|exact H]. }
    destruct (find_vault _ _ _) as [vk b].
    check_key H X. check_distinct H X.
    apply rbind_err in H as [H|(L1 & _ & H)].
    { apply create_err in H as [-> [H|H]]; [privilege H|privilege H|exact X|assumption]. }
    check_distinct H X.
    apply rbind_err in H as [H|(L2 & _ & H)]; [|discriminate H].
    apply account_err in H as [-> H]; [privilege H|exact X].
  - (* FillVault *)
    unfold process_fill_vault in H. do 6 acct H.
    apply rbind_err in H as [H|(? & _ & H)].
    { apply ensure_err in H as [H ->]. apply negb_false_iff, Z.eqb_eq in H as ->. apply why_zero. }
    check_pool H X w Ew. check_key H X. check_pda H X. check_key H X.
    apply rbind_err in H as [H|(w' & _ & H)].
    { apply fill_err in H as [->|[-> H]]; [apply why_math; reflexivity|apply why_past; exact H]. }
    check_distinct H X. apply transfer_err in H as [-> [H|H]]; [privilege H|privilege H|exact X|assumption].
  - (* InitializeMining *)
    unfold process_initialize_mining in H. do 4 acct H.
    destruct (find_mining _ _ _) as [vk b]. check_key H X.
    apply rbind_err in H as [H|(L1 & E & H)].
    { apply create_err in H as [-> [H|H]]; [privilege H|privilege H|exact X|assumption]. }
    apply create_account_inv in E as (_ & _ & _ & _ & _ & _ & _ & _ & _ & _ & ->).
    rewrite acc_insert in H. discriminate H.
  - (* DepositMining *)
    unfold process_deposit in H. do 4 acct H. check_distinct H X. check_get H X w m Ew Em. check_verify H X.
    apply rbind_err in H as [H|([[w' m'] d'] & E & H)]; [|discriminate H].
    apply deposit_err in H as [H|[H|[->|(-> & -> & ->)]]];
      [numeric H|unread H X|discriminate X|apply why_period|apply Hi].
  - (* WithdrawMining *)
    unfold process_withdraw in H. do 4 acct H. check_distinct H X. check_get H X w m Ew Em. check_verify H X.
    apply rbind_err in H as [H|([[w' m'] d'] & E & H)]; [|discriminate H].
    apply withdraw_err in H as [H|H]; [numeric H|unread H X].
  - (* Claim *)
    apply rbind_err in H as [H|([? ?] & _ & H)]; [|discriminate H].
    unfold process_claim in H. do 8 acct H.
    apply rbind_err in H as [H|(t & _ & H)]; [apply token_err in H as ->; discriminate X|].
    check_key H X. check_pool H X w Ew. check_key H X. check_distinct H X. check_mining H X m Em.
    check_key H X. check_key H X. check_pda H X. check_key H X.
    apply rbind_err in H as [H|(m1 & _ & H)]; [apply refresh_err in H; numeric H|].
    apply rbind_err in H as [H|(? & _ & H)]; [|discriminate H].
    destruct (0 <? _); [|discriminate H].
    apply transfer_err in H as [-> [H|H]]; [privilege H|privilege H|exact X|assumption].
  - (* ExtendStake *)
    unfold process_extend in H. do 4 acct H. check_distinct H X. check_get H X w m Ew Em. check_verify H X.
    apply rbind_err in H as [H|([[w' m'] d'] & E & H)]; [|discriminate H].
    apply (extend_err now) in H as [H|[H|[->|[(-> & [->|(-> & -> & ->)])|(-> & H1 & H2)]]]];
      [numeric H|unread H X|discriminate X|apply why_old_period|apply why_new_period| | | |lia|apply Hi|apply Hi].
    + eapply why_not_recorded; [reflexivity|exact Em|exact H1|exact H2].
    + eapply ok_pool; [exact HL| |exact Ew]; assumption.
    + eapply ok_mining; [exact HL| |exact Em]; eassumption.
  - (* DistributeRewards *)
    unfold process_distribute in H. do 2 acct H. check_pool H X w Ew.
    apply rbind_err in H as [H|(r & _ & H)].
    { exfalso. eapply part_no_err; [|exact H]. eapply pw_avail, ok_pool; [exact HL| |exact Ew]; assumption. }
    check_key H X. apply rbind_err in H as [H|(w' & _ & H)]; [|discriminate H].
    apply distribute_err in H as [->|[-> H]]; [apply why_math; reflexivity|eapply why_no_deposits; [reflexivity|exact Ew|exact H]].
  - (* CloseMining *)
    unfold process_close in H. do 5 acct H. check_pool H X w Ew. check_key H X. check_distinct H X.
    check_mining H X m Em. check_key H X.
    apply rbind_err in H as [H|(m1 & E & H)]; [apply refresh_err in H; numeric H|].
    assert (R : refreshed ts (wp_ci w) m m1).
    { eapply EffectLemmas.refresh_refreshed; [eapply pool_wf_hist, ok_pool; [exact HL| |exact Ew]|apply mining_wf_min; eapply ok_mining; [exact HL| |exact Em]|exact E]; assumption. }
    apply rbind_err in H as [H|(? & _ & H)].
    { apply ensure_err in H as [H ->]. apply negb_false_iff, Z.ltb_lt in H. eapply why_delegated; [reflexivity|exact Em|].
      rewrite (rf_sfo _ _ _ _ R) in H. lia. }
    apply rbind_err in H as [H|(? & _ & H)].
    { apply ensure_err in H as [H ->]. apply Z.eqb_neq in H. eapply why_unclaimed; [reflexivity|exact Em|reflexivity|exact Ew|].
      rewrite (rf_unclaimed _ _ _ _ R) in H. exact H. }
    apply rbind_err in H as [H|(? & _ & H)]; [|discriminate H].
    apply add_err in H as ->. apply why_math. reflexivity.
  - (* ChangeDelegate *)
    unfold process_change_delegate in H. do 6 acct H.
    apply rbind_err in H as [H|(? & _ & H)].
    { apply ensure_err in H as [H ->]. apply negb_false_iff, Z.eqb_eq in H. eapply why_same; [reflexivity|]. unfold account_at. cbn. congruence. }
    check_distinct H X. check_get H X w m Ew Em. check_verify H X.
    apply rbind_err in H as [H|([[[w' m'] d'] d2] & E & H)]; [|discriminate H].
    apply change_err in H as [H|[H|H]]; [numeric H|unread H X|unread H X].
  - (* Slash *)
    unfold process_slash in H. do 3 acct H. check_distinct H X. check_get H X w m Ew Em.
    apply rbind_err in H as [H|([w' m'] & E & H)]; [|discriminate H].
    apply (slash_err now) in H as [H|(d & -> & -> & H)]; [numeric H| | |].
    + eapply why_no_bonus; [reflexivity|exact Ew|reflexivity|exact Em|exact H].
    + eapply ok_pool; [exact HL| |exact Ew]; eassumption.
    + eapply ok_mining; [exact HL| |exact Em]; eassumption.
  - (* DecreaseRewards *)
    unfold process_decrease in H. do 3 acct H. check_distinct H X. check_get H X w m Ew Em.
    apply rbind_err in H as [H|(m' & E & H)]; [|discriminate H].
    apply decrease_err in H as [-> H]. eapply why_too_big; [reflexivity|exact Em|exact H].
Qed.

Lemma forallb_false {A} (f : A -> bool) l : forallb f l = false -> exists a, In a l /\ f a = false.
Proof.
  induction l as [|a r IH]; cbn [forallb]; [discriminate|]. intros H. apply andb_false_iff in H as [H|H].
  - exists a. split; [left; reflexivity|assumption].
  - apply IH in H as (b & Hin & H). exists b. split; [right; assumption|assumption].
Qed.

Lemma exec_reason now ts ms i L x :
  reached e now L -> now <= ts -> ix_in_range i ->
  exec e ts ms i L = Err x -> explained x = true -> reason e ts ms L i x.
Proof.
  intros HR Hts Hi H X. destruct (reached_ok e Henv _ _ HR) as (HL & _ & Hn). unfold exec in H.
  apply rbind_err in H as [H|([L' r] & E & H)].
  { eapply process_reason; eauto. }
  apply rbind_err in H as [H|(? & _ & H)]; [|discriminate H].
  apply ensure_err in H as [H ->]. unfold readonly_ok in H.
  assert (exists m, In m ms /\ ~ writable ms (mt_key m) /\ acc L' (mt_key m) <> acc L (mt_key m)) as (m & _ & Hw & Hc).
  { apply forallb_false in H as (m & Hin & H). apply orb_false_iff in H as [H1 H2]. exists m. split; [assumption|].
    rewrite <- is_writable_ok, H1. split; [discriminate|]. apply bool_decide_eq_false in H2. congruence. }
  destruct (changed_position _ _ _ _ _ _ _ _ E Hc) as (n & Hn1 & Hn2).
  eapply why_readonly; eassumption.
Qed.
Lemma codes_known now ts ms i L n :
  reached e now L -> now <= ts -> ix_in_range i -> exec e ts ms i L = Err (ECustom n) -> 0 <= n <= 15 /\ n <> 11.
Proof.
  intros HR Hts Hi H. apply (exec_reason now) in H; [|assumption..|reflexivity]. inversion H; subst; lia.
Qed.
End env.
