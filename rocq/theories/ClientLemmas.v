(** Account flags: which ones an instruction needs, the crate's builders, and the
    generated builders. *)
From stdpp Require Import gmap.
From Verif Require Import Base OMap State Ledger Program ResLemmas LedgerLemmas LedgerSpec
  Changes AccessLemmas History Codec Clients ClientSpec.

Lemma is_signer_true ms k : signed ms k -> is_signer ms k = true.
Proof. apply is_signer_ok. Qed.
Lemma is_writable_true ms k : writable ms k -> is_writable ms k = true.
Proof. apply is_writable_ok. Qed.

Lemma spl_transfer_flags ms ms' L src dst auth a L' :
  is_writable ms' src = true -> is_writable ms' dst = true -> is_signer ms' auth = true ->
  spl_transfer ms L src dst auth a = Ok L' -> spl_transfer ms' L src dst auth a = Ok L'.
Proof.
  unfold spl_transfer. intros -> -> -> H.
  destruct (is_writable ms src && is_writable ms dst); [|discriminate].
  destruct (is_signer ms auth); [|discriminate]. exact H.
Qed.
Lemma create_account_flags ms ms' L from to a b c L' :
  is_writable ms' from = true -> is_writable ms' to = true -> is_signer ms' from = true ->
  create_account ms L from to a b c = Ok L' -> create_account ms' L from to a b c = Ok L'.
Proof.
  unfold create_account. intros -> -> -> H.
  destruct (is_writable ms from && is_writable ms to); [|discriminate].
  destruct (is_signer ms from); [|discriminate]. exact H.
Qed.
Lemma initialize_account_flags ms ms' L a b c L' :
  is_writable ms' a = true ->
  initialize_account ms L a b c = Ok L' -> initialize_account ms' L a b c = Ok L'.
Proof.
  unfold initialize_account. intros -> H.
  destruct (is_writable ms a); [|discriminate]. exact H.
Qed.

Lemma enough_accounts e ts ms i L x :
  process e ts ms i L = Ok x -> exists ks, accounts_are ms ks /\ length ks = arity i.
Proof.
  intros H. destruct x as [L' r].
  destruct i; cbn [process] in H; try (apply no_ret_ok in H as [H _]).
  - apply init_pool_inv in H as (? & ? & ? & ? & ? & ? & ? & ? & ? & A & _). eauto.
  - apply fill_inv in H as (? & ? & ? & ? & ? & ? & ? & A & _). eauto.
  - apply init_mining_inv in H as (? & ? & ? & ? & ? & A & _). eauto.
  - apply deposit_inv in H as (? & ? & ? & ? & ? & ? & ? & ? & ? & A & _). eauto.
  - apply withdraw_inv in H as (? & ? & ? & ? & ? & ? & ? & ? & ? & A & _). eauto.
  - apply rbind_ok in H as ([L1 a] & H & _).
    apply claim_inv in H as (? & ? & ? & ? & ? & ? & ? & ? & ? & ? & ? & A & _). eauto.
  - apply extend_inv in H as (? & ? & ? & ? & ? & ? & ? & ? & ? & A & _). eauto.
  - apply distribute_inv in H as (? & ? & ? & ? & ? & A & _). eauto.
  - apply close_inv in H as (? & ? & ? & ? & ? & ? & ? & ? & A & _). eauto.
  - apply change_inv in H as (? & ? & ? & ? & ? & ? & ? & ? & ? & ? & ? & ? & A & _). eauto.
  - apply slash_inv in H as (? & ? & ? & ? & ? & ? & ? & A & _). eauto.
  - apply decrease_inv in H as (? & ? & ? & ? & ? & ? & A & _). eauto.
Qed.

(** walking both lists in step *)
Ltac walk H :=
  repeat (
    cbn [next_with_owner next_uninitialized next_with_key next_signer rbind] in H |- *;
    repeat match goal with E : is_signer ?l ?k = true |- context [is_signer ?l ?k] => rewrite E end;
    repeat match goal with E : mt_key ?m = mt_key ?m' |- context [mt_key ?m] => rewrite E end;
    match type of H with
    | rbind (if ?b then Ok _ else Err _) _ = _ => destruct b eqn:?; [|discriminate H]
    end).
Ltac sgn Hs n :=
  let HS := fresh "HS" in let HS' := fresh "HS" in
  pose proof (is_signer_true _ _ (Hs n _ ltac:(cbn; tauto) eq_refl)) as HS;
  pose proof HS as HS';
  match goal with E : mt_key ?m = mt_key ?m' |- _ =>
    match type of HS' with is_signer _ (mt_key m) = _ => rewrite E in HS' end end.
Ltac wrt Hw n :=
  let HS := fresh "HW" in
  pose proof (is_writable_true _ _ (Hw n _ ltac:(cbn; tauto) eq_refl)) as HS;
  match goal with E : mt_key ?m = mt_key ?m' |- _ =>
    match type of HS with is_writable _ (mt_key m) = _ => rewrite E in HS end end.

Ltac lock H :=
  repeat (cbn [rbind] in H |- *;
    match goal with
    | |- rbind ?a _ = _ => match type of H with rbind a _ = _ => destruct a; [|discriminate H] end
    | |- match ?a with _ => _ end = _ => match type of H with match a with _ => _ end = _ => destruct a end
    end); cbn [rbind] in H |- *.

Lemma accounts_are_intro ks : forall ms,
  (forall n k, nth_error ks n = Some k -> account_at ms n k) -> accounts_are ms ks.
Proof.
  induction ks as [|k ks IH]; intros ms H; [exists (map mt_key ms); reflexivity|].
  pose proof (H 0%nat k eq_refl) as H0. unfold account_at in H0. destruct ms as [|m ms]; [discriminate|].
  cbn in H0. injection H0 as <-. destruct (IH ms) as [rest E].
  { intros n k Hn. exact (H (S n) k Hn). }
  exists rest. cbn [map app]. rewrite E. reflexivity.
Qed.

Ltac conses A ms :=
  cbn [app] in A;
  repeat match type of A with map _ _ = _ :: _ =>
    let m := fresh "m" in destruct ms as [|m ms]; [discriminate A|]; cbn [map] in A;
    let E := fresh "E" in injection A as E A end.

Lemma process_flags e ts ms ms' i L x :
  same_accounts i ms ms' -> flags_suffice i ms' ->
  process e ts ms i L = Ok x -> process e ts ms' i L = Ok x.
Proof.
  intros Hsame [Hs Hw] H. destruct (enough_accounts _ _ _ _ _ _ H) as (ks & A & Hl).
  assert (A' : accounts_are ms' ks).
  { apply accounts_are_intro. intros n k Hn. apply Hsame.
    - rewrite <- Hl. apply nth_error_Some. congruence.
    - eapply at_pos; eassumption. }
  clear Hsame. unfold accounts_are in A, A'. destruct A as [rest A], A' as [rest' A'].
  destruct i; cbn [arity] in *;
    (repeat (destruct ks as [|?k ks]; [discriminate Hl|])); (destruct ks; [|discriminate Hl]);
    conses A ms; conses A' ms'; subst; clear Hl; cbn [process] in *; destruct x as [L' r];
    try (apply no_ret_ok in H as [H ->];
         match goal with |- no_ret ?y = _ => enough (Hy : y = Ok L') by (rewrite Hy; reflexivity) end).
  - (* initialize pool *)
    sgn Hs 3%nat. sgn Hs 4%nat. wrt Hw 2%nat. wrt Hw 3%nat. clear Hs Hw.
    unfold process_initialize_pool in *. walk H. lock H.
    apply rbind_ok in H as (L1 & Hc & H).
    eapply create_account_flags in Hc; [rewrite Hc|eassumption..]. cbn [rbind]. lock H.
    apply rbind_ok in H as (L2 & Hi & H).
    eapply initialize_account_flags in Hi; [rewrite Hi|eassumption..]. cbn [rbind]. exact H.
  - (* fill *)
    sgn Hs 3%nat. wrt Hw 2%nat. wrt Hw 4%nat. clear Hs Hw.
    unfold process_fill_vault in *. walk H. cbv zeta in *. lock H.
    eapply spl_transfer_flags; eassumption.
  - (* initialize mining *)
    sgn Hs 2%nat. wrt Hw 1%nat. wrt Hw 2%nat. clear Hs Hw.
    unfold process_initialize_mining in *. walk H. lock H.
    apply rbind_ok in H as (L1 & Hc & H).
    eapply create_account_flags in Hc; [rewrite Hc|eassumption..]. cbn [rbind]. exact H.
  - sgn Hs 2%nat. unfold process_deposit in *. walk H. exact H.
  - sgn Hs 2%nat. unfold process_withdraw in *. walk H. exact H.
  - (* claim *)
    sgn Hs 4%nat. sgn Hs 5%nat. wrt Hw 2%nat. wrt Hw 6%nat. clear Hs Hw.
    apply rbind_ok in H as ([L1 a] & H & Hr).
    match goal with |- rbind ?y _ = _ => enough (Hy : y = Ok (L1, a)) by (rewrite Hy; exact Hr) end.
    clear Hr. unfold process_claim in *. walk H. cbv zeta in *. lock H.
    destruct (0 <? _); [|exact H].
    apply rbind_ok in H as (L2 & Ht & H).
    eapply spl_transfer_flags in Ht; [rewrite Ht|eassumption..]. cbn [rbind]. exact H.
  - sgn Hs 2%nat. unfold process_extend in *. walk H. exact H.
  - sgn Hs 1%nat. unfold process_distribute in *. walk H. exact H.
  - sgn Hs 1%nat. sgn Hs 3%nat. unfold process_close in *. walk H. exact H.
  - sgn Hs 2%nat. sgn Hs 3%nat. unfold process_change_delegate in *. walk H. exact H.
  - sgn Hs 0%nat. unfold process_slash in *. walk H. exact H.
  - sgn Hs 0%nat. unfold process_decrease in *. walk H. exact H.
Qed.

Lemma readonly_intro ms L L' :
  (forall k, acc L' k <> acc L k -> writable ms k) -> readonly_ok ms L L' = true.
Proof.
  intros H. apply forallb_forall. intros m _.
  destruct (decide (acc L (mt_key m) = acc L' (mt_key m))) as [E|N].
  - rewrite bool_decide_eq_true_2 by assumption. apply orb_true_r.
  - rewrite is_writable_true; [reflexivity|]. apply H. congruence.
Qed.

Lemma may_change_read i n : In n (may_change i) -> (n < arity i)%nat.
Proof. destruct i; cbn; intros; decompose [or] H; subst; try contradiction; lia. Qed.

(** flags beyond the needed ones make no difference, missing ones are never fine *)
Lemma exec_flags e ts ms ms' i L x :
  same_accounts i ms ms' -> flags_suffice i ms' ->
  exec e ts ms i L = Ok x -> exec e ts ms' i L = Ok x.
Proof.
  intros Hsame Hf H. destruct x as [L' r].
  pose proof (fun k => changed_named _ _ _ _ _ _ _ k H) as Hn.
  unfold exec in *. apply rbind_ok in H as ([L1 r1] & Hp & H).
  rewrite (process_flags _ _ _ _ _ _ _ Hsame Hf Hp). cbn [rbind].
  apply rbind_ok in H as ([] & _ & H). injection H as -> ->.
  rewrite readonly_intro; [reflexivity|]. intros k Hk.
  destruct (Hn k Hk) as [(n & I & A) _]. destruct Hf as [_ Hw].
  apply (Hw n k I). apply Hsame; [|assumption]. apply may_change_read. assumption.
Qed.

(** ** The crate's builders *)
Lemma built_flags e ms i : built e ms i -> flags_suffice i ms /\ length ms = arity i.
Proof.
  intros []; cbn [fst b_initialize_pool b_fill_vault b_initialize_mining b_deposit b_withdraw b_claim b_extend
    b_distribute b_close b_change b_slash b_decrease]; (split; [|reflexivity]); split; intros n0 k I A;
    cbn [must_sign may_change In] in I; decompose [or] I; subst; try contradiction;
    unfold account_at in A; cbn in A; injection A as <-;
    first [apply is_signer_ok | apply is_writable_ok]; unfold is_signer, is_writable;
    cbn [existsb mt_key mt_signer mt_writable mw mr]; rewrite ?Z.eqb_refl; cbn [andb orb];
    rewrite ?orb_true_r; reflexivity.
Qed.

Lemma built_complete e ts ms ms' i L x :
  built e ms i -> same_accounts i ms' ms ->
  exec e ts ms' i L = Ok x -> exec e ts ms i L = Ok x.
Proof. intros Hb Hs H. apply built_flags in Hb as [Hf _]. eapply exec_flags; eassumption. Qed.

(** ** The generated builders *)
Lemma g_data_ok i : g_data i = encode i.
Proof.
  destruct i; repeat match goal with x : lockup |- _ => destruct x | x : option Z |- _ => destruct x end; reflexivity.
Qed.

Lemma not_writable_same e ts ms i L L' r k :
  exec e ts ms i L = Ok (L', r) -> is_writable ms k = false -> acc L' k = acc L k.
Proof.
  intros H Hw. destruct (decide (acc L' k = acc L k)) as [|N]; [assumption|].
  destruct (changed_named _ _ _ _ _ _ _ _ H N) as [_ W]. apply is_writable_ok in W. congruence.
Qed.

Lemma neq_eqb (a b : Z) : a <> b -> (a =? b) = false.
Proof. apply Z.eqb_neq. Qed.

Lemma g_extend_result e ts pool mining mint auth dm op np st b a o d L x :
  exec e ts (fst (g_extend pool mining mint auth dm op np st b a o d)) (ExtendStake op np st b a o d) L = Ok x ->
  mint = auth /\ owner_of L mint = program_id e.
Proof.
  intros H. destruct x as [L' r]. apply exec_inv in H as [H _]. cbn [process] in H.
  apply no_ret_ok in H as [H _].
  apply extend_inv in H as (pool' & mining' & auth' & dm' & w & m & w' & m' & d' & [rest A] & Hc & _ & Ho & _).
  cbn in A. injection A as <- <- <- <- A.
  apply sc_signed in Hc. destruct Hc as (x & I & E & S). cbn in I.
  decompose [or] I; try contradiction; subst x; cbn in E, S; try discriminate. subst auth. auto.
Qed.

Lemma g_extend_rejected e ts pool mining mint auth dm op np st b a o d L :
  owner_of L mint <> program_id e ->
  exists er, exec e ts (fst (g_extend pool mining mint auth dm op np st b a o d))
                 (ExtendStake op np st b a o d) L = Err er.
Proof.
  intros Hm. destruct (exec _ _ _ _ _) as [x|er] eqn:E; [|eauto].
  apply g_extend_result in E as [_ E]. contradiction.
Qed.

Lemma g_close_result e ts mining owner target auth pool L x :
  env_ok e ->
  exec e ts (fst (g_close mining owner target auth pool)) CloseMining L = Ok x ->
  acc L mining = Account 0 (program_id e) (DMining zero_wmining) /\ owner = 0.
Proof.
  intros Henv H. destruct x as [L' r]. pose proof H as H0. apply exec_inv in H as [H _]. cbn [process] in H.
  apply no_ret_ok in H as [H _].
  apply close_inv in H as (mining' & owner' & target' & auth' & pool' & w & m & m1 & [rest A] & Hmo & Hto & Hpo & _ & _
    & _ & _ & Hne & Hmd & Hown & _ & _ & _ & _ & E').
  cbn in A. injection A as <- <- <- <- <- A.
  assert (Hmt : target <> mining).
  { intros ->. rewrite Hmo in Hto. pose proof (eo_sys e Henv). congruence. }
  assert (Hs : acc L' mining = acc L mining).
  { eapply not_writable_same; [exact H0|]. unfold is_writable. cbn.
    rewrite (neq_eqb target mining Hmt), (neq_eqb pool mining (not_eq_sym Hne)), !andb_false_r. reflexivity. }
  rewrite E', acc_insert in Hs. split; [congruence|].
  unfold data_of in Hmd. rewrite <- Hs in Hmd. cbn in Hmd. injection Hmd as <-. rewrite <- Hown. reflexivity.
Qed.

(** refreshing leaves the delegated amount *)
Lemma refresh_sfo ts ci m m' : refresh ts ci m = Ok m' -> m_sfo (wm m') = m_sfo (wm m).
Proof. unfold refresh. intros H. inv. reflexivity. Qed.

Lemma delegate_add_sfo ts a ci t x t' d' :
  delegate_add ts a ci t (Some (Ok x)) = Ok (t', d') ->
  exists x', d' = Some x' /\ m_sfo (wm x') = m_sfo (wm x) + a.
Proof. cbn. intros H. inv. eexists. split; [reflexivity|]. match goal with H : refresh _ _ _ = _ |- _ => exact (refresh_sfo _ _ _ _ H) end. Qed.
Lemma delegate_sub_sfo ts a ci t x t' d' :
  delegate_sub ts a ci t (Some (Ok x)) = Ok (t', d') ->
  exists x', d' = Some x' /\ m_sfo (wm x') = m_sfo (wm x) - a.
Proof. cbn. intros H. inv. eexists. split; [reflexivity|]. match goal with H : refresh _ _ _ = _ |- _ => exact (refresh_sfo _ _ _ _ H) end. Qed.

Ltac readonly_dm Hnm Hnp :=
  unfold is_writable; cbn;
  rewrite (neq_eqb _ _ Hnm), (neq_eqb _ _ Hnp), !andb_false_r; reflexivity.

Lemma g_deposit_delegate e ts pool mining auth dm a p o d L L' r :
  dm <> mining ->
  exec e ts (fst (g_deposit pool mining auth dm a p o d)) (DepositMining a p o d) L = Ok (L', r) ->
  acc L' dm = acc L dm /\ a = 0.
Proof.
  intros Hdm H. pose proof H as H0. apply exec_inv in H as [H _]. cbn [process] in H.
  apply no_ret_ok in H as [H _].
  apply deposit_inv in H as (pool' & mining' & auth' & dm' & w & m & w' & m' & d' & [rest A] & [] & Hd & Ho & Hdep & E').
  cbn in A. injection A as <- <- <- <- A.
  destruct Hd as [|(_ & Hnp & _ & x & Hx & _)]; [contradiction|].
  assert (Hs : acc L' dm = acc L dm).
  { eapply not_writable_same; [exact H0|]. readonly_dm (not_eq_sym Hdm) (not_eq_sym Hnp). }
  split; [assumption|].
  unfold dlg_of in Hdep. rewrite (neq_eqb mining dm (not_eq_sym Hdm)) in Hdep.
  unfold data_of in Hx. rewrite Hx in Hdep. cbn [load_mining] in Hdep.
  unfold deposit in Hdep. inv.
  match goal with H : delegate_add _ _ _ _ _ = _ |- _ => apply delegate_add_sfo in H as (x' & -> & Hsfo) end.
  cbn [put_dlg] in Hs. unfold put_mining in Hs. unfold put_data at 1 in Hs. rewrite acc_insert in Hs.
  rewrite <- Hs in Hx. cbn in Hx. injection Hx as ->. lia.
Qed.

Lemma g_withdraw_delegate e ts pool mining auth dm a o d L L' r :
  dm <> mining ->
  exec e ts (fst (g_withdraw pool mining auth dm a o d)) (WithdrawMining a o d) L = Ok (L', r) ->
  acc L' dm = acc L dm /\ a = 0.
Proof.
  intros Hdm H. pose proof H as H0. apply exec_inv in H as [H _]. cbn [process] in H.
  apply no_ret_ok in H as [H _].
  apply withdraw_inv in H as (pool' & mining' & auth' & dm' & w & m & w' & m' & d' & [rest A] & [] & Hd & Ho & Hdep & E').
  cbn in A. injection A as <- <- <- <- A.
  destruct Hd as [|(_ & Hnp & _ & x & Hx & _)]; [contradiction|].
  assert (Hs : acc L' dm = acc L dm).
  { eapply not_writable_same; [exact H0|]. readonly_dm (not_eq_sym Hdm) (not_eq_sym Hnp). }
  split; [assumption|].
  unfold dlg_of in Hdep. rewrite (neq_eqb mining dm (not_eq_sym Hdm)) in Hdep.
  unfold data_of in Hx. rewrite Hx in Hdep. cbn [load_mining] in Hdep.
  unfold withdraw in Hdep. inv.
  match goal with H : delegate_sub _ _ _ _ _ = _ |- _ => apply delegate_sub_sfo in H as (x' & -> & Hsfo) end.
  cbn [put_dlg] in Hs. unfold put_mining in Hs. unfold put_data at 1 in Hs. rewrite acc_insert in Hs.
  rewrite <- Hs in Hx. cbn in Hx. injection Hx as ->. lia.
Qed.

Lemma generated_arguments :
  (forall pool mining auth dm a p o d, snd (g_deposit pool mining auth dm a p o d) = DepositMining a p o d) /\
  (forall pool mining auth dm a o d, snd (g_withdraw pool mining auth dm a o d) = WithdrawMining a o d) /\
  (forall pool mining mint auth dm op np st b a o d,
     snd (g_extend pool mining mint auth dm op np st b a o d) = ExtendStake op np st b a o d) /\
  (forall mining owner target auth pool, snd (g_close mining owner target auth pool) = CloseMining).
Proof. repeat split. Qed.
