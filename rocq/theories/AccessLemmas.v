(** Who must sign, which accounts are accepted, which accounts change. *)
From stdpp Require Import gmap.
From Verif Require Import Base OMap State Spec Ledger Program ResLemmas LedgerLemmas LedgerSpec
  FrameLemmas CodecLemmas WfLemmas History HistoryLemmas Changes.

(** every success, by kind of instruction, in one statement *)
Lemma authority_signed e ts ms i L L' r ro :
  exec e ts ms i L = Ok (L', r) -> role_of i = Some ro ->
  exists k w, account_at ms (pool_position i) k /\ is_pool e L k w /\ signed ms (holder w ro).
Proof.
  intros H Hr. apply exec_inv in H as [H _]. unfold is_pool.
  destruct i; cbn [role_of] in Hr; try discriminate; injection Hr as <-; cbn [process pool_position holder] in *;
    try (apply no_ret_ok in H as [H _]).
  - apply fill_inv in H as (pool & mint & vault & auth & src & w & w' & A & Ho & _ & _ & _ & Hs & _ & Hd & -> & _).
    exists pool, w. split; [at_|auto].
  - apply deposit_inv in H as (pool & mining & auth & dm & w & m & w' & m' & d' & A & [] & _); subst.
    exists (m_pool (wm m)), w. split; [at_|auto].
  - apply withdraw_inv in H as (pool & mining & auth & dm & w & m & w' & m' & d' & A & [] & _); subst.
    exists (m_pool (wm m)), w. split; [at_|auto].
  - destruct (process_claim e ts ms L) as [[L1 x]|] eqn:E; [|discriminate].
    apply claim_inv in E as (pool & mint & vault & mining & owner & auth & dest & w & m & m1 & t & A & Hp & _ & _ & _ & _ & _ & Hs & _ & _ & Hd & -> & _).
    exists pool, w. split; [at_|auto].
  - apply extend_inv in H as (pool & mining & auth & dm & w & m & w' & m' & d' & A & [] & _); subst.
    exists (m_pool (wm m)), w. split; [at_|auto].
  - apply distribute_inv in H as (pool & auth & w & r0 & w' & A & Ho & Hs & Hd & -> & _).
    exists pool, w. split; [at_|auto].
  - apply close_inv in H as (mining & owner & target & auth & pool & w & m & m1 & A & _ & _ & Ho & _ & Hs & Hd & -> & _).
    exists pool, w. split; [at_|auto].
  - apply change_inv in H as (pool & mining & auth & owner & od & nd & w & m & w' & m' & od' & nd' & A & [] & _); subst.
    exists (m_pool (wm m)), w. split; [at_|auto].
  - apply slash_inv in H as (auth & pool & mining & w & m & w' & m' & A & [] & _); subst.
    exists (m_pool (wm m)), w. split; [at_|auto].
  - apply decrease_inv in H as (auth & pool & mining & w & m & m' & A & [] & _); subst.
    exists (m_pool (wm m)), w. split; [at_|auto].
Qed.

Lemma owner_signed e ts ms i L L' r :
  exec e ts ms i L = Ok (L', r) -> needs_owner i = true ->
  exists n k m, mining_position i = Some n /\ account_at ms n k /\ is_mining e L k m /\
    signed ms (m_owner (wm m)).
Proof.
  intros H Hr. apply exec_inv in H as [H _]. unfold is_mining.
  destruct i; cbn [needs_owner] in Hr; try discriminate; cbn [process mining_position] in *;
    try (apply no_ret_ok in H as [H _]).
  - destruct (process_claim e ts ms L) as [[L1 x]|] eqn:E; [|discriminate].
    apply claim_inv in E as (pool & mint & vault & mining & owner & auth & dest & w & m & m1 & t & A & Hp & _ & _ & Hm & _ & Hs & _ & _ & _ & _ & _ & Hd & <- & _).
    exists 3%nat, mining, m. split; [reflexivity|]. split; [at_|auto].
  - apply close_inv in H as (mining & owner & target & auth & pool & w & m & m1 & A & Hm & _ & Ho & Hs & _ & _ & _ & _ & Hd & <- & _).
    exists 0%nat, mining, m. split; [reflexivity|]. split; [at_|auto].
  - apply change_inv in H as (pool & mining & auth & owner & od & nd & w & m & w' & m' & od' & nd' & A & [] & Hs & _); subst.
    exists 1%nat, mining, m. split; [reflexivity|]. split; [at_|auto].
Qed.

(** the mining and the delegates a stake instruction accepts *)
Lemma stake_accounts e ts ms i L L' r o :
  exec e ts ms i L = Ok (L', r) -> staker ms i o ->
  exists n k m p w, mining_position i = Some n /\ account_at ms n k /\ is_mining e L k m /\
    account_at ms (pool_position i) p /\ is_pool e L p w /\ k <> p /\
    m_pool (wm m) = p /\ m_owner (wm m) = o /\ cpa_mining e o p (m_bump (wm m)) = Some k /\
    match delegate_of i with
    | None => True
    | Some (dn, d) => exists dk dm, account_at ms dn dk /\ is_mining e L dk dm /\
        (dk = k \/ cpa_mining e d p (m_bump (wm dm)) = Some dk)
    end.
Proof.
  intros H Hst. apply exec_inv in H as [H _]. unfold is_mining, is_pool.
  destruct i; cbn [staker] in Hst; try contradiction; subst; cbn [process mining_position pool_position delegate_of] in *;
    try (apply no_ret_ok in H as [H _]).
  - apply deposit_inv in H as (pool & mining & auth & dm & w & m & w' & m' & d' & A & [] & Hdo & Ho & _).
    exists 1%nat, mining, m, pool, w. split; [reflexivity|]. split; [at_|]. split; [auto|]. split; [at_|]. do 5 (split; [auto|]).
    destruct Hdo as [->|(H1 & H2 & H3 & dmm & H4 & H5)].
    + exists mining, m. split; [at_|]. auto.
    + exists dm, dmm. split; [at_|]. auto.
  - apply withdraw_inv in H as (pool & mining & auth & dm & w & m & w' & m' & d' & A & [] & Hdo & Ho & _).
    exists 1%nat, mining, m, pool, w. split; [reflexivity|]. split; [at_|]. split; [auto|]. split; [at_|]. do 5 (split; [auto|]).
    destruct Hdo as [->|(H1 & H2 & H3 & dmm & H4 & H5)].
    + exists mining, m. split; [at_|]. auto.
    + exists dm, dmm. split; [at_|]. auto.
  - apply extend_inv in H as (pool & mining & auth & dm & w & m & w' & m' & d' & A & [] & Hdo & Ho & _).
    exists 1%nat, mining, m, pool, w. split; [reflexivity|]. split; [at_|]. split; [auto|]. split; [at_|]. do 5 (split; [auto|]).
    destruct Hdo as [->|(H1 & H2 & H3 & dmm & H4 & H5)].
    + exists mining, m. split; [at_|]. auto.
    + exists dm, dmm. split; [at_|]. auto.
  - apply change_inv in H as (pool & mining & auth & owner & od & nd & w & m & w' & m' & od' & nd' & A & [] & Hs & Hdo & _).
    assert (o = owner) by (eapply at_fun; [eassumption|at_]). subst o.
    exists 1%nat, mining, m, pool, w. split; [reflexivity|]. split; [at_|]. split; [auto|]. split; [at_|]. do 5 (split; [auto|]).
    destruct Hdo as [->|(H1 & H2 & H3 & dmm & H4 & H5)].
    + exists mining, m. split; [at_|]. auto.
    + exists nd, dmm. split; [at_|]. auto.
  - apply slash_inv in H as (auth & pool & mining & w & m & w' & m' & A & [] & _).
    exists 2%nat, mining, m, pool, w. split; [reflexivity|]. split; [at_|]. split; [auto|]. split; [at_|]. auto 10.
  - apply decrease_inv in H as (auth & pool & mining & w & m & m' & A & [] & _).
    exists 2%nat, mining, m, pool, w. split; [reflexivity|]. split; [at_|]. split; [auto|]. split; [at_|]. auto 10.
Qed.

(** ** Frame *)
Ltac pos n := exists n; split; [cbn; tauto|at_].
Ltac chase H k :=
  repeat match type of H with
  | context [acc (put_pool _ ?x _) k] => unfold put_pool in H
  | context [acc (put_mining _ ?x _) k] => unfold put_mining in H
  | context [acc (put_dlg _ ?x ?d) k] => destruct d; cbn [put_dlg] in H
  | context [acc (put_data _ ?x _) k] =>
      destruct (Z.eq_dec x k); [subst x|rewrite (acc_put_data_ne _ x k) in H by assumption]
  | context [acc (put_lamports _ ?x _) k] =>
      destruct (Z.eq_dec x k); [subst x|unfold put_lamports in H; rewrite (acc_insert_ne _ x k) in H by assumption]
  | context [acc (<[?x := _]> _) k] =>
      destruct (Z.eq_dec x k); [subst x|rewrite (acc_insert_ne _ x k) in H by assumption]
  end.

Lemma changed_position e ts ms i L L' r k :
  process e ts ms i L = Ok (L', r) -> acc L' k <> acc L k ->
  exists n, In n (may_change i) /\ account_at ms n k.
Proof.
  intros H Hne.
  destruct i; cbn [process may_change] in *; try (apply no_ret_ok in H as [H _]).
  - apply init_pool_inv in H as (pool & mint & vault & payer & auth & bump & w & L1 & L2 & A & _ & _ & _ & _ & _ & _ & _ & _ & _ & _ & Hc & Ha & ->).
    apply create_account_inv in Hc as (_ & _ & _ & _ & _ & _ & _ & _ & _ & _ & ->).
    apply initialize_account_inv in Ha as (_ & _ & _ & ->).
    chase Hne k; [pos 0%nat|pos 2%nat|pos 2%nat|pos 3%nat|congruence].
  - apply fill_inv in H as (pool & mint & vault & auth & src & w & w' & A & _ & _ & _ & _ & _ & _ & _ & _ & _ & _ & _ & Ht).
    apply spl_transfer_inv in Ht as (s & d & _ & _ & _ & _ & _ & _ & _ & _ & [[-> ->]|(_ & _ & ->)]).
    + chase Hne k; [pos 0%nat|congruence].
    + chase Hne k; [pos 2%nat|pos 4%nat|pos 0%nat|congruence].
  - apply init_mining_inv in H as (pool & mining & payer & bump & L1 & A & _ & _ & _ & _ & Hc & ->).
    apply create_account_inv in Hc as (_ & _ & _ & _ & _ & _ & _ & _ & _ & _ & ->).
    chase Hne k; [pos 1%nat|pos 1%nat|pos 2%nat|congruence].
  - apply deposit_inv in H as (pool & mining & auth & dm & w & m & w' & m' & d' & A & _ & _ & _ & _ & ->).
    chase Hne k; first [pos 3%nat|pos 1%nat|pos 0%nat|congruence].
  - apply withdraw_inv in H as (pool & mining & auth & dm & w & m & w' & m' & d' & A & _ & _ & _ & _ & ->).
    chase Hne k; first [pos 3%nat|pos 1%nat|pos 0%nat|congruence].
  - destruct (process_claim e ts ms L) as [[L1 x]|] eqn:E; [|discriminate]. injection H as <- <-.
    apply claim_inv in E as (pool & mint & vault & mining & owner & auth & dest & w & m & m1 & t & A & _ & _ & _ & _ & _ & _ & _ & _ & _ & _ & _ & _ & _ & _ & _ & _ & _ & _ & Hc).
    cbv zeta in Hc. destruct Hc as [[_ ->]|[_ Ht]].
    + chase Hne k; [pos 3%nat|congruence].
    + apply spl_transfer_inv in Ht as (s & d & _ & _ & _ & _ & _ & _ & _ & _ & [[-> ->]|(_ & _ & ->)]).
      * chase Hne k; [pos 3%nat|congruence].
      * chase Hne k; [pos 6%nat|pos 2%nat|pos 3%nat|congruence].
  - apply extend_inv in H as (pool & mining & auth & dm & w & m & w' & m' & d' & A & _ & _ & _ & _ & ->).
    chase Hne k; first [pos 3%nat|pos 1%nat|pos 0%nat|congruence].
  - apply distribute_inv in H as (pool & auth & w & r0 & w' & A & _ & _ & _ & _ & _ & _ & ->).
    chase Hne k; [pos 0%nat|congruence].
  - apply close_inv in H as (mining & owner & target & auth & pool & w & m & m1 & A & _ & _ & _ & _ & _ & _ & _ & _ & _ & _ & _ & _ & _ & _ & ->).
    chase Hne k; [pos 0%nat|pos 2%nat|congruence].
  - apply change_inv in H as (pool & mining & auth & owner & od & nd & w & m & w' & m' & od' & nd' & A & _ & _ & _ & _ & _ & _ & _ & _ & ->).
    chase Hne k; first [pos 5%nat|pos 4%nat|pos 1%nat|pos 0%nat|congruence].
  - apply slash_inv in H as (auth & pool & mining & w & m & w' & m' & A & _ & _ & ->).
    chase Hne k; first [pos 2%nat|pos 1%nat|congruence].
  - apply decrease_inv in H as (auth & pool & mining & w & m & m' & A & _ & _ & ->).
    chase Hne k; first [pos 2%nat|congruence].
Qed.

Lemma changed_named e ts ms i L L' r k :
  exec e ts ms i L = Ok (L', r) -> acc L' k <> acc L k ->
  (exists n, In n (may_change i) /\ account_at ms n k) /\ writable ms k.
Proof.
  intros H Hne. apply exec_inv in H as [H Hw]. pose proof (changed_position _ _ _ _ _ _ _ _ H Hne) as Hpos.
  split; [assumption|]. destruct Hpos as (n & _ & Hn). unfold account_at in Hn.
  apply nth_error_In in Hn. apply Hw in Hn as [|]; [assumption|contradiction].
Qed.
