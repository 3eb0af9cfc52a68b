(** The effects of instructions on the ledger. *)
From stdpp Require Import gmap.
From Verif Require Import Base OMap State Spec EffectSpec Ledger Program ResLemmas TreeLemmas AccrualLemmas
  RefreshLemmas FrameLemmas WfLemmas LedgerLemmas LedgerSpec CodecLemmas History HistoryLemmas Changes AccessLemmas HistoryThms ReachThms
  EffectLemmas EffectMethods.

(** the delegate's mining [D] of a stake instruction about the mining [k]: it is [k] itself,
    or another mining that changes as described *)
Definition delegate_effect (e : env) (L L' : ledger) (D k : pubkey) (f : wmining -> wmining -> Prop) : Prop :=
  D = k \/ (D <> k /\ exists x x', is_mining e L D x /\ is_mining e L' D x' /\ f x x').
(** [a] if the delegate is another mining *)
Definition if_other (D k a : Z) : Z := if D =? k then 0 else a.

Section env.
Context (e : env) (Henv : env_ok e).

Lemma is_mining_data L k a b : is_mining e L k a -> data_of L k = DMining b -> a = b.
Proof. intros [_ H] H'. congruence. Qed.

Lemma takes_part_dlg L D k a : takes_part (dlg_of L D k) a = if_other D k a.
Proof. unfold dlg_of, if_other. rewrite Z.eqb_sym. destruct (D =? k); reflexivity. Qed.

Lemma stake_written L P k D w' m' d' :
  owner_of L P = program_id e -> owner_of L k = program_id e -> k <> P ->
  (D = k -> d' = None) -> D <> P ->
  let L' := put_dlg (put_mining (put_pool L P w') k m') D d' in
  is_pool e L' P w' /\ is_mining e L' k m' /\
  (forall x', d' = Some x' -> owner_of L D = program_id e -> is_mining e L' D x').
Proof.
  intros HP Hk Hne HD HDP. cbv zeta. unfold is_pool, is_mining.
  destruct d' as [x|]; cbn [put_dlg].
  - assert (HDk : D <> k) by (intros E; specialize (HD E); discriminate).
    unfold put_mining, put_pool. rewrite !owner_put. unfold data_of.
    rewrite (acc_put_data_ne _ D P), (acc_put_data_ne _ k P), (acc_put_data_ne _ D k) by congruence.
    split; [split; [assumption|apply data_put]|]. split; [split; [assumption|apply data_put]|].
    intros x' E Ho. injection E as <-. split; [assumption|apply data_put].
  - unfold put_mining, put_pool. rewrite !owner_put. unfold data_of. rewrite (acc_put_data_ne _ k P) by congruence.
    split; [split; [assumption|apply data_put]|]. split; [split; [assumption|apply data_put]|]. discriminate.
Qed.

Lemma delegate_moved_effect ts ci delta L L' D k d' :
  owner_of L D = program_id e ->
  delegate_moved ts ci delta (dlg_of L D k) d' ->
  (forall x', d' = Some x' -> owner_of L D = program_id e -> is_mining e L' D x') ->
  delegate_effect e L L' D k (fun x x' => 0 <= m_sfo (wm x) + delta /\
     refreshed ts ci (with_delegated x (m_sfo (wm x) + delta)) x').
Proof.
  intros Ho H Hx. unfold dlg_of in H. destruct (Z.eqb_spec k D) as [->|Hne]; [left; reflexivity|right].
  split; [congruence|]. cbn in H. destruct (load_mining (a_data (acc L D))) as [x|] eqn:E; [|contradiction].
  apply load_mining_ok in E. destruct d' as [x'|]; [|contradiction].
  exists x, x'. split; [split; assumption|]. split; [apply Hx; auto|assumption].
Qed.

Lemma dlg_none_moved L D k d' (R : dlg -> option wmining -> Prop) :
  (forall d, R None d -> d = None) -> R (dlg_of L D k) d' -> D = k -> d' = None.
Proof. intros H HR ->. unfold dlg_of in HR. rewrite Z.eqb_refl in HR. auto. Qed.

Lemma delegate_ne L D k d P : delegate_ok e L k D d P -> k <> P -> D <> P.
Proof. intros [->|(_ & H & _)] Hne; [assumption|assumption]. Qed.

(** ** Deposit *)
Lemma deposit_on_ledger now ts ms a p o d L L' r :
  reached e now L -> now <= ts -> is_u64 a -> exec e ts ms (DepositMining a p o d) L = Ok (L', r) ->
  exists P k D w m m1 w' m',
    account_at ms 0 P /\ account_at ms 1 k /\ account_at ms 3 D /\
    is_pool e L P w /\ is_mining e L k m /\ is_pool e L' P w' /\ is_mining e L' k m' /\
    p <> LNone /\
    refreshed ts (wp_ci w) m m1 /\ only_stake m1 m' /\
    m_share (wm m') = m_share (wm m1) + a * weight_of p /\
    scheduled 50 (expiry p ts) (a * (weight_of p - 1)) (wm_diffs m1) (wm_diffs m') /\
    only_total w w' /\
    p_total (wp w') = p_total (wp w) + a * weight_of p + if_other D k a /\
    scheduled 365 (expiry p ts) (a * (weight_of p - 1)) (wp_diffs w) (wp_diffs w') /\
    delegate_effect e L L' D k (fun x x' => 0 <= m_sfo (wm x) + a /\
      refreshed ts (wp_ci w) (with_delegated x (m_sfo (wm x) + a)) x').
Proof.
  intros HL Hts Ha H. destruct (reached_ok e Henv _ _ HL) as (A & _ & B).
  apply exec_inv in H as [H _]. cbn [process] in H. apply no_ret_ok in H as [H _].
  apply deposit_inv in H as (P & k & auth & D & w & m & w' & m' & d' & Hms & Hc & Hd & Ho & He & ->).
  destruct (ok_ctx e _ _ _ _ _ _ _ _ _ A Hc) as [Hp Hm]. destruct Hc as [C1 C2 _ C4 C5 _ _ _ _ C10].
  apply (deposit_effect now) in He as (Hl & (m1 & R & O & Hs & Hsc) & OT & HT & HP & HD);
    [|assumption|assumption|apply (ok_dlg e now); assumption|unfold is_u64 in Ha; lia].
  destruct (stake_written L P k D w' m' d' C1 C2 C10) as (S1 & S2 & S3).
  { refine (dlg_none_moved L D k d' (delegate_moved ts (wp_ci w) a) _ HD). intros [x|]; cbn; [contradiction|auto]. }
  { eapply delegate_ne; eassumption. }
  exists P, k, D, w, m, m1, w', m'. rewrite takes_part_dlg in HT.
  do 3 (split; [at_|]). do 2 (split; [split; assumption|]). do 2 (split; [assumption|]).
  do 8 (split; [assumption|]). eapply delegate_moved_effect; eassumption.
Qed.

(** ** Withdraw *)
Lemma withdraw_on_ledger now ts ms a o d L L' r :
  reached e now L -> now <= ts -> is_u64 a -> exec e ts ms (WithdrawMining a o d) L = Ok (L', r) ->
  exists P k D w m m1 w' m',
    account_at ms 0 P /\ account_at ms 1 k /\ account_at ms 3 D /\
    is_pool e L P w /\ is_mining e L k m /\ is_pool e L' P w' /\ is_mining e L' k m' /\
    refreshed ts (wp_ci w) m m1 /\ only_stake m1 m' /\
    a <= m_share (wm m1) /\ m_share (wm m') = m_share (wm m1) - a /\ wm_diffs m' = wm_diffs m1 /\
    only_total w w' /\
    p_total (wp w') = p_total (wp w) - a - due (day_start ts) (wp_diffs w) - if_other D k a /\
    wp_diffs w' = after (day_start ts) (wp_diffs w) /\
    delegate_effect e L L' D k (fun x x' => a <= m_sfo (wm x) /\
      refreshed ts (wp_ci w) (with_delegated x (m_sfo (wm x) - a)) x') /\
    (forall q t, data_of L q = DToken t -> data_of L' q = DToken t).
Proof.
  intros HL Hts Ha H. destruct (reached_ok e Henv _ _ HL) as (A & _ & B).
  apply exec_inv in H as [H _]. cbn [process] in H. apply no_ret_ok in H as [H _].
  apply withdraw_inv in H as (P & k & auth & D & w & m & w' & m' & d' & Hms & Hc & Hd & Ho & He & ->).
  destruct (ok_ctx e _ _ _ _ _ _ _ _ _ A Hc) as [Hp Hm]. destruct Hc as [C1 C2 _ C4 C5 _ _ _ _ C10].
  apply (withdraw_effect now) in He as ((m1 & R & O & Hle & Hs & Hsc) & OT & HT & HP & HD);
    [|assumption|assumption|apply (ok_dlg e now); assumption].
  destruct (stake_written L P k D w' m' d' C1 C2 C10) as (S1 & S2 & S3).
  { refine (dlg_none_moved L D k d' (delegate_moved ts (wp_ci w) (-a)) _ HD). intros [x|]; cbn; [contradiction|auto]. }
  { eapply delegate_ne; eassumption. }
  exists P, k, D, w, m, m1, w', m'. rewrite takes_part_dlg in HT.
  do 3 (split; [at_|]). do 2 (split; [split; assumption|]). do 2 (split; [assumption|]).
  do 8 (split; [assumption|]). pose proof HD as HD'.
  eapply delegate_moved_effect in HD; [|eassumption|eassumption]. split.
  { destruct HD as [HD|(Hne & x & x' & H1 & H2 & H3 & H4)]; [left; assumption|right]. split; [assumption|].
    exists x, x'. split; [assumption|]. split; [assumption|]. split; [lia|assumption]. }
  intros q t Hq. unfold put_dlg, put_mining, put_pool.
  assert (P <> q) by (intros ->; congruence). assert (k <> q) by (intros ->; congruence).
  destruct d' as [x'|]; unfold data_of.
  - destruct (Z.eq_dec D q) as [->|].
    + exfalso. unfold dlg_of in HD'. destruct (k =? q); [exact HD'|].
      unfold data_of in Hq. rewrite Hq in HD'. exact HD'.
    + rewrite !acc_put_data_ne by assumption. assumption.
  - rewrite !acc_put_data_ne by assumption. assumption.
Qed.

(** ** Extend *)
Lemma extend_on_ledger now ts ms op np st b a o d L L' r :
  reached e now L -> now <= ts -> is_u64 b -> is_u64 a ->
  exec e ts ms (ExtendStake op np st b a o d) L = Ok (L', r) ->
  let early := unexpired op st ts in
  let removed := if early then b * weight_of op else b in
  exists P k D w m m1 t w' m',
    account_at ms 0 P /\ account_at ms 1 k /\ account_at ms 3 D /\
    is_pool e L P w /\ is_mining e L k m /\ is_pool e L' P w' /\ is_mining e L' k m' /\
    op <> LNone /\ np <> LNone /\
    refreshed ts (wp_ci w) m m1 /\ only_stake m1 m' /\
    removed <= m_share (wm m1) /\
    m_share (wm m') = m_share (wm m1) - removed + (b + a) * weight_of np /\
    (if early then lowered (expiry op st) (b * (weight_of op - 1)) (wm_diffs m1) t
     else t = wm_diffs m1) /\
    scheduled 50 (expiry np ts) ((b + a) * (weight_of np - 1)) t (wm_diffs m') /\
    only_total w w' /\
    p_total (wp w') = p_total (wp w) - removed + (b + a) * weight_of np + if_other D k a /\
    scheduled 365 (expiry np ts) ((b + a) * (weight_of np - 1)) (wp_diffs w) (wp_diffs w') /\
    delegate_effect e L L' D k (fun x x' => b <= m_sfo (wm x) /\
      exists y, refreshed ts (wp_ci w) (with_delegated x (m_sfo (wm x) - b)) y /\
                x' = with_delegated y (m_sfo (wm x) + a)).
Proof.
  intros HL Hts Hb Ha H. destruct (reached_ok e Henv _ _ HL) as (A & _ & B).
  apply exec_inv in H as [H _]. cbn [process] in H. apply no_ret_ok in H as [H _].
  apply extend_inv in H as (P & k & auth & D & w & m & w' & m' & d' & Hms & Hc & Hd & Ho & He & ->).
  destruct (ok_ctx e _ _ _ _ _ _ _ _ _ A Hc) as [Hp Hm]. destruct Hc as [C1 C2 _ C4 C5 _ _ _ _ C10].
  apply (extend_effect now) in He as (Hop & Hnp & (m1 & t & R & O & Hle & Hs & Hlow & Hsc) & OT & HT & HP & HD);
    [|lia|assumption|assumption|apply (ok_dlg e now); assumption|unfold is_u64 in *; lia|unfold is_u64 in *; lia].
  destruct (stake_written L P k D w' m' d' C1 C2 C10) as (S1 & S2 & S3).
  { refine (dlg_none_moved L D k d' (delegate_extended ts (wp_ci w) b (b + a)) _ HD). intros [x|]; cbn; [contradiction|auto]. }
  { eapply delegate_ne; eassumption. }
  cbv zeta. exists P, k, D, w, m, m1, t, w', m'. rewrite takes_part_dlg in HT.
  do 3 (split; [at_|]). do 2 (split; [split; assumption|]). do 2 (split; [assumption|]).
  do 11 (split; [assumption|]).
  unfold dlg_of in HD. destruct (Z.eqb_spec k D) as [->|Hne]; [left; reflexivity|right].
  split; [congruence|]. cbn in HD. destruct (load_mining (a_data (acc L D))) as [x|] eqn:E; [|contradiction].
  apply load_mining_ok in E. destruct d' as [x'|]; [|contradiction].
  destruct HD as (Hx & y & Ry & ->). exists x. eexists. split; [split; assumption|]. split; [apply S3; auto|].
  split; [assumption|]. exists y. split; [assumption|]. f_equal. lia.
Qed.

(** ** Change delegate *)
Lemma change_on_ledger now ts ms a nd L L' r :
  reached e now L -> now <= ts -> is_u64 a ->
  exec e ts ms (ChangeDelegate a nd) L = Ok (L', r) ->
  exists P k O N w m w' m',
    account_at ms 0 P /\ account_at ms 1 k /\ account_at ms 4 O /\ account_at ms 5 N /\ O <> N /\
    is_pool e L P w /\ is_mining e L k m /\ is_pool e L' P w' /\ is_mining e L' k m' /\
    refreshed ts (wp_ci w) m m' /\ only_total w w' /\ wp_diffs w' = wp_diffs w /\
    p_total (wp w') = p_total (wp w) - if_other O k a + if_other N k a /\
    delegate_effect e L L' O k (fun x x' => a <= m_sfo (wm x) /\
      refreshed ts (wp_ci w) (with_delegated x (m_sfo (wm x) - a)) x') /\
    delegate_effect e L L' N k (fun x x' =>
      refreshed ts (wp_ci w) (with_delegated x (m_sfo (wm x) + a)) x').
Proof.
  intros HL Hts Ha H. destruct (reached_ok e Henv _ _ HL) as (A & _ & B).
  apply exec_inv in H as [H _]. cbn [process] in H. apply no_ret_ok in H as [H _].
  apply change_inv in H as (P & k & auth & ow & O & N & w & m & w' & m' & od' & nd' & Hms & Hc & _ & Hd & HoO & HoN & HON & HOP & He & ->).
  destruct (ok_ctx e _ _ _ _ _ _ _ _ _ A Hc) as [Hp Hm]. destruct Hc as [C1 C2 _ C4 C5 _ _ _ _ C10].
  apply (change_effect now) in He as (R & OT & Hds & HT & HDo & HDn);
    [|assumption|assumption|apply (ok_dlg e now); assumption|apply (ok_dlg e now); assumption|unfold is_u64 in *; lia].
  assert (HNP : N <> P) by (eapply delegate_ne; eassumption).
  set (Lm := put_mining (put_pool L P w') k m').
  destruct (stake_written L P k O w' m' od' C1 C2 C10) as (S1 & S2 & S3).
  { refine (dlg_none_moved L O k od' (delegate_moved ts (wp_ci w) (-a)) _ HDo). intros [x|]; cbn; [contradiction|auto]. }
  { assumption. }
  fold Lm in S1, S2, S3.
  assert (HNk : N = k -> nd' = None).
  { refine (dlg_none_moved L N k nd' (delegate_moved ts (wp_ci w) a) _ HDn). intros [x|]; cbn; [contradiction|auto]. }
  set (L2 := put_dlg Lm O od') in *. set (L3 := put_dlg L2 N nd').
  assert (Hother : forall q, q <> N -> acc L3 q = acc L2 q).
  { intros q Hq. unfold L3. destruct nd'; cbn [put_dlg]; [|reflexivity]. apply acc_put_data_ne. congruence. }
  assert (Hkept : forall q mm, q <> N -> is_mining e L2 q mm -> is_mining e L3 q mm).
  { intros q mm Hq [X Y]. unfold is_mining, owner_of, data_of in *. rewrite (Hother q Hq). auto. }
  exists P, k, O, N, w, m, w', m'. rewrite !takes_part_dlg in HT.
  do 4 (split; [at_|]). split; [congruence|]. do 2 (split; [split; assumption|]).
  split. { destruct S1 as [X Y]. unfold is_pool, owner_of, data_of in *. rewrite (Hother P) by congruence. auto. }
  split. { destruct (Z.eq_dec k N) as [E|]; [|apply Hkept; [assumption|exact S2]].
    unfold L3. rewrite HNk by congruence. exact S2. }
  do 4 (split; [assumption|]). split.
  - apply (delegate_moved_effect ts (wp_ci w) (-a) L L3 O k od' HoO) in HDo.
    + destruct HDo as [X|(X & x & x' & H1 & H2 & H3 & H4)]; [left; assumption|right]. split; [assumption|].
      exists x, x'. split; [assumption|]. split; [assumption|]. split; [lia|assumption].
    + intros x' E Hx. apply Hkept; [congruence|]. apply S3; assumption.
  - apply (delegate_moved_effect ts (wp_ci w) a L L3 N k nd' HoN) in HDn.
    + destruct HDn as [X|(X & x & x' & H1 & H2 & _ & H4)]; [left; assumption|right]. split; [assumption|].
      exists x, x'. auto.
    + intros x' E Hx. unfold L3. rewrite E. cbn [put_dlg]. unfold is_mining, put_mining.
      rewrite owner_put. split; [|apply data_put].
      unfold L2, Lm. destruct od'; cbn [put_dlg]; unfold put_mining, put_pool; rewrite !owner_put; assumption.
Qed.

(** ** Slash, decrease *)
Lemma slash_on_ledger now ts ms o n wt dt L L' r :
  reached e now L -> now <= ts -> is_u64 n -> is_u64 wt ->
  exec e ts ms (Slash o n wt dt) L = Ok (L', r) ->
  exists P k w m m1 w' m',
    account_at ms 1 P /\ account_at ms 2 k /\
    is_pool e L P w /\ is_mining e L k m /\ is_pool e L' P w' /\ is_mining e L' k m' /\
    refreshed ts (wp_ci w) m m1 /\ only_stake m1 m' /\ only_total w w' /\
    wt <= m_share (wm m1) /\ m_share (wm m') = m_share (wm m1) - wt /\
    p_total (wp w') = p_total (wp w) - wt - due (day_start ts) (wp_diffs w) /\
    match dt with
    | None => wm_diffs m' = wm_diffs m1 /\ wp_diffs w' = after (day_start ts) (wp_diffs w)
    | Some x => n <= wt /\
        lowered (day_start x) (wt - n) (wm_diffs m1) (wm_diffs m') /\
        lowered (day_start x) (wt - n) (after (day_start ts) (wp_diffs w)) (wp_diffs w') /\
        unlocked_stake m' = unlocked_stake m1 - n
    end.
Proof.
  intros HL Hts Hn Hw H. destruct (reached_ok e Henv _ _ HL) as (A & _ & B).
  apply exec_inv in H as [H _]. cbn [process] in H. apply no_ret_ok in H as [H _].
  apply slash_inv in H as (auth & P & k & w & m & w' & m' & Hms & Hc & He & ->).
  destruct (ok_ctx e _ _ _ _ _ _ _ _ _ A Hc) as [Hp Hm]. destruct Hc as [C1 C2 _ C4 C5 _ _ _ _ C10].
  apply (slash_effect now) in He as (m1 & R); [|assumption|assumption|unfold is_u64 in *; lia|unfold is_u64 in *; lia].
  destruct (stake_written L P k k w' m' None C1 C2 C10) as (S1 & S2 & _); [auto|assumption|].
  exists P, k, w, m, m1, w', m'. do 2 (split; [at_|]). do 2 (split; [split; assumption|]). do 2 (split; [assumption|]).
  exact R.
Qed.

Lemma decrease_on_ledger now ts ms o n L L' r :
  reached e now L -> is_u64 n -> exec e ts ms (DecreaseRewards o n) L = Ok (L', r) ->
  exists P k w m m',
    account_at ms 1 P /\ account_at ms 2 k /\
    is_pool e L P w /\ is_mining e L k m /\ is_pool e L' P w /\ is_mining e L' k m' /\
    only_stake m m' /\ n <= m_share (wm m) /\ m_share (wm m') = m_share (wm m) - n /\
    map fst (wm_diffs m') = map fst (wm_diffs m) /\ values (fun v => 0 <= v) (wm_diffs m') /\
    total (wm_diffs m') = total (wm_diffs m) - Z.min n (total (wm_diffs m)) /\
    (forall d, total (after d (wm_diffs m')) = Z.max 0 (total (after d (wm_diffs m)) - n)) /\
    (total (wm_diffs m) <= m_share (wm m) -> total (wm_diffs m') <= m_share (wm m')).
Proof.
  intros HL Hn H. destruct (reached_ok e Henv _ _ HL) as (A & _ & B).
  apply exec_inv in H as [H _]. cbn [process] in H. apply no_ret_ok in H as [H _].
  apply decrease_inv in H as (auth & P & k & w & m & m' & Hms & Hc & He & ->).
  destruct (ok_ctx e _ _ _ _ _ _ _ _ _ A Hc) as [Hp Hm]. destruct Hc as [C1 C2 _ C4 C5 _ _ _ _ C10].
  apply decrease_effect in He as R; [|assumption|unfold is_u64 in *; lia].
  exists P, k, w, m, m'. do 2 (split; [at_|]). do 2 (split; [split; assumption|]).
  unfold is_pool, is_mining, put_mining. rewrite !owner_put. unfold data_of. rewrite acc_put_data_ne by congruence.
  split; [split; assumption|]. split; [split; [assumption|apply data_put]|]. exact R.
Qed.

(** ** Distribute *)
Lemma distribute_on_ledger now ts ms L L' r :
  reached e now L -> now <= ts -> exec e ts ms DistributeRewards L = Ok (L', r) ->
  exists P w w',
    account_at ms 0 P /\ is_pool e L P w /\ is_pool e L' P w' /\
    let part := daily_part (p_avail (wp w)) (p_ends_at (wp w)) ts in
    only_distribution w w' /\ p_total (wp w) <> 0 /\
    p_total (wp w') = p_total (wp w) - due (day_start ts) (wp_diffs w) /\
    wp_diffs w' = after (day_start ts) (wp_diffs w) /\
    (has_date (day_start ts) (wp_ci w) ->
       wp_ci w' = wp_ci w /\ p_index (wp w') = p_index (wp w) /\ p_avail (wp w') = p_avail (wp w)) /\
    (~ has_date (day_start ts) (wp_ci w) ->
       p_total (wp w') <> 0 /\
       p_index (wp w') = p_index (wp w) + 10000000000000000 * part / p_total (wp w') /\
       p_avail (wp w') = p_avail (wp w) - part /\
       wp_ci w' = if Z.of_nat (length (wp_ci w)) <? 1095 then wp_ci w ++ [(day_start ts, p_index (wp w'))]
                  else wp_ci w).
Proof.
  intros HL Hts H. destruct (reached_ok e Henv _ _ HL) as (A & _ & B).
  apply exec_inv in H as [H _]. cbn [process] in H. apply no_ret_ok in H as [H _].
  apply distribute_inv in H as (P & auth & w & amt & w' & Hms & HoP & _ & Hd & _ & Hr & He & ->).
  pose proof (ok_pool e now L P w A HoP Hd) as Hp.
  rewrite rewards_exact in Hr by apply Hp. injection Hr as <-.
  apply (distribute_effect now) in He as (E1 & E2 & E3 & E4 & E5 & E6); [|assumption|assumption].
  exists P, w, w'. split; [at_|]. split; [split; assumption|].
  split. { unfold is_pool, put_pool. rewrite owner_put. split; [assumption|apply data_put]. }
  cbv zeta. do 5 (split; [assumption|]). intros Hno. destruct (E6 Hno) as (X1 & X2 & _ & X4 & X5). auto.
Qed.

(** ** Fill *)
Lemma fill_on_ledger ts ms x d L L' r :
  exec e ts ms (FillVault x d) L = Ok (L', r) ->
  exists P vault source w w' s v,
    account_at ms 0 P /\ account_at ms 2 vault /\ account_at ms 4 source /\
    is_pool e L P w /\ is_pool e L' P w' /\ x <> 0 /\
    (exists mint, account_at ms 1 mint /\ cpa_vault e P mint (p_bump (wp w)) = Some vault) /\
    p_avail (wp w') = p_avail (wp w) + x /\ p_ends_at (wp w') = day_start d /\
    p_ends_at (wp w) <= day_start d /\ day_start ts <= day_start d /\
    wp_diffs w' = wp_diffs w /\ wp_ci w' = wp_ci w /\ p_total (wp w') = p_total (wp w) /\
    p_index (wp w') = p_index (wp w) /\ config w' = config w /\
    data_of L source = DToken s /\ data_of L vault = DToken v /\
    x <= t_amount s /\ t_mint s = t_mint v /\ t_owner s = p_fill_auth (wp w) /\
    (source <> vault ->
       data_of L' source = DToken (Token (t_mint s) (t_owner s) (t_amount s - x)) /\
       data_of L' vault = DToken (Token (t_mint v) (t_owner v) (t_amount v + x))) /\
    (forall q, q <> P -> q <> source -> q <> vault -> acc L' q = acc L q).
Proof.
  intros H. apply exec_inv in H as [H _]. cbn [process] in H. apply no_ret_ok in H as [H _].
  apply fill_inv in H as (P & mint & vault & auth & source & w & w' & Hms & HoP & _ & _ & _ & _ & Hx & Hd & Hau & Hv & _ & Hf & Ht).
  apply fill_effect in Hf as (F1 & F2 & F3 & F4 & F5 & F6 & F7 & F8 & F9 & F10 & F11 & F12 & F13 & F14).
  apply spl_transfer_inv in Ht as (s & v & Hs & Hvd & _ & _ & _ & Hle & Hmint & Hown & Hcase).
  assert (HsP : P <> source).
  { intros ->. unfold put_pool in Hs. rewrite data_put in Hs. discriminate. }
  assert (HvP : P <> vault).
  { intros ->. unfold put_pool in Hvd. rewrite data_put in Hvd. discriminate. }
  assert (Hs' : data_of L source = DToken s).
  { unfold data_of, put_pool in *. rewrite acc_put_data_ne in Hs by assumption. assumption. }
  assert (Hv' : data_of L vault = DToken v).
  { unfold data_of, put_pool in *. rewrite acc_put_data_ne in Hvd by assumption. assumption. }
  exists P, vault, source, w, w', s, v.
  do 3 (split; [at_|]). split; [split; assumption|].
  assert (Hkeep : forall q, q <> source -> q <> vault -> acc L' q = acc (put_pool L P w') q).
  { intros q Hq1 Hq2. destruct Hcase as [[_ ->]|(_ & _ & ->)]; [reflexivity|].
    rewrite !acc_put_data_ne by congruence. reflexivity. }
  split. { unfold is_pool, owner_of, data_of. rewrite (Hkeep P) by congruence.
    change (owner_of (put_pool L P w') P = program_id e /\ data_of (put_pool L P w') P = DPool w').
    unfold put_pool. rewrite owner_put, data_put. auto. }
  split; [assumption|]. split. { exists mint. split; [at_|assumption]. }
  do 8 (split; [assumption|]).
  split. { unfold config. congruence. }
  do 5 (split; [assumption || congruence|]). split.
  - intros Hne. destruct Hcase as [[E _]|(_ & _ & ->)]; [contradiction|]. split; [|apply data_put].
    unfold data_of. rewrite acc_put_data_ne by congruence. apply data_put.
  - intros q Hq1 Hq2 Hq3. rewrite Hkeep by assumption. apply acc_put_data_ne. congruence.
Qed.

Lemma fill_rejects ts ms x d L :
  (x = 0 \/ day_start d < day_start ts \/
   (exists P w, account_at ms 0 P /\ is_pool e L P w /\ day_start d < p_ends_at (wp w))) ->
  exists er, exec e ts ms (FillVault x d) L = Err er.
Proof.
  intros H. destruct (exec e ts ms (FillVault x d) L) as [[L' r]|er] eqn:E; [exfalso|eauto].
  apply fill_on_ledger in E as (P & vault & source & w & w' & s & v & A1 & _ & _ & [B1 B2] & _ & Hx & _ & _ & _ & H1 & H2 & _).
  destruct H as [H|[H|(P0 & w0 & H0 & [C1 C2] & H)]]; [contradiction|lia|].
  assert (P0 = P) by (eapply at_fun; [exact H0|exact A1]). subst. rewrite B2 in C2. injection C2 as ->. lia.
Qed.

(** ** Claim *)
Lemma claim_on_ledger now ts ms L L' r :
  reached e now L -> now <= ts -> exec e ts ms Claim L = Ok (L', r) ->
  exists P vault k owner dest w m m1 t,
    account_at ms 0 P /\ account_at ms 2 vault /\ account_at ms 3 k /\ account_at ms 4 owner /\ account_at ms 6 dest /\
    is_pool e L P w /\ is_mining e L k m /\ is_pool e L' P w /\
    (exists mint, account_at ms 1 mint /\ cpa_vault e P mint (p_bump (wp w)) = Some vault) /\
    m_pool (wm m) = P /\ m_owner (wm m) = owner /\ signed ms owner /\
    data_of L dest = DToken t /\ t_owner t = owner /\
    refreshed ts (wp_ci w) m m1 /\ refresh ts (wp_ci w) m = Ok m1 /\
    is_mining e L' k (WMining (mining_claim (wm m1)) (wm_diffs m1)) /\
    r = Some (m_unclaimed (wm m1)) /\
    (0 < m_unclaimed (wm m1) ->
      exists v, data_of L vault = DToken v /\ m_unclaimed (wm m1) <= t_amount v /\ t_mint v = t_mint t /\
        t_owner v = p_deposit_auth (wp w) /\
        (vault <> dest ->
          data_of L' vault = DToken (Token (t_mint v) (t_owner v) (t_amount v - m_unclaimed (wm m1))) /\
          data_of L' dest = DToken (Token (t_mint t) (t_owner t) (t_amount t + m_unclaimed (wm m1)))) /\
        (vault = dest -> data_of L' vault = DToken v)) /\
    (m_unclaimed (wm m1) = 0 -> forall q, q <> k -> acc L' q = acc L q) /\
    lamports_of L' k = lamports_of L k /\
    (forall q, q <> k -> q <> vault -> q <> dest -> acc L' q = acc L q).
Proof.
  intros HL Hts H. destruct (reached_ok e Henv _ _ HL) as (A & _ & B).
  apply exec_inv in H as [H _]. cbn [process] in H.
  destruct (process_claim e ts ms L) as [[L1 amount]|] eqn:Hc; cbn [rbind] in H; [|discriminate]. inv.
  apply claim_inv in Hc as (P & mint & vault & k & owner & auth & dest & w & m & m1 & t & Hms & HoP & _ & _ & Hok & _ &
    Hso & _ & Hdt & Hto & Hdp & Hau & Hdm & Hmo & Hmp & Hne & Hv & Hr & -> & Hcase).
  pose proof (ok_pool e now L P w A HoP Hdp) as Wp. pose proof (ok_mining e now L k m A Hok Hdm) as Wm.
  pose proof (refresh_refreshed ts (wp_ci w) m m1 (pool_wf_hist _ _ Wp) (mining_wf_min _ Wm) Hr) as R.
  pose proof (refresh_wf _ _ _ _ _ Wp Wm Hr) as Wm1. pose proof (mw_unclaimed _ Wm1) as Hu. unfold is_u64 in Hu.
  cbv zeta in Hcase. set (mc := WMining (mining_claim (wm m1)) (wm_diffs m1)) in *.
  assert (Hkd : k <> dest) by (intros ->; congruence).
  assert (HPd : P <> dest) by (intros ->; congruence).
  assert (HLk : is_mining e (put_mining L k mc) k mc).
  { unfold is_mining, put_mining. rewrite owner_put, data_put. auto. }
  exists P, vault, k, owner, dest, w, m, m1, t.
  do 5 (split; [at_|]). do 2 (split; [split; assumption|]).
  destruct Hcase as [[Hz ->]|[Hz Ht]].
  - split. { unfold is_pool, put_mining. rewrite owner_put. unfold data_of. rewrite acc_put_data_ne by congruence. auto. }
    split. { exists mint. split; [at_|assumption]. }
    do 7 (split; [assumption|]). split; [exact HLk|]. split; [reflexivity|]. split; [lia|].
    split; [intros; apply acc_put_data_ne; congruence|]. split; [apply lamports_put|].
    intros; apply acc_put_data_ne; congruence.
  - apply spl_transfer_inv in Ht as (s & d & Hs & Hd & _ & _ & _ & Hle & Hmint & Hown & Htr).
    assert (Hkv : k <> vault).
    { intros ->. unfold put_mining in Hs. rewrite data_put in Hs. discriminate. }
    assert (Hs' : data_of L vault = DToken s).
    { unfold data_of, put_mining in *. rewrite acc_put_data_ne in Hs by assumption. assumption. }
    assert (Hd' : d = t).
    { unfold data_of, put_mining in *. rewrite acc_put_data_ne in Hd by congruence. congruence. }
    subst d. assert (HPv : P <> vault) by (intros ->; congruence).
    assert (Hkeep : forall q, q <> vault -> q <> dest -> acc L' q = acc (put_mining L k mc) q).
    { intros q Hq1 Hq2. destruct Htr as [[_ ->]|(_ & _ & ->)]; [reflexivity|].
      rewrite !acc_put_data_ne by congruence. reflexivity. }
    split. { unfold is_pool, owner_of, data_of. rewrite (Hkeep P) by assumption. unfold put_mining.
      rewrite acc_put_data_ne by congruence. auto. }
    split. { exists mint. split; [at_|assumption]. }
    do 7 (split; [assumption|]).
    split. { unfold is_mining, owner_of, data_of. rewrite (Hkeep k) by congruence. exact HLk. }
    split; [reflexivity|]. split.
    { intros _. exists s. split; [assumption|]. split; [assumption|]. split; [assumption|]. split; [congruence|]. split.
      - intros Hvd. destruct Htr as [[E _]|(_ & _ & ->)]; [contradiction|]. split; [|apply data_put].
        unfold data_of. rewrite acc_put_data_ne by congruence. apply data_put.
      - intros E. destruct Htr as [[_ ->]|(E' & _)]; [|contradiction]. assumption. }
    split; [lia|]. split. { unfold lamports_of. rewrite (Hkeep k) by congruence. apply lamports_put. }
    intros q Hq1 Hq2 Hq3. rewrite Hkeep by assumption. apply acc_put_data_ne. congruence.
Qed.

(** an immediately repeated claim, with any accounts naming the same mining and pool *)
Lemma claim_again now ts ms ms' L L' r k L'' r' :
  reached e now L -> now <= ts -> is_u64 ts ->
  exec e ts ms Claim L = Ok (L', r) -> account_at ms 3 k -> account_at ms' 3 k ->
  exec e ts ms' Claim L' = Ok (L'', r') ->
  r' = Some 0 /\ forall q, acc L'' q = acc L' q.
Proof.
  intros HL Hts H64 H Hk Hk' H2.
  assert (HL' : reached e ts L').
  { apply (reached_run e _ _ [EvIx ts ms Claim] _ _ HL). econstructor; [|apply run_nil].
    apply (step_ix e now L ts ms Claim L' r); [assumption|assumption|exact I|assumption]. }
  apply (claim_on_ledger now) in H as (P & vault & k1 & owner & dest & w & m & m1 & t & _ & _ & A3 & _ & _ & [A6 A6'] & [A7 A7'] & A8 & _ & A9 & _ & _ & _ & _ & R & Hr & Hm1 & _); [|assumption|assumption].
  assert (k1 = k) by (eapply at_fun; eassumption). subst k1.
  apply (claim_on_ledger ts) in H2 as (P2 & vault2 & k2 & owner2 & dest2 & w2 & m2 & m3 & t2 & _ & _ & B3 & _ & _ & B6 & B7 & _ & _ & B9 & _ & _ & _ & _ & R2 & Hr2 & Hm3 & -> & _ & Hz & Hlam & _); [|assumption|lia].
  assert (k2 = k) by (eapply at_fun; eassumption). subst k2.
  assert (m2 = WMining (mining_claim (wm m1)) (wm_diffs m1)) by (destruct B7 as [_ B7], Hm1 as [_ Hm1]; congruence). subst m2.
  assert (P2 = P).
  { destruct (rf_same _ _ _ _ R) as (X & _). cbn [wm mining_claim set_rewards m_pool] in B9. congruence. }
  subst P2. assert (w2 = w) by (destruct B6 as [_ B6], A8 as [_ A8]; congruence). subst w2.
  assert (m3 = WMining (mining_claim (wm m1)) (wm_diffs m1)).
  { apply (refreshed_same ts (wp_ci w)); [|exact (refreshed_diffs _ _ _ _ R)|assumption].
    exact (rf_index _ _ _ _ R). }
  subst m3. split; [reflexivity|]. intros q. destruct (Z.eq_dec q k) as [->|]; [|apply Hz; [reflexivity|assumption]].
  destruct B7 as [O1 D1], Hm3 as [O2 D2]. unfold lamports_of, owner_of, data_of in *.
  destruct (acc L'' k) as [l2 o2 d2], (acc L' k) as [l1 o1 d1]. cbn [a_lamports a_owner a_data] in *. subst. f_equal.
Qed.

End env.
