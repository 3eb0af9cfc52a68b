(** The ledger model refines the state machine of Core.v: on an orderly history, the
    accounts of one pool are a state Core.v reaches. *)
From stdpp Require Import gmap.
From Verif Require Import Base OMap State Spec Core Ledger Program ResLemmas AccrualLemmas FrameLemmas CodecLemmas
  WfLemmas LedgerLemmas LedgerSpec History HistoryLemmas Changes AccessLemmas HistoryThms ReachThms
  ClientSpec ClientLemmas CoreRun LedgerView.

Lemma min_look e P L k : minings_of e P L !! k = live e P (acc L k).
Proof. unfold minings_of, acc, ledger in *. rewrite lookup_omap. destruct (L !! k); reflexivity. Qed.

Lemma live_some e P L k m :
  live e P (acc L k) = Some m <-> is_mining e L k m /\ m_pool (wm m) = P.
Proof.
  unfold live, is_mining, owner_of, data_of. destruct (a_data (acc L k)) eqn:E; split; try discriminate; try (intros [[_ ?] _]; discriminate).
  - destruct (Z.eqb_spec (a_owner (acc L k)) (program_id e)); [|discriminate].
    destruct (Z.eqb_spec (m_pool (wm m0)) P); [|discriminate]. cbn. intros H; injection H as ->. auto.
  - intros [[-> H] <-]. injection H as ->. rewrite !Z.eqb_refl. reflexivity.
Qed.

Lemma mins_ext e P L L' :
  (forall k, live e P (acc L' k) = live e P (acc L k)) -> minings_of e P L' = minings_of e P L.
Proof. intros H. apply map_eq. intros k. rewrite !min_look. apply H. Qed.

Lemma mins_put_mining e P L k m :
  owner_of L k = program_id e -> m_pool (wm m) = P ->
  minings_of e P (put_mining L k m) = <[k := m]> (minings_of e P L).
Proof.
  intros Ho Hp. apply map_eq. intros x. rewrite min_look. unfold put_mining. rewrite acc_put.
  destruct (Z.eqb_spec x k) as [->|].
  - rewrite lookup_insert. unfold live. cbn. unfold owner_of in Ho. rewrite Ho, Hp, !Z.eqb_refl. reflexivity.
  - rewrite lookup_insert_ne by congruence. rewrite min_look. reflexivity.
Qed.
Lemma mins_put_pool e P L k w0 w :
  data_of L k = DPool w0 -> minings_of e P (put_pool L k w) = minings_of e P L.
Proof.
  intros Hd. apply mins_ext. intros x. unfold put_pool. rewrite acc_put.
  destruct (Z.eqb_spec x k) as [->|]; [|reflexivity]. unfold live. unfold data_of in Hd. rewrite Hd. reflexivity.
Qed.
Lemma mins_put_other e P L k d :
  owner_of L k <> program_id e -> minings_of e P (put_data L k d) = minings_of e P L.
Proof.
  intros Ho. apply mins_ext. intros x. rewrite acc_put.
  destruct (Z.eqb_spec x k) as [->|]; [|reflexivity]. unfold live, owner_of in *. cbn.
  rewrite (proj2 (Z.eqb_neq _ _) Ho). destruct d; cbn; destruct (a_data (acc L k)); reflexivity.
Qed.

Section env.
Context (e : env) (Henv : env_ok e) (Hinj : env_inj e) (Hrent : 0 < rent_min e MINING_LEN).

(** ** Facts about the whole ledger *)

(** minings are initialised and hold lamports, or belong to no pool *)
Definition minings_ok (L : ledger) : Prop :=
  forall k m, is_mining e L k m ->
    m_type (wm m) = TYPE_MINING /\ 0 < lamports_of L k \/ m_pool (wm m) = 0 /\ m_bump (wm m) = 0.
(** the program owns no derived address with bump 0 *)
Definition bumps_ok (L : ledger) : Prop :=
  forall o p b k, cpa_mining e o p b = Some k -> owner_of L k = program_id e -> 0 < b.

Lemma exec_minings now ts ms i L L' r :
  now <= ts -> ledger_ok e now L -> minings_ok L -> exec e ts ms i L = Ok (L', r) -> minings_ok L'.
Proof.
  intros Hts HL HA X k m' [Ho Hd]. apply exec_inv in X as [X _].
  pose proof (eo_sys _ Henv). pose proof (eo_tok _ Henv). pose proof (eo_toksys _ Henv).
  pose proof (process_change e now ts ms i L L' r Henv Hts HL X k) as C.
  unfold owner_of, data_of, lamports_of in *.
  destruct C as [E|? ? A B E G|? ? ? ? ? ? ? _ _ _ A B ? ? E|m0 m1 A B E G|? ? ? _ _ A ? ? F E|? P Q A B E|? A E|? ? A B E|? ? ? ? A ? ? F E];
    rewrite E in Ho, Hd |- *; cbn in Ho, Hd |- *; try congruence.
  - apply HA. split; assumption.
  - injection Hd as ->. destruct G as [(G1 & G2 & G3 & G4 & G5) _]. rewrite G1, G4, G5. apply HA. split; assumption.
  - injection Hd as <-. left. split; [reflexivity|exact Hrent].
  - injection Hd as <-. right. split; reflexivity.
Qed.

Lemma ext_minings L L' : external e L L' -> minings_ok L -> minings_ok L'.
Proof.
  intros X HA k m' [Ho Hd]. destruct (X k) as (_ & H1' & H2'). unfold owner_of, data_of in *.
  destruct (Z.eq_dec (a_owner (acc L k)) (program_id e)) as [Eo|Eo].
  - destruct (H1' Eo) as [(A & B & C)|[_ A]]; [|rewrite A in Hd; discriminate].
    destruct (HA k m') as [[T Hl]|T]; [split; [exact Eo|unfold data_of; congruence]| |auto].
    left. split; [assumption|]. unfold lamports_of in *. lia.
  - specialize (H2' Eo Ho). rewrite Hd in H2'. apply all_zero_mining in H2'. subst m'. right. split; reflexivity.
Qed.

Lemma exec_bumps now ts ms i L L' r :
  now <= ts -> ledger_ok e now L -> bumps_ok L -> exec e ts ms i L = Ok (L', r) -> bumps_ok L'.
Proof.
  intros Hts HL HA X o p b k Hc Ho. apply exec_inv in X as [X _].
  pose proof (eo_sys _ Henv). pose proof (eo_tok _ Henv). pose proof (eo_toksys _ Henv).
  pose proof (process_change e now ts ms i L L' r Henv Hts HL X k) as C.
  specialize (HA o p b k Hc). unfold owner_of in *.
  destruct C as [E|? ? A B E G|? ? ? ? ? ? ? _ _ _ A B ? ? E|m0 m1 A B E G|? ? ? _ _ A ? ? F E|? P Q A B E|? A E|? ? A B E|? ? ? ? A ? ? F E];
    rewrite E in Ho; cbn in Ho; auto; try congruence.
  apply (eo_mining _ Henv) in F as [F1 F2].
  destruct (ei_mining _ Hinj _ _ _ _ _ _ _ Hc F1) as (_ & _ & ->). lia.
Qed.

(** who owns the vault addresses of [P] *)
Lemma exec_vaults now ts ms i L L' r P m b k :
  now <= ts -> ledger_ok e now L -> exec e ts ms i L = Ok (L', r) ->
  cpa_vault e P m b = Some k -> owner_of L' k = spl_token_id e -> owner_of L k <> spl_token_id e ->
  (exists f d, i = InitializePool f d) /\ account_at ms 0 P /\ find_vault e P m = (k, b).
Proof.
  intros Hts HL X Hc Ho Hn. apply exec_inv in X as [X _].
  pose proof (eo_sys _ Henv). pose proof (eo_tok _ Henv). pose proof (eo_toksys _ Henv).
  pose proof (process_change e now ts ms i L L' r Henv Hts HL X k) as C.
  unfold owner_of in *.
  destruct C as [E|? ? A B E G|? ? ? ? ? ? ? _ _ _ A B ? ? E|m0 m1 A B E G|? ? ? _ _ A ? ? F E|? ? Q A B E|? A E|? ? A B E|? ? ? ? A ? ? F E Hi Hp];
    rewrite E in Ho; cbn in Ho; try congruence.
  destruct (eo_vault _ Henv _ _ _ _ F) as [F1 _].
  destruct (ei_vault _ Hinj _ _ _ _ _ _ _ Hc F1) as (<- & <- & <-). auto.
Qed.

Lemma pool_named ts ms i L L' r :
  exec e ts ms i L = Ok (L', r) -> exists p, account_at ms (pool_position i) p.
Proof.
  intros X. apply exec_inv in X as [X _]. destruct (enough_accounts _ _ _ _ _ _ X) as (ks & A & Hl).
  destruct (nth_error ks (pool_position i)) as [p|] eqn:E; [exists p; eapply at_pos; eassumption|].
  apply nth_error_None in E. rewrite Hl in E. destruct i; cbn in E; lia.
Qed.

Lemma exec_token now ts ms i L L' r V t :
  now <= ts -> ledger_ok e now L -> exec e ts ms i L = Ok (L', r) -> is_token e L V t ->
  exists t', is_token e L' V t' /\ t_mint t' = t_mint t /\ t_owner t' = t_owner t.
Proof.
  intros Hts HL X [Ho Hd]. apply exec_inv in X as [X _].
  pose proof (eo_sys _ Henv). pose proof (eo_tok _ Henv). pose proof (eo_toksys _ Henv).
  pose proof (process_change e now ts ms i L L' r Henv Hts HL X V) as C.
  unfold is_token, owner_of, data_of in *.
  destruct C as [E|? ? A B E G|? ? ? ? ? ? ? _ _ _ A B ? ? E|m0 m1 A B E G|? ? ? _ _ A ? ? F E|? ? Q A B E|? A E|t0 x A B E|? ? ? ? A ? ? F E Hi Hp];
    rewrite E; cbn; try congruence.
  - exists t. auto.
  - rewrite B in Hd. injection Hd as ->. eexists. split; [split; [assumption|reflexivity]|auto].
Qed.

Section pool.
Context (P : pubkey) (HP : P <> 0) (D : Z -> op -> core -> Prop).

Lemma typed L k m : minings_ok L -> is_mining e L k m -> m_pool (wm m) = P ->
  m_type (wm m) = TYPE_MINING /\ 0 < lamports_of L k.
Proof. intros H Hm Hp. destruct (H k m Hm) as [|[E _]]; [assumption|congruence]. Qed.

(** ** Instructions for other pools *)
Lemma no_hole now ts ms i L L' r P' k m :
  orderly_ix e P D now ts ms i L -> exec e ts ms i L = Ok (L', r) ->
  account_at ms (pool_position i) P' -> P' <> P ->
  is_mining e L k m -> m_pool (wm m) = P -> ~ hole ms i k.
Proof.
  intros O X Hp Hne Hm Hmp [[(a & n & ->) Hk]|[-> Hk]].
  - cbn [pool_position] in Hp.
    apply exec_inv in X as [X _]. cbn [process] in X. apply no_ret_ok in X as [X _].
    apply change_inv in X as (pool & mining & auth & owner & od & nd & w0 & m0 & w' & m' & od' & nd' & A & Hc & _).
    assert (P' = pool) by (eapply at_fun; [eassumption|at_]). subst pool.
    assert (k = od) by (eapply at_fun; [eassumption|at_]). subst od.
    destruct (oi_change _ _ _ _ _ _ _ _ O a n P' mining k eq_refl) as [->|(x & Hx & Hxp)]; [at_|at_|at_| |].
    + apply Hne. destruct Hm as [_ Hm]. rewrite (sc_mining _ _ _ _ _ _ _ _ _ Hc) in Hm. injection Hm as <-.
      rewrite <- (sc_mpool _ _ _ _ _ _ _ _ _ Hc). assumption.
    + destruct Hm as [_ Hm], Hx as [_ Hx]. rewrite Hx in Hm. injection Hm as ->. congruence.
  - apply Hne. exact (oi_close _ _ _ _ _ _ _ _ O k m P' eq_refl Hk Hp Hm Hmp).
Qed.

Lemma other_minings_of now ts ms i L L' r P' :
  now <= ts -> ledger_ok e now L -> minings_ok L -> addresses_ok e L ->
  orderly_ix e P D now ts ms i L -> exec e ts ms i L = Ok (L', r) ->
  account_at ms (pool_position i) P' -> P' <> P ->
  minings_of e P L' = minings_of e P L.
Proof.
  intros Hts HL HM HA O X Hp Hne. apply mins_ext. intros k.
  destruct (live e P (acc L k)) as [m|] eqn:El.
  - apply live_some in El as [Hm Hmp].
    rewrite (isolation_mining e Henv Hinj ts ms i L L' r P' k m); auto.
    + apply live_some. auto.
    + apply (typed L k m); assumption.
    + congruence.
    + eapply no_hole; eassumption.
  - destruct (live e P (acc L' k)) as [m'|] eqn:El'; [exfalso|reflexivity].
    apply live_some in El' as [[Ho Hd] Hmp].
    apply exec_inv in X as [X _].
    pose proof (eo_sys _ Henv). pose proof (eo_tok _ Henv). pose proof (eo_toksys _ Henv).
    pose proof (process_change e now ts ms i L L' r Henv Hts HL X k) as C.
    unfold owner_of, data_of in *.
    destruct C as [E|? ? A B E G|? ? ? ? ? ? ? _ _ _ A B ? ? E|m0 m1 A B E G|pp ? ? Hi Hpp A ? ? F E|? ? Q A B E|? A E|? ? A B E|? ? ? ? A ? ? F E];
      try (rewrite E in Ho, Hd; cbn in Ho, Hd; try congruence).
    + assert (live e P (acc L k) = Some m') by (apply live_some; split; [split; assumption|assumption]). congruence.
    + injection Hd as ->. destruct G as [(G1 & _) _].
      assert (live e P (acc L k) = Some m0) by (apply live_some; split; [split; assumption|congruence]). congruence.
    + injection Hd as <-. cbn in Hmp. subst pp i. cbn in Hp. apply Hne. eapply at_fun; eassumption.
    + injection Hd as <-. cbn in Hmp. congruence.
Qed.

Lemma other_pool now ts ms i L L' r P' w :
  now <= ts -> exec e ts ms i L = Ok (L', r) ->
  account_at ms (pool_position i) P' -> P' <> P -> is_pool e L P w -> acc L' P = acc L P.
Proof. intros Hts X Hp Hne Hw. apply (isolation_pool e Henv ts ms i L L' r P' P w); auto. Qed.

Lemma other_vault now ts ms i L L' r P' m b V t :
  now <= ts -> ledger_ok e now L ->
  orderly_ix e P D now ts ms i L -> exec e ts ms i L = Ok (L', r) ->
  account_at ms (pool_position i) P' -> P' <> P ->
  cpa_vault e P m b = Some V -> is_token e L V t -> balance L V <= balance L' V.
Proof.
  intros Hts HL O X Hp Hne HV [Ho Hd]. destruct (decide (acc L' V = acc L V)) as [E|Hc].
  { unfold balance, data_of. rewrite E. lia. }
  apply exec_inv in X as [H _].
  pose proof (eo_sys _ Henv). pose proof (eo_tok _ Henv). pose proof (eo_toksys _ Henv).
  destruct i; cbn [process pool_position] in *; try (apply no_ret_ok in H as [H _]).
  - exfalso. apply init_pool_inv in H as (pool & mint & vault & payer & auth & bump & w0 & L1 & L2 & A & _ & _ & _ & _ & _ & ? & _ & _ & _ & _ & Hcr & Ha & ->).
    apply create_account_inv in Hcr as (_ & _ & _ & _ & Hv & _ & Hf & _ & _ & _ & ->).
    apply initialize_account_inv in Ha as (_ & _ & _ & ->).
    chase Hc V; congruence.
  - exfalso. apply fill_inv in H as (pool & mint & vault & auth & src & w0 & w' & A & _ & _ & Hv & Hs & _ & _ & ? & _ & Hcv & _ & _ & Ht).
    assert (P' = pool) by (eapply at_fun; [eassumption|at_]). subst P'.
    assert (src <> V). { intros ->. eapply (oi_fill _ _ _ _ _ _ _ _ O); [reflexivity|at_|exact Hne|at_|eassumption]. }
    assert (vault <> V). { intros ->. destruct (ei_vault _ Hinj _ _ _ _ _ _ _ HV Hcv) as (? & _). congruence. }
    apply spl_transfer_inv in Ht as (s & d & _ & _ & _ & _ & _ & _ & _ & _ & [[-> ->]|(_ & _ & ->)]);
    chase Hc V; congruence.
  - exfalso. apply init_mining_inv in H as (pool & mining & payer & bump & L1 & A & _ & _ & _ & _ & Hcr & ->).
    apply create_account_inv in Hcr as (_ & _ & _ & _ & Hv & _ & Hf & _ & _ & _ & ->).
    chase Hc V; congruence.
  - exfalso. apply deposit_inv in H as (pool & mining & auth & dm & w0 & m0 & w' & m' & d' & A & [] & Hdo & Hdo' & Hde & ->).
    chase Hc V; congruence.
  - exfalso. apply withdraw_inv in H as (pool & mining & auth & dm & w0 & m0 & w' & m' & d' & A & [] & Hdo & Hdo' & Hde & ->).
    chase Hc V; congruence.
  - destruct (process_claim e ts ms L) as [[L1 x]|] eqn:E; [|discriminate]. injection H as <- <-.
    apply claim_inv in E as (pool & mint & vault & mining & owner & auth & dest & w0 & m0 & m1 & t0 & A & _ & _ & Hv & Hmo & Hde & _ & _ & _ & _ & Hwd & _ & Hm & _ & Hmp & _ & Hcv & _ & _ & Hcl).
    assert (P' = pool) by (eapply at_fun; [eassumption|at_]). subst P'.
    assert (vault <> V). { intros ->. destruct (ei_vault _ Hinj _ _ _ _ _ _ _ HV Hcv) as (? & _). congruence. }
    cbv zeta in Hcl. destruct Hcl as [[_ ->]|[Hx Ht]].
    + exfalso. chase Hc V; congruence.
    + apply spl_transfer_inv in Ht as (s & d & Hsd & Hdd & _ & _ & _ & _ & _ & _ & [[-> ->]|(Hnv & _ & ->)]).
      * exfalso. chase Hc V; congruence.
      * destruct (Z.eq_dec dest V) as [->|]; [|exfalso; chase Hc V; congruence].
        unfold balance at 2. rewrite data_put. cbn. unfold balance.
        unfold data_of, put_mining in Hdd. rewrite acc_put in Hdd.
        destruct (Z.eqb_spec V mining) as [->|]; [congruence|].
        unfold data_of. rewrite Hdd. lia.
  - exfalso. apply extend_inv in H as (pool & mining & auth & dm & w0 & m0 & w' & m' & d' & A & [] & Hdo & Hdo' & Hde & ->).
    chase Hc V; congruence.
  - exfalso. apply distribute_inv in H as (pool & auth & w0 & r0 & w' & A & _ & _ & ? & _ & _ & _ & ->).
    chase Hc V; congruence.
  - exfalso. apply close_inv in H as (mining & owner & target & auth & pool & w0 & m0 & m1 & A & _ & Ht & _ & _ & _ & _ & _ & _ & Hm & _ & _ & _ & _ & _ & ->).
    chase Hc V; congruence.
  - exfalso. apply change_inv in H as (pool & mining & auth & owner & od & nd & w0 & m0 & w' & m' & od' & nd' & A & [] & _ & Hdo & ? & ? & _ & _ & Hch & ->).
    chase Hc V; congruence.
  - exfalso. apply slash_inv in H as (auth & pool & mining & w0 & m0 & w' & m' & A & [] & _ & ->).
    chase Hc V; congruence.
  - exfalso. apply decrease_inv in H as (auth & pool & mining & w0 & m0 & m' & A & [] & _ & ->).
    chase Hc V; congruence.
Qed.

(** ** Instructions for [P] *)
Lemma delegate_live L k dm delegate :
  minings_ok L -> bumps_ok L -> addresses_ok e L -> delegate_ok e L k dm delegate P ->
  dm = k \/ exists x, is_mining e L dm x /\ m_pool (wm x) = P.
Proof.
  intros HM HB HA Hd. destruct (Z.eq_dec dm k) as [|Hne]; [auto|right].
  pose proof Hd as Hd0. destruct Hd0 as [|(_ & _ & Ho & x & Hx & Hc)]; [contradiction|].
  assert (Hm : is_mining e L dm x) by (split; assumption).
  exists x. split; [assumption|]. eapply delegate_pool; try eassumption.
  destruct (HM dm x Hm) as [[]|[_ Hb]]; [assumption|].
  pose proof (HB _ _ _ _ Hc Ho). lia.
Qed.

Lemma get_min_view L k m : is_mining e L k m -> m_pool (wm m) = P -> get_min (minings_of e P L) k = Ok m.
Proof.
  intros H Hp. unfold get_min. rewrite min_look, (proj2 (live_some e P L k m)) by auto. reflexivity.
Qed.

Lemma get_dlg_view L k dm :
  dm = k \/ (exists x, is_mining e L dm x /\ m_pool (wm x) = P) ->
  get_dlg (minings_of e P L) k (other dm k) = Ok (dlg_of L dm k).
Proof.
  intros H. unfold other, dlg_of. rewrite (Z.eqb_sym k dm). destruct (Z.eqb_spec dm k) as [|Hne]; [reflexivity|].
  destruct H as [|(x & Hx & Hxp)]; [contradiction|].
  cbn [get_dlg]. rewrite (proj2 (Z.eqb_neq dm k)) by assumption. rewrite (get_min_view L dm x) by assumption. cbn [rbind].
  destruct Hx as [_ Hx]. unfold data_of in Hx. rewrite Hx. reflexivity.
Qed.

(** what a delegate looks like afterwards *)
Definition dlg_after (k dm : pubkey) (d' : option wmining) : Prop :=
  dm = k /\ d' = None \/ dm <> k /\ exists x, d' = Some x /\ m_pool (wm x) = P.

Lemma dlg_after_of L k dm d' :
  dm = k \/ (exists x, is_mining e L dm x /\ m_pool (wm x) = P) ->
  dlg_grows (dlg_of L dm k) d' -> dlg_after k dm d'.
Proof.
  intros H G. apply dlg_of_cases in G as [[-> ->]|(Hne & x & x' & Hx & -> & [(E & _) _])]; [left; auto|right].
  split; [assumption|]. exists x'. split; [reflexivity|].
  destruct H as [|(y & [_ Hy] & Hp)]; [contradiction|]. rewrite Hx in Hy. injection Hy as ->. congruence.
Qed.

Lemma mins_put_dlg L k dm d' :
  owner_of L dm = program_id e -> dlg_after k dm d' ->
  minings_of e P (put_dlg L dm d') = put_opt (other dm k) d' (minings_of e P L).
Proof.
  intros Ho [[-> ->]|(Hne & x & -> & Hp)]; unfold other.
  - rewrite Z.eqb_refl. reflexivity.
  - rewrite (proj2 (Z.eqb_neq dm k)) by assumption. cbn [put_dlg put_opt]. apply mins_put_mining; assumption.
Qed.

Lemma acc_put_dlg L dm d' k : k <> dm -> acc (put_dlg L dm d') k = acc L k.
Proof. intros H. destruct d'; [|reflexivity]. cbn. unfold put_mining. apply acc_put_data_ne. congruence. Qed.
Lemma owner_put_dlg L dm d' k : owner_of (put_dlg L dm d') k = owner_of L k.
Proof. destruct d'; [|reflexivity]. cbn. unfold put_mining. apply owner_put. Qed.

Lemma pool_of_acc L L' : acc L' P = acc L P -> pool_of L' P = pool_of L P.
Proof. unfold pool_of, data_of. intros ->. reflexivity. Qed.
Lemma balance_acc L L' V : acc L' V = acc L V -> balance L' V = balance L V.
Proof. unfold balance, data_of. intros ->. reflexivity. Qed.
Lemma pool_of_put L w : pool_of (put_pool L P w) P = w.
Proof. unfold pool_of, put_pool. rewrite data_put. reflexivity. Qed.

Lemma token_ne L V t k : is_token e L V t -> owner_of L k = program_id e -> V <> k.
Proof. intros [H _] Ho ->. pose proof (eo_tok _ Henv). congruence. Qed.

Lemma stake_view L k dm w w' m' d' V t ts :
  is_pool e L P w -> owner_of L k = program_id e -> m_pool (wm m') = P -> owner_of L dm = program_id e ->
  k <> P -> dm <> P -> dlg_after k dm d' -> is_token e L V t ->
  core_of e P V ts (put_dlg (put_mining (put_pool L P w') k m') dm d')
  = Core w' (put_opt (other dm k) d' (<[k := m']> (minings_of e P L))) (balance L V) ts.
Proof.
  intros [Hpo Hpd] Hk Hm Hdo Hkp Hdp Hd HV. unfold core_of.
  pose proof (token_ne _ _ _ _ HV Hpo). pose proof (token_ne _ _ _ _ HV Hk). pose proof (token_ne _ _ _ _ HV Hdo).
  f_equal.
  - rewrite (pool_of_acc (put_pool L P w')); [apply pool_of_put|].
    rewrite acc_put_dlg by congruence. unfold put_mining. apply acc_put_data_ne. congruence.
  - rewrite (mins_put_dlg _ k) by (try assumption; unfold put_mining, put_pool; rewrite !owner_put; assumption).
    f_equal. rewrite mins_put_mining by (try assumption; unfold put_pool; rewrite owner_put; assumption).
    f_equal. eapply mins_put_pool. eassumption.
  - apply balance_acc. rewrite acc_put_dlg by congruence. unfold put_mining, put_pool.
    rewrite !acc_put_data_ne by congruence. reflexivity.
Qed.

(** the pool is initialised *)
Record after (now : Z) (L : ledger) (w : wpool) (V : pubkey) (t : token) : Prop := {
  af_pool : pool_vault e L P V w;
  af_lam : 0 < lamports_of L P;
  af_only : forall m b k, cpa_vault e P m b = Some k -> owner_of L k = spl_token_id e -> k = V;
  af_token : is_token e L V t;
  af_mint : t_mint t = p_mint (wp w);
  af_owner : t_owner t = p_deposit_auth (wp w);
  af_core : reachable D (core_of e P V now L) }.

Lemma pool_of_is L w : is_pool e L P w -> pool_of L P = w.
Proof. intros [_ H]. unfold pool_of. rewrite H. reflexivity. Qed.

(** a claim from [V]: where the vault's balance goes *)
Ltac opq A := destruct A as [? A]; unfold op_of; rewrite A; cbn [app]; rewrite Z.eqb_refl; reflexivity.

Lemma own_step now ts ms i L L' r w V t :
  now <= ts -> ledger_ok e now L -> minings_ok L -> bumps_ok L -> addresses_ok e L ->
  orderly_ix e P D now ts ms i L -> exec e ts ms i L = Ok (L', r) ->
  account_at ms (pool_position i) P ->
  is_pool e L P w -> p_type (wp w) = TYPE_POOL -> is_token e L V t ->
  (forall m b k, cpa_vault e P m b = Some k -> owner_of L k = spl_token_id e -> k = V) ->
  (exists o, op_of e P ms i = Some o /\ core_step ts o (core_of e P V now L) = Ok (core_of e P V ts L')) \/
  (exists o c n, op_of e P ms i = Some o /\ core_step ts o (core_of e P V now L) = Ok c /\ c_now c = ts /\
     0 <= n <= balance L V /\ core_step ts (ODonate n) c = Ok (core_of e P V ts L') /\
     i = Claim /\ account_at ms 6 V /\ r = Some n) \/
  (i = CloseMining /\ core_of e P V ts L' = Core (pool_of L P) (minings_of e P L) (balance L V) ts).
Proof.
  intros Hts HL HM HB HA O X HPp Hw Hty HV Honly. apply exec_inv in X as [H _].
  pose proof (eo_sys _ Henv) as E1. pose proof (eo_tok _ Henv) as E2. pose proof (eo_toksys _ Henv) as E3.
  pose proof (pool_of_is _ _ Hw) as Hpo.
  destruct i; cbn [process pool_position] in *; try (apply no_ret_ok in H as [H _]).
  - exfalso. apply init_pool_inv in H as (pool & mint & vault & payer & auth & bump & w0 & L1 & L2 & A & _ & _ & _ & _ & _ & Hd & Hn & _).
    assert (P = pool) by (eapply at_fun; [eassumption|at_]). subst pool. destruct Hw. congruence.
  - apply fill_inv in H as (pool & mint & vault & auth & src & w0 & w' & A & Hpow & _ & Hvo & Hso & _ & Hr & Hpd & _ & Hcv & _ & Hf & Ht).
    assert (P = pool) by (eapply at_fun; [eassumption|at_]). subst pool.
    assert (vault = V) by (eapply Honly; eassumption). subst vault.
    assert (w0 = w) by (destruct Hw; congruence). subst w0.
    pose proof (token_ne _ _ _ _ HV Hpow) as HVP.
    assert (src <> P) by (intros ->; congruence).
    left. exists (OFill rewards ends_at (src =? V)). split; [opq A|].
    apply spl_transfer_inv in Ht as (s & d & Hsd & Hdd & _ & _ & _ & Hle & _ & _ & [[-> ->]|(HsV & Hlt & ->)]).
    { rewrite Z.eqb_refl.
      assert (Hd0 : data_of L V = DToken s).
      { unfold data_of in Hsd |- *. unfold put_pool in Hsd. rewrite acc_put_data_ne in Hsd by congruence. assumption. }
      assert (Hb : balance L V = t_amount s) by (unfold balance; rewrite Hd0; reflexivity).
      unfold core_step, core_of. cbn [c_pool c_min c_vault]. rewrite Hpo.
      rewrite (proj2 (Z.eqb_neq _ _) Hr). cbn [negb ensure rbind]. rewrite Hf. cbn [rbind].
      rewrite Hb, (proj2 (Z.leb_le _ _)) by assumption. cbn [ensure rbind]. do 2 f_equal.
      - symmetry. apply pool_of_put.
      - symmetry. eapply mins_put_pool. eassumption.
      - rewrite <- Hb. apply eq_sym, balance_acc. unfold put_pool. rewrite acc_put_data_ne by congruence. reflexivity. }
    rewrite (proj2 (Z.eqb_neq _ _) HsV).
    assert (Hd0 : data_of L V = DToken d).
    { unfold data_of in Hdd |- *. unfold put_pool in Hdd. rewrite acc_put_data_ne in Hdd by congruence. assumption. }
    assert (Hb : balance L V = t_amount d) by (unfold balance; rewrite Hd0; reflexivity).
    unfold core_step, core_of. cbn [c_pool c_min c_vault]. rewrite Hpo.
    rewrite (proj2 (Z.eqb_neq _ _) Hr). cbn [negb ensure rbind]. rewrite Hf. cbn [rbind].
    unfold vault_add. rewrite Hb, (proj2 (Z.ltb_lt _ _)) by lia. cbn [rbind]. do 2 f_equal.
    + symmetry. rewrite (pool_of_acc (put_pool L P w')); [apply pool_of_put|].
      rewrite !acc_put_data_ne by congruence. reflexivity.
    + symmetry. rewrite !mins_put_other by (unfold put_pool; rewrite ?owner_put; congruence).
      eapply mins_put_pool. eassumption.
    + unfold balance. rewrite data_put. reflexivity.
  - apply init_mining_inv in H as (pool & k & payer & bump & L1 & A & Hpow & _ & _ & Hf & Hcr & ->).
    assert (P = pool) by (eapply at_fun; [eassumption|at_]). subst pool.
    apply create_account_inv in Hcr as (_ & _ & _ & Hl & Hko & _ & Hfo & _ & Hfk & _ & ->).
    left. eexists. split.
    { destruct A as [? A]; unfold op_of; rewrite A; cbn [app]; rewrite Z.eqb_refl, Hf. reflexivity. }
    assert (k <> P) by (intros ->; congruence). assert (payer <> P) by (intros ->; congruence).
    destruct HV as [HVo HVd]. assert (k <> V) by (intros ->; congruence). assert (payer <> V) by (intros ->; congruence).
    unfold core_step, core_of. cbn [c_pool c_min c_vault snd].
    assert (Hn : minings_of e P L !! k = None).
    { rewrite min_look. destruct (live e P (acc L k)) eqn:El; [|reflexivity].
      apply live_some in El as [[Ho _] _]. congruence. }
    rewrite Hn. do 2 f_equal.
    + apply eq_sym, pool_of_acc. unfold put_mining. rewrite acc_put_data_ne, acc_insert_ne by congruence.
      unfold put_lamports. rewrite acc_insert_ne by congruence. reflexivity.
    + symmetry. apply map_eq. intros x. rewrite min_look. unfold put_mining. rewrite acc_put, !acc_ins, !acc_put_lam, Z.eqb_refl.
      destruct (Z.eqb_spec x k) as [->|].
      * rewrite lookup_insert. unfold live. cbn. rewrite !Z.eqb_refl. reflexivity.
      * rewrite lookup_insert_ne by congruence. rewrite min_look.
        destruct (Z.eqb_spec x payer) as [->|]; reflexivity.
    + apply eq_sym, balance_acc. unfold put_mining. rewrite acc_put_data_ne, acc_insert_ne by congruence.
      unfold put_lamports. rewrite acc_insert_ne by congruence. reflexivity.
  - apply deposit_inv in H as (pool & k & auth & dm & w0 & m & w' & m' & d' & A & Hc & Hdo & Ho & Hd & ->).
    assert (P = pool) by (eapply at_fun; [eassumption|at_]). subst pool.
    pose proof (delegate_ne_pool _ _ _ _ _ _ _ _ _ _ _ Hc Hdo) as Hdp.
    pose proof (delegate_live _ _ _ _ HM HB HA Hdo) as Hdl. destruct Hc.
    assert (w0 = w) by (destruct Hw; congruence). subst w0.
    pose proof (deposit_grows _ _ _ _ _ _ _ _ _ Hd) as (_ & [(Hid & _) _] & G).
    left. eexists. split; [opq A|].
    rewrite (stake_view L k dm w w' m' d' V t ts) by (try assumption; try congruence; eapply dlg_after_of; eassumption).
    unfold core_step, core_of. cbn [c_pool c_min c_vault]. rewrite Hpo.
    rewrite (get_min_view L k m) by (try split; congruence). cbn [rbind].
    rewrite get_dlg_view by assumption. cbn [rbind]. rewrite Hd. reflexivity.
  - apply withdraw_inv in H as (pool & k & auth & dm & w0 & m & w' & m' & d' & A & Hc & Hdo & Ho & Hd & ->).
    assert (P = pool) by (eapply at_fun; [eassumption|at_]). subst pool.
    pose proof (delegate_ne_pool _ _ _ _ _ _ _ _ _ _ _ Hc Hdo) as Hdp.
    pose proof (delegate_live _ _ _ _ HM HB HA Hdo) as Hdl. destruct Hc.
    assert (w0 = w) by (destruct Hw; congruence). subst w0.
    pose proof (withdraw_grows _ _ _ _ _ _ _ _ Hd) as (_ & [(Hid & _) _] & G).
    left. eexists. split; [opq A|].
    rewrite (stake_view L k dm w w' m' d' V t ts) by (try assumption; try congruence; eapply dlg_after_of; eassumption).
    unfold core_step, core_of. cbn [c_pool c_min c_vault]. rewrite Hpo.
    rewrite (get_min_view L k m) by (try split; congruence). cbn [rbind].
    rewrite get_dlg_view by assumption. cbn [rbind]. rewrite Hd. reflexivity.
  - destruct (process_claim e ts ms L) as [[L1 x]|] eqn:E; [|discriminate]. injection H as <- <-.
    apply claim_inv in E as (pool & mint & vault & k & owner & auth & dest & w0 & m & m1 & t0 & A & Hpow & _ & Hvo & Hko & Hdo & _ & _ & _ & _ & Hpd & _ & Hkd & _ & Hkp & Hkne & Hcv & Hr & Hx & Hcl).
    assert (E0 : pool = P) by (symmetry; eapply at_fun; [eassumption|at_]). rewrite E0 in *. clear E0 pool.
    assert (vault = V) by (eapply Honly; eassumption). subst vault.
    assert (w0 = w) by (destruct Hw; congruence). subst w0.
    set (m2 := WMining (mining_claim (wm m1)) (wm_diffs m1)) in *. cbv zeta in Hcl.
    assert (Hm2 : m_pool (wm m2) = P).
    { apply refresh_grows in Hr as [(G & _) _]. cbn. congruence. }
    pose proof (token_ne _ _ _ _ HV Hko) as HVk. pose proof (token_ne _ _ _ _ HV Hpow) as HVP.
    pose proof HV as [HVo HVd].
    assert (Hb : balance L V = t_amount t) by (unfold balance; rewrite HVd; reflexivity).
    assert (Hbp : 0 <= t_amount t). { pose proof (HL V) as [[_ Hu] _]. unfold data_of in HVd. rewrite HVd in Hu. apply Hu. }
    assert (Hmins : minings_of e P (put_mining L k m2) = <[k := m2]> (minings_of e P L)).
    { apply mins_put_mining; assumption. }
    assert (Hpool1 : acc (put_mining L k m2) P = acc L P).
    { unfold put_mining. apply acc_put_data_ne. congruence. }
    assert (Hv1 : acc (put_mining L k m2) V = acc L V).
    { unfold put_mining. apply acc_put_data_ne. congruence. }
    assert (Hstep : x <= t_amount t ->
      core_step ts (OClaim k) (core_of e P V now L) = Ok (Core w (<[k := m2]> (minings_of e P L)) (t_amount t - x) ts)).
    { intros Hle. unfold core_step, core_of. cbn [c_pool c_min c_vault]. rewrite Hpo.
      rewrite (get_min_view L k m) by (try split; congruence). cbn [rbind]. rewrite Hr. cbn [rbind].
      rewrite <- Hx, Hb, (proj2 (Z.leb_le _ _)) by assumption. reflexivity. }
    assert (Hx0 : 0 <= x).
    { pose proof (HL k) as [_ Hk]. unfold owner_of in Hko. specialize (Hk Hko). unfold data_of in Hkd. rewrite Hkd in Hk.
      pose proof (HL P) as [_ Hpw]. unfold owner_of in Hpow. specialize (Hpw Hpow). unfold data_of in Hpd. rewrite Hpd in Hpw.
      pose proof (refresh_wf now w ts m m1) as Hwf. rewrite Hx. apply Hwf; assumption. }
    destruct Hcl as [[Hx1 ->]|[Hx1 Ht]].
    + left. eexists. split; [opq A|]. rewrite Hstep by lia. unfold core_of.
      rewrite (pool_of_acc _ _ Hpool1), (balance_acc _ _ _ Hv1), Hmins, Hpo, Hb. do 2 f_equal. lia.
    + apply spl_transfer_inv in Ht as (s & d & Hsd & Hdd & _ & _ & _ & Hle & _ & _ & [[<- ->]|(Hnd & Hlt & ->)]).
      * right. left. unfold data_of in Hsd. rewrite Hv1 in Hsd. unfold data_of in HVd. rewrite HVd in Hsd. injection Hsd as <-.
        eexists _, _, x. split; [opq A|]. split; [apply Hstep; lia|]. split; [reflexivity|]. split; [rewrite Hb; lia|].
        split; [|split; [reflexivity|split; [at_|reflexivity]]].
        unfold core_step. cbn [c_pool c_min c_vault]. unfold vault_add.
        assert (Hu : t_amount t < U64). { pose proof (HL V) as [[_ Hu] _]. rewrite HVd in Hu. apply Hu. }
        rewrite (proj2 (Z.ltb_lt _ _)) by lia. cbn [rbind]. unfold core_of.
        rewrite (pool_of_acc _ _ Hpool1), (balance_acc _ _ _ Hv1), Hmins, Hpo, Hb. do 2 f_equal. lia.
      * assert (Hdk : dest <> k) by (intros ->; congruence). assert (HdP : dest <> P) by (intros ->; congruence).
        unfold data_of in Hsd. rewrite Hv1 in Hsd. unfold data_of in HVd. rewrite HVd in Hsd. injection Hsd as <-.
        left. eexists. split; [opq A|]. rewrite Hstep by lia. unfold core_of. do 2 f_equal.
        -- rewrite (pool_of_acc L); [congruence|]. rewrite !acc_put_data_ne by congruence. assumption.
        -- rewrite !mins_put_other by (unfold put_mining; rewrite ?owner_put; congruence). symmetry. assumption.
        -- unfold balance, data_of. rewrite acc_put_data_ne by congruence. fold (data_of (put_data (put_mining L k m2) V (DToken (Token (t_mint t) (t_owner t) (t_amount t - x)))) V).
           rewrite data_put. reflexivity.
  - apply extend_inv in H as (pool & k & auth & dm & w0 & m & w' & m' & d' & A & Hc & Hdo & Ho & Hd & ->).
    assert (P = pool) by (eapply at_fun; [eassumption|at_]). subst pool.
    pose proof (delegate_ne_pool _ _ _ _ _ _ _ _ _ _ _ Hc Hdo) as Hdp.
    pose proof (delegate_live _ _ _ _ HM HB HA Hdo) as Hdl. destruct Hc.
    assert (w0 = w) by (destruct Hw; congruence). subst w0.
    pose proof (extend_grows _ _ _ _ _ _ _ _ _ _ _ _ Hd) as (_ & [(Hid & _) _] & G).
    left. eexists. split; [opq A|].
    rewrite (stake_view L k dm w w' m' d' V t ts) by (try assumption; try congruence; eapply dlg_after_of; eassumption).
    unfold core_step, core_of. cbn [c_pool c_min c_vault]. rewrite Hpo.
    rewrite (get_min_view L k m) by (try split; congruence). cbn [rbind].
    rewrite get_dlg_view by assumption. cbn [rbind]. rewrite Hd. reflexivity.
  - apply distribute_inv in H as (pool & auth & w0 & r0 & w' & A & Hpow & _ & Hpd & _ & Hr & Hd & ->).
    assert (P = pool) by (eapply at_fun; [eassumption|at_]). subst pool.
    assert (w0 = w) by (destruct Hw; congruence). subst w0.
    pose proof (token_ne _ _ _ _ HV Hpow) as HVP.
    left. eexists. split; [opq A|]. unfold core_step, core_of. cbn [c_pool c_min c_vault]. rewrite Hpo, Hr.
    cbn [rbind]. rewrite Hd. cbn [rbind]. do 2 f_equal.
    + symmetry. apply pool_of_put.
    + symmetry. eapply mins_put_pool. eassumption.
    + apply eq_sym, balance_acc. unfold put_pool. apply acc_put_data_ne. congruence.
  - apply close_inv in H as (k & owner & target & auth & pool & w0 & m & m1 & A & Hko & Hto & Hpow & _ & _ & Hpd & _ & Hkne & Hkd & _ & Hr & Hs & Hu & _ & ->).
    assert (P = pool) by (eapply at_fun; [eassumption|at_]). subst pool.
    assert (w0 = w) by (destruct Hw; congruence). subst w0.
    pose proof (token_ne _ _ _ _ HV Hko) as HVk. pose proof (token_ne _ _ _ _ HV Hpow) as HVP.
    assert (HVt : V <> target) by (intros ->; destruct HV; congruence).
    assert (HPt : P <> target) by (intros ->; congruence).
    assert (Ep : pool_of (<[k:=Account 0 (owner_of L k) (DMining zero_wmining)]> (put_lamports L target (a_lamports (acc L target) + a_lamports (acc L k)))) P = pool_of L P).
    { apply pool_of_acc. rewrite acc_insert_ne by congruence. unfold put_lamports. apply acc_insert_ne. congruence. }
    assert (Eb : balance (<[k:=Account 0 (owner_of L k) (DMining zero_wmining)]> (put_lamports L target (a_lamports (acc L target) + a_lamports (acc L k)))) V = balance L V).
    { apply balance_acc. rewrite acc_insert_ne by congruence. unfold put_lamports. apply acc_insert_ne. congruence. }
    assert (Em : minings_of e P (<[k:=Account 0 (owner_of L k) (DMining zero_wmining)]> (put_lamports L target (a_lamports (acc L target) + a_lamports (acc L k)))) = delete k (minings_of e P L)).
    { apply map_eq. intros x. rewrite min_look, acc_ins, acc_put_lam. destruct (Z.eqb_spec x k) as [->|].
      - rewrite lookup_delete. unfold live. cbn [a_data a_owner]. rewrite (proj2 (Z.eqb_neq (m_pool (wm zero_wmining)) P)) by (cbn; congruence).
        rewrite andb_false_r. reflexivity.
      - rewrite lookup_delete_ne by congruence. rewrite min_look. destruct (Z.eqb_spec x target) as [->|]; reflexivity. }
    destruct (Z.eq_dec (m_pool (wm m)) P) as [Hmp|Hmp].
    + left. eexists. split; [opq A|]. unfold core_of at 2. rewrite Ep, Eb, Em.
      unfold core_step, core_of. cbn [c_pool c_min c_vault].
      rewrite (get_min_view L k m) by (try split; congruence). cbn [rbind]. rewrite Hpo, Hr. cbn [rbind].
      rewrite (proj2 (Z.ltb_ge _ _)) by lia. cbn [negb ensure rbind]. rewrite (proj2 (Z.eqb_eq _ _) Hu). reflexivity.
    + right. right. split; [reflexivity|]. unfold core_of. rewrite Ep, Eb, Em. f_equal.
      apply delete_notin. rewrite min_look. destruct (live e P (acc L k)) eqn:El; [|reflexivity].
      apply live_some in El as [[_ Hd] Hp]. congruence.
  - apply change_inv in H as (pool & k & auth & owner & od & nd & w0 & m & w' & m' & od' & nd' & A & Hc & _ & Hdo & Hoo & Hno & Hnd & Hop & Hd & ->).
    assert (P = pool) by (eapply at_fun; [eassumption|at_]). subst pool.
    pose proof (delegate_ne_pool _ _ _ _ _ _ _ _ _ _ _ Hc Hdo) as Hdp.
    pose proof (delegate_live _ _ _ _ HM HB HA Hdo) as Hdl.
    assert (Hol : od = k \/ exists x, is_mining e L od x /\ m_pool (wm x) = P).
    { eapply (oi_change _ _ _ _ _ _ _ _ O); [reflexivity|at_|at_|at_]. }
    destruct Hc.
    assert (w0 = w) by (destruct Hw; congruence). subst w0.
    pose proof (change_grows _ _ _ _ _ _ _ _ _ _ Hd) as (_ & [(Hid & _) _] & G1 & G2).
    left. eexists. split; [opq A|].
    assert (HV' : is_token e (put_dlg (put_mining (put_pool L P w') k m') od od') V t).
    { pose proof HV as [HVo HVd]. split.
      - rewrite owner_put_dlg. unfold put_mining, put_pool. rewrite !owner_put. assumption.
      - unfold data_of. rewrite acc_put_dlg by (eapply token_ne; eassumption). unfold put_mining, put_pool.
        rewrite !acc_put_data_ne by (apply not_eq_sym; eapply token_ne; eassumption). assumption. }
    assert (Hn' : owner_of (put_dlg (put_mining (put_pool L P w') k m') od od') nd = program_id e).
    { rewrite owner_put_dlg. unfold put_mining, put_pool. rewrite !owner_put. assumption. }
    pose proof (stake_view L k od w w' m' od' V t ts Hw sc_mining_owner ltac:(congruence) Hoo sc_ne Hop ltac:(eapply dlg_after_of; eassumption) HV) as Hview.
    unfold core_of in Hview |- *. injection Hview as V1 V2 V3.
    unfold core_step. cbn [c_pool c_min c_vault]. rewrite Hpo.
    assert (Hbd : bool_decide (other od k = other nd k) = false).
    { apply bool_decide_eq_false. unfold other. destruct (Z.eqb_spec od k), (Z.eqb_spec nd k); congruence. }
    rewrite Hbd. cbn [negb ensure rbind].
    rewrite (get_min_view L k m) by (try split; congruence). cbn [rbind].
    rewrite !get_dlg_view by assumption. cbn [rbind]. rewrite Hd. cbn [rbind]. do 2 f_equal.
    + symmetry. rewrite (pool_of_acc (put_dlg (put_mining (put_pool L P w') k m') od od')); [assumption|].
      apply acc_put_dlg. congruence.
    + symmetry. rewrite (mins_put_dlg _ k); [rewrite V2; reflexivity|assumption|]. eapply dlg_after_of; eassumption.
    + symmetry. rewrite <- V3. apply balance_acc. apply acc_put_dlg. exact (token_ne _ _ _ _ HV' Hn').
  - apply slash_inv in H as (auth & pool & k & w0 & m & w' & m' & A & Hc & Hd & ->).
    assert (P = pool) by (eapply at_fun; [eassumption|at_]). subst pool. destruct Hc.
    assert (w0 = w) by (destruct Hw; congruence). subst w0.
    pose proof (slash_grows _ _ _ _ _ _ _ _ Hd) as (_ & [(Hid & _) _]).
    left. eexists. split; [opq A|].
    pose proof (stake_view L k k w w' m' None V t ts Hw sc_mining_owner ltac:(congruence) sc_mining_owner sc_ne sc_ne (or_introl (conj eq_refl eq_refl)) HV) as Hview.
    cbn [put_dlg] in Hview. rewrite Hview. unfold other. rewrite Z.eqb_refl. cbn [put_opt].
    unfold core_step, core_of. cbn [c_pool c_min c_vault]. rewrite Hpo.
    rewrite (get_min_view L k m) by (try split; congruence). cbn [rbind]. rewrite Hd. reflexivity.
  - apply decrease_inv in H as (auth & pool & k & w0 & m & m' & A & Hc & Hd & ->).
    assert (P = pool) by (eapply at_fun; [eassumption|at_]). subst pool. destruct Hc.
    assert (w0 = w) by (destruct Hw; congruence). subst w0.
    pose proof (decrease_grows _ _ _ Hd) as [(Hid & _) _].
    left. eexists. split; [opq A|].
    unfold core_step, core_of. cbn [c_pool c_min c_vault]. rewrite Hpo.
    rewrite (get_min_view L k m) by (try split; congruence). cbn [rbind]. rewrite Hd. cbn [rbind]. do 2 f_equal.
    + rewrite (pool_of_acc L); [congruence|]. unfold put_mining. apply acc_put_data_ne. congruence.
    + symmetry. apply mins_put_mining; congruence.
    + apply eq_sym, balance_acc. unfold put_mining. apply acc_put_data_ne. apply not_eq_sym. eapply token_ne; eassumption.
Qed.

(** ** Histories *)
Context (HDonate : forall ts n c, D ts (ODonate n) c)
        (HDinit : forall ts k p o b c, D ts (OInit k p o b) c).

Lemma reachable_step c ts o c' :
  reachable D c -> c_now c <= ts -> is_u64 ts -> op_wf o -> D ts o c -> core_step ts o c = Ok c' -> reachable D c'.
Proof.
  intros (w & v & t0 & Hw & Hv & Ht & H) ? ? ? ? ?. exists w, v, t0. repeat (split; [assumption|]).
  econstructor; eassumption.
Qed.

Lemma reachable_donate c ts n :
  reachable D c -> c_now c <= ts -> is_u64 ts -> is_u64 n -> c_vault c + n < U64 ->
  reachable D (Core (c_pool c) (c_min c) (c_vault c + n) ts).
Proof.
  intros H Hn Hts Hu Hv. eapply (reachable_step c ts (ODonate n)); try assumption; [apply HDonate|].
  unfold core_step, vault_add. rewrite (proj2 (Z.ltb_lt _ _)) by assumption. reflexivity.
Qed.

Lemma op_of_wf ms i o : ix_in_range i -> op_of e P ms i = Some o -> op_wf o.
Proof.
  unfold op_of. intros Hr Ho.
  destruct i; cbn [ix_in_range] in Hr;
    repeat match type of Ho with
    | match ?l with [] => _ | _ :: _ => _ end = _ => destruct l; try discriminate
    | (if ?b then _ else _) = _ => destruct b; [|discriminate]
    end; try discriminate; injection Ho as <-; cbn; tauto.
Qed.

(** the account becomes a pool *)
Lemma fresh_minings w v ts (M : gmap Z wmining) :
  fresh_pool w -> 0 <= v < U64 -> is_u64 ts ->
  (forall k m, M !! k = Some m -> exists o b, m = WMining (mining_initialize P o b) []) ->
  reachable D (Core w M v ts).
Proof.
  intros Hw Hv Hts. induction M as [|k m M Hk IH] using map_ind; intros H.
  - exists w, v, ts. repeat (split; [assumption || apply Hts|]). constructor.
  - destruct (H k m) as (o & b & ->); [apply lookup_insert|].
    apply (reachable_step (Core w M v ts) ts (OInit k P o b)); [|cbn; lia|assumption|exact I|apply HDinit|].
    + apply IH. intros k' m' Hm'. apply (H k' m'). rewrite lookup_insert_ne; [assumption|congruence].
    + unfold core_step. cbn [c_min c_pool c_vault]. unfold pubkey in *. rewrite Hk. reflexivity.
Qed.

(** no pool at [P] yet *)
Record before (L : ledger) : Prop := {
  bf_pool : forall w, is_pool e L P w -> w = zero_wpool;
  bf_min : forall k m, is_mining e L k m -> m_pool (wm m) = P ->
    exists o b, m = WMining (mining_initialize P o b) [];
  bf_vault : forall m b k, cpa_vault e P m b = Some k -> owner_of L k <> spl_token_id e }.

Lemma idle now ts ms i L L' r :
  before L -> orderly_ix e P D now ts ms i L -> exec e ts ms i L = Ok (L', r) ->
  account_at ms (pool_position i) P ->
  (exists f d, i = InitializePool f d) \/ (exists o, i = InitializeMining o).
Proof.
  intros B O X Hp. destruct (role_of i) as [ro|] eqn:Er.
  - exfalso. destruct (authority_signed e ts ms i L L' r ro X Er) as (k & w & Hk & Hw & Hs).
    assert (k = P) by (eapply at_fun; eassumption). subst k.
    rewrite (bf_pool _ B _ Hw) in Hs. apply (oi_zero _ _ _ _ _ _ _ _ O).
    destruct ro; exact Hs.
  - destruct i; try discriminate; eauto.
Qed.

Lemma init_mining_frame ts ms o L L' r k :
  exec e ts ms (InitializeMining o) L = Ok (L', r) -> owner_of L k <> system_id -> acc L' k = acc L k.
Proof.
  intros X Hk. destruct (decide (acc L' k = acc L k)) as [|Hc]; [assumption|exfalso].
  apply exec_inv in X as [H _]. cbn [process] in H. apply no_ret_ok in H as [H _].
  apply init_mining_inv in H as (pool & mining & payer & bump & L1 & A & _ & _ & _ & _ & Hcr & ->).
  apply create_account_inv in Hcr as (_ & _ & _ & _ & Hv & _ & Hf & _ & _ & _ & ->).
  chase Hc k; congruence.
Qed.

Lemma before_exec now ts ms i L L' r :
  now <= ts -> ledger_ok e now L -> minings_ok L -> addresses_ok e L ->
  before L -> orderly_ix e P D now ts ms i L -> exec e ts ms i L = Ok (L', r) ->
  ((exists f d, i = InitializePool f d) /\ account_at ms 0 P) \/ before L'.
Proof.
  intros Hts HL HM HA B O X. destruct (pool_named _ _ _ _ _ _ X) as [P' HP'].
  destruct (Z.eq_dec P' P) as [->|Hne].
  - destruct (idle _ _ _ _ _ _ _ B O X HP') as [(f & d & ->)|(o & ->)]; [left; eauto|right].
    cbn [pool_position] in HP'.
    pose proof (eo_sys _ Henv) as E1. pose proof (eo_toksys _ Henv) as E3.
    destruct (mining_created e Henv _ _ _ _ _ _ X) as (pool & k & bump & Ha & Hk & _ & _ & _ & _ & Hko & [Hmo Hmd] & _).
    assert (P = pool) by (eapply at_fun; eassumption). subst pool.
    pose proof X as X'. apply exec_inv in X' as [X' _].
    constructor.
    + intros w [Ho Hd].
      pose proof (process_change e now ts ms _ L L' r Henv Hts HL X' P) as C. unfold owner_of, data_of in *.
      destruct C as [E|? ? A B0 E G|? ? ? ? ? ? ? Hi _ _ A B0 ? ? E|m0 m1 A B0 E G|? ? ? _ _ A ? ? F E|? P0 Q A B0 E|? A E|? ? A B0 E|? ? ? ? A ? ? F E];
        try (rewrite E in Ho, Hd; cbn in Ho, Hd; congruence).
      * apply (bf_pool _ B). split; [|unfold data_of]; unfold owner_of; congruence.
      * rewrite (init_mining_frame _ _ _ _ _ _ P X) in Ho, Hd by (unfold owner_of; congruence).
        apply (bf_pool _ B). split; assumption.
    + intros x m [Ho Hd] Hmp. destruct (Z.eq_dec x k) as [->|Hxk].
      * unfold owner_of, data_of in *. rewrite Hmd in Hd. injection Hd as <-. exists o, bump. reflexivity.
      * pose proof (process_change e now ts ms _ L L' r Henv Hts HL X' x) as C. unfold owner_of, data_of in *.
        destruct C as [E|? ? A B0 E G|? ? ? ? ? ? ? Hi _ _ A B0 ? ? E|m0 m1 A B0 E G|pp ? ? Hi Hpp A ? ? F E|? ? Q A B0 E|? A E|? ? A B0 E|? ? ? ? A ? ? F E];
        try (rewrite E in Ho, Hd; cbn in Ho, Hd; congruence).
        -- apply (bf_min _ B x); [split; [|unfold data_of]; unfold owner_of; congruence|assumption].
        -- rewrite (init_mining_frame _ _ _ _ _ _ x X) in Ho, Hd by (unfold owner_of; congruence).
           apply (bf_min _ B x); [split; assumption|assumption].
        -- rewrite E in Hd. cbn in Hd. injection Hd as <-. cbn in Hmp. subst pp. eauto.
    + intros m b x Hc Ho. destruct (Z.eq_dec (owner_of L x) (spl_token_id e)) as [E|E]; [exact (bf_vault _ B _ _ _ Hc E)|].
      destruct (exec_vaults now ts ms _ L L' r P m b x Hts HL X Hc Ho E) as ((? & ? & ?) & _). discriminate.
  - right. constructor.
    + intros w [Ho Hd]. pose proof X as X'. apply exec_inv in X' as [X' _].
      pose proof (eo_sys _ Henv) as E1. pose proof (eo_toksys _ Henv) as E3. pose proof (eo_tok _ Henv) as E2.
      pose proof (process_change e now ts ms _ L L' r Henv Hts HL X' P) as C. unfold owner_of, data_of in *.
      destruct C as [E|w0 ? A B0 E G|w0 ? ? ? ? ? ? Hi _ _ A B0 ? ? E|m0 m1 A B0 E G|? ? ? _ _ A ? ? F E|? P0 Q A B0 E|? A E|? ? A B0 E|? ? ? ? A ? ? F E];
        try (rewrite E in Ho, Hd; cbn in Ho, Hd; congruence).
      * apply (bf_pool _ B). split; [|unfold data_of]; unfold owner_of; congruence.
      * rewrite (other_pool now ts ms i L L' r P' w0) in Ho, Hd by (try assumption; split; assumption).
        apply (bf_pool _ B). split; assumption.
      * rewrite (other_pool now ts ms i L L' r P' w0) in Ho, Hd by (try assumption; split; assumption).
        apply (bf_pool _ B). split; assumption.
    + intros x m Hm Hmp. pose proof (other_minings_of now ts ms i L L' r P' Hts HL HM HA O X HP' Hne) as E.
      apply (f_equal (fun M : gmap Z wmining => M !! x)) in E. rewrite !min_look in E.
      rewrite (proj2 (live_some e P L' x m)) in E by auto. symmetry in E. apply live_some in E as [E _].
      exact (bf_min _ B x m E Hmp).
    + intros m b x Hc Ho. destruct (Z.eq_dec (owner_of L x) (spl_token_id e)) as [E|E]; [exact (bf_vault _ B _ _ _ Hc E)|].
      destruct (exec_vaults now ts ms _ L L' r P m b x Hts HL X Hc Ho E) as ((f & d & ->) & Ha & _).
      apply Hne. eapply at_fun; eassumption.
Qed.

Lemma before_init now ts ms f d L L' r :
  now <= ts -> ledger_ok e now L -> is_u64 ts ->
  before L -> orderly_ix e P D now ts ms (InitializePool f d) L -> exec e ts ms (InitializePool f d) L = Ok (L', r) ->
  account_at ms 0 P -> exists w V t, after ts L' w V t /\ fresh_pool w /\ balance L' V = 0 /\
    forall k m, minings_of e P L' !! k = Some m -> exists o b, m = WMining (mining_initialize P o b) [].
Proof.
  intros Hts HL Hu B O X Hp. pose proof X as X'. apply exec_inv in X' as [H _]. cbn [process] in H. apply no_ret_ok in H as [H _].
  pose proof (eo_sys _ Henv) as E1. pose proof (eo_toksys _ Henv) as E3. pose proof (eo_tok _ Henv) as E2.
  apply init_pool_inv in H as (pool & mint & vault & payer & auth & bump & w0 & L1 & L2 & A & Hpo & _ & _ & _ & _ & Hpd & _ & Hf & Hpp & _ & Hcr & Ha & E).
  assert (P = pool) by (eapply at_fun; [eassumption|at_]). subst pool.
  apply create_account_inv in Hcr as (_ & _ & _ & _ & Hvo & _ & Hfo & _ & Hfv & _ & ->).
  apply initialize_account_inv in Ha as (_ & _ & _ & ->).
  assert (HvP : vault <> P) by (intros ->; congruence).
  set (w := WPool (pool_initialize bump auth d f mint) [] []) in *.
  assert (AP : acc L' P = Account (a_lamports (acc L P)) (program_id e) (DPool w)).
  { subst L'. unfold put_pool. rewrite !acc_put, !acc_ins, !acc_put_lam, Z.eqb_refl.
    destruct (Z.eqb_spec P vault); [congruence|]. destruct (Z.eqb_spec P payer); [congruence|].
    unfold owner_of in Hpo. rewrite Hpo. reflexivity. }
  assert (AV : acc L' vault = Account (rent_min e TOKEN_LEN) (spl_token_id e) (DToken (Token mint auth 0))).
  { subst L'. unfold put_pool. rewrite acc_put. destruct (Z.eqb_spec vault P); [congruence|].
    rewrite acc_put, Z.eqb_refl, acc_ins, Z.eqb_refl. reflexivity. }
  assert (Hm : minings_of e P L' = minings_of e P L).
  { apply mins_ext. intros x. subst L'. unfold put_pool. rewrite !acc_put, !acc_ins, !acc_put_lam, Z.eqb_refl.
    destruct (Z.eqb_spec x P) as [->|].
    - unfold live. unfold data_of in Hpd. rewrite Hpd. reflexivity.
    - destruct (Z.eqb_spec x vault) as [->|].
      + unfold live, owner_of in *. cbn. rewrite Hvo. rewrite (proj2 (Z.eqb_neq system_id (program_id e))) by congruence.
        destruct (a_data (acc L vault)); reflexivity.
      + destruct (Z.eqb_spec x payer) as [->|]; reflexivity. }
  exists w, vault, (Token mint auth 0).
  assert (Hbal : balance L' vault = 0) by (unfold balance, data_of; rewrite AV; reflexivity).
  assert (Hfresh : forall k m, minings_of e P L' !! k = Some m -> exists o b, m = WMining (mining_initialize P o b) []).
  { intros k m Hk. rewrite Hm, min_look in Hk. apply live_some in Hk as [Hk Hkp]. exact (bf_min _ B k m Hk Hkp). }
  split; [|split; [do 5 eexists; reflexivity|split; assumption]].
  constructor; try reflexivity.
  - split; [split; unfold owner_of, data_of; rewrite AP; reflexivity|]. split; [reflexivity|].
    apply (eo_vault _ Henv) in Hf. apply Hf.
  - unfold lamports_of. rewrite AP. cbn. apply (oi_init _ _ _ _ _ _ _ _ O f d); [reflexivity|assumption].
  - intros m b k Hc Ho.
    destruct (exec_vaults now ts ms _ L L' r P m b k Hts HL X Hc Ho (bf_vault _ B _ _ _ Hc)) as (_ & _ & Hf').
    destruct (Z.eq_dec k vault) as [|Hk]; [assumption|exfalso].
    assert (Hok : owner_of L k = spl_token_id e).
    { rewrite <- Ho. unfold owner_of. subst L'. unfold put_pool. rewrite !acc_put, !acc_ins, !acc_put_lam, !Z.eqb_refl.
      destruct (Z.eqb_spec k P) as [->|].
      - destruct (Z.eqb_spec P vault); [congruence|]. destruct (Z.eqb_spec P payer); [congruence|]. reflexivity.
      - destruct (Z.eqb_spec k vault); [congruence|]. destruct (Z.eqb_spec k payer) as [->|]; reflexivity. }
    exact (bf_vault _ B _ _ _ Hc Hok).
  - split; unfold owner_of, data_of; rewrite AV; reflexivity.
  - unfold core_of. rewrite Hbal.
    assert (Hpw : pool_of L' P = w) by (unfold pool_of, data_of; rewrite AP; reflexivity).
    rewrite Hpw. apply fresh_minings; [do 5 eexists; reflexivity|split; [lia|reflexivity]|assumption|assumption].
Qed.

Lemma token_balance L V t : is_token e L V t -> balance L V = t_amount t.
Proof. intros [_ H]. unfold balance. rewrite H. reflexivity. Qed.
Lemma token_u64 now L V t : ledger_ok e now L -> is_token e L V t -> is_u64 (t_amount t).
Proof. intros HL [_ H]. pose proof (HL V) as [[_ Hu] _]. unfold data_of in H. rewrite H in Hu. exact Hu. Qed.

Lemma raised now ts L L' V t t' :
  now <= ts -> is_u64 ts -> ledger_ok e now L -> ledger_ok e ts L' ->
  is_token e L V t -> is_token e L' V t' -> t_amount t <= t_amount t' ->
  pool_of L' P = pool_of L P -> minings_of e P L' = minings_of e P L ->
  reachable D (core_of e P V now L) -> reachable D (core_of e P V ts L').
Proof.
  intros Hts Hu HL HL' HV HV' Hle Ep Em H.
  pose proof (token_u64 _ _ _ _ HL HV) as U1. pose proof (token_u64 _ _ _ _ HL' HV') as U2.
  unfold core_of at 1. rewrite Ep, Em, (token_balance _ _ _ HV').
  replace (t_amount t') with (c_vault (core_of e P V now L) + (t_amount t' - t_amount t))
    by (cbn; rewrite (token_balance _ _ _ HV); lia).
  unfold is_u64 in *.
  apply (reachable_donate (core_of e P V now L)); try assumption; unfold is_u64; [lia|].
  cbn [core_of c_vault]. rewrite (token_balance _ _ _ HV). lia.
Qed.

Lemma after_exec now ts ms i L L' r w V t :
  0 <= now -> now <= ts -> is_u64 ts -> ix_in_range i ->
  ledger_ok e now L -> ledger_ok e ts L' -> minings_ok L -> bumps_ok L -> addresses_ok e L ->
  after now L w V t -> orderly_ix e P D now ts ms i L -> exec e ts ms i L = Ok (L', r) ->
  exists w' t', after ts L' w' V t'.
Proof.
  intros Hn Hts Hu Hr HL HL' HM HB HA [(Hw & Hty & HV) Hlam Honly Htok Hmint Howner Hcore] O X.
  destruct (exec_pool e Henv now ts ms i L L' r P w Hts HL X Hw Hty) as (w' & Hw' & Hg & Hl').
  destruct (exec_token now ts ms i L L' r V t Hts HL X Htok) as (t' & Htok' & Hmint' & Howner').
  exists w', t'. destruct Hg as [(C1 & C2 & C3 & C4 & C5 & C6) Hg].
  assert (Hc : reachable D (core_of e P V ts L')).
  { destruct (pool_named _ _ _ _ _ _ X) as [P' HP'].
    destruct (Z.eq_dec P' P) as [->|Hne].
    - destruct (own_step now ts ms i L L' r w V t Hts HL HM HB HA O X HP' Hw Hty Htok Honly)
        as [(o & Ho & Hs)|[(o & c & n & Ho & Hs & Hcn & Hnn & Hd & _)|[_ Hc]]].
      + apply (reachable_step _ ts o _ Hcore); try assumption; [eapply op_of_wf; eassumption|].
        apply (oi_event _ _ _ _ _ _ _ _ O V w); [|assumption]. split; [assumption|]. split; assumption.
      + assert (Hc : reachable D c).
        { apply (reachable_step _ ts o _ Hcore); try assumption; [eapply op_of_wf; eassumption|].
          apply (oi_event _ _ _ _ _ _ _ _ O V w); [|assumption]. split; [assumption|]. split; assumption. }
        apply (reachable_step _ ts (ODonate n) _ Hc); try assumption; [lia| |apply HDonate].
        pose proof (token_u64 _ _ _ _ HL Htok) as U1. rewrite (token_balance _ _ _ Htok) in Hnn.
        cbn. unfold is_u64 in *. lia.
      + rewrite Hc. pose proof (token_u64 _ _ _ _ HL Htok) as U1. unfold is_u64 in U1.
        pose proof (reachable_donate (core_of e P V now L) ts 0 Hcore Hts Hu) as Hd. cbn [core_of c_pool c_min c_vault] in Hd.
        rewrite Z.add_0_r in Hd. apply Hd; [split; [lia|reflexivity]|]. rewrite (token_balance _ _ _ Htok). lia.
    - eapply raised; try eassumption.
      + rewrite <- (token_balance _ _ _ Htok), <- (token_balance _ _ _ Htok').
        exact (other_vault now ts ms i L L' r P' _ _ V t Hts HL O X HP' Hne HV Htok).
      + apply pool_of_acc. exact (other_pool now ts ms i L L' r P' w Hts X HP' Hne Hw).
      + exact (other_minings_of now ts ms i L L' r P' Hts HL HM HA O X HP' Hne). }
  constructor; try assumption.
  - split; [assumption|]. split; [congruence|]. congruence.
  - unfold lamports_of in *. lia.
  - intros m b k Hk Ho. destruct (Z.eq_dec (owner_of L k) (spl_token_id e)) as [E|E]; [exact (Honly _ _ _ Hk E)|exfalso].
    destruct (exec_vaults now ts ms _ L L' r P m b k Hts HL X Hk Ho E) as ((f & d & ->) & Ha & _).
    destruct (reinit_rejected e ts ms f d L P w Ha Hw Hty) as [er Her]. congruence.
  - congruence.
  - congruence.
Qed.

Lemma ext_minings_of L L' :
  external e L L' -> minings_ok L -> minings_of e P L' = minings_of e P L.
Proof.
  intros X HM. apply mins_ext. intros k. destruct (X k) as (_ & H1 & H2).
  destruct (live e P (acc L k)) as [m|] eqn:El.
  - apply live_some in El as [[Ho Hd] Hmp]. destruct (typed L k m HM (conj Ho Hd) Hmp) as [_ Hl].
    destruct (H1 Ho) as [(A & B & _)|[A _]]; [|unfold lamports_of in Hl; lia].
    apply live_some. split; [|assumption]. unfold is_mining, owner_of, data_of in *. split; congruence.
  - destruct (live e P (acc L' k)) as [m|] eqn:El'; [exfalso|reflexivity].
    apply live_some in El' as [[Ho Hd] Hmp]. unfold owner_of, data_of in *.
    destruct (Z.eq_dec (a_owner (acc L k)) (program_id e)) as [Eo|Eo].
    + destruct (H1 Eo) as [(A & B & _)|[_ A]]; [|rewrite A in Hd; discriminate].
      assert (live e P (acc L k) = Some m); [|congruence].
      apply live_some. split; [|assumption]. unfold is_mining, owner_of, data_of in *. split; congruence.
    + specialize (H2 Eo Ho). rewrite Hd in H2. apply all_zero_mining in H2. subst m. cbn in Hmp. congruence.
Qed.

Lemma after_ext now ts L L' w V t :
  0 <= now -> now <= ts -> is_u64 ts -> ledger_ok e now L -> ledger_ok e ts L' -> minings_ok L ->
  after now L w V t -> external e L L' -> orderly_ext e P L L' -> exists t', after ts L' w V t'.
Proof.
  intros Hn Hts Hu HL HL' HM [(Hw & Hty & HV) Hlam Honly Htok Hmint Howner Hcore] X O.
  destruct (ext_pool e L L' P w X Hw Hlam) as [Hw' Hlam'].
  destruct (oe_vault _ _ _ _ O _ _ _ _ HV Htok) as (t' & Htok' & Hm & Ho & Hle).
  exists t'. constructor; try congruence; try assumption.
  - split; [assumption|]. split; assumption.
  - lia.
  - intros m b k Hk Hko. apply (Honly m b); [assumption|].
    destruct (oe_derived _ _ _ _ O k) as [E|E]; [right; eauto|congruence|].
    pose proof (eo_toksys _ Henv). congruence.
  - eapply raised; try eassumption; [|apply ext_minings_of; assumption].
    rewrite (pool_of_is _ _ Hw), (pool_of_is _ _ Hw'). reflexivity.
Qed.

Lemma before_ext L L' :
  before L -> minings_ok L -> external e L L' -> orderly_ext e P L L' -> before L'.
Proof.
  intros B HM X O. constructor.
  - intros w [Ho Hd]. destruct (X P) as (_ & H1 & H2). unfold owner_of, data_of in *.
    destruct (Z.eq_dec (a_owner (acc L P)) (program_id e)) as [Eo|Eo].
    + destruct (H1 Eo) as [(A & B0 & _)|[_ A]]; [|rewrite A in Hd; discriminate].
      apply (bf_pool _ B). split; unfold owner_of, data_of; congruence.
    + specialize (H2 Eo Ho). rewrite Hd in H2. apply all_zero_pool in H2. assumption.
  - intros x m Hm Hmp. pose proof (ext_minings_of L L' X HM) as E.
    apply (f_equal (fun M : gmap Z wmining => M !! x)) in E. rewrite !min_look in E.
    rewrite (proj2 (live_some e P L' x m)) in E by auto. symmetry in E. apply live_some in E as [E _].
    exact (bf_min _ B x m E Hmp).
  - intros m b k Hk Ho. destruct (oe_derived _ _ _ _ O k) as [E|E]; [right; eauto| |].
    + apply (bf_vault _ B m b k Hk). congruence.
    + pose proof (eo_toksys _ Henv). congruence.
Qed.

Lemma ext_bumps L L' : orderly_ext e P L L' -> bumps_ok L -> bumps_ok L'.
Proof.
  intros O H o p b k Hc Ho. destruct (oe_derived _ _ _ _ O k) as [E|E]; [left; eauto| |].
  - apply (H o p b k Hc). congruence.
  - pose proof (eo_sys _ Henv). congruence.
Qed.

Definition good (now : Z) (L : ledger) : Prop :=
  0 <= now /\ ledger_ok e now L /\ minings_ok L /\ bumps_ok L /\ addresses_ok e L /\
  (before L \/ exists w V t, after now L w V t).

Lemma run_good now L now' L' : orderly_run e P D now L now' L' -> good now L -> good now' L'.
Proof.
  induction 1 as [|now L ts ms i L1 r now' L' Hts Hu Hr X O R IH|now L ts L1 now' L' Hts Hu X O R IH];
    intros (Hn & HL & HM & HB & HA & HS); [repeat (split; [assumption|]); assumption| |]; apply IH.
  - assert (S : step e now L (EvIx ts ms i) L1) by (econstructor; eassumption).
    pose proof (step_ok e Henv _ _ _ _ Hn S HL) as HL1. cbn in HL1.
    split; [lia|]. split; [assumption|]. split; [exact (exec_minings _ _ _ _ _ _ _ Hts HL HM X)|].
    split; [exact (exec_bumps _ _ _ _ _ _ _ Hts HL HB X)|]. split; [exact (step_addresses e Henv _ _ _ _ Hn S HL HA)|].
    destruct HS as [HS|(w & V & t & HS)].
    + destruct (before_exec _ _ _ _ _ _ _ Hts HL HM HA HS O X) as [[(f & d & ->) Hp]|HS']; [right|left; assumption].
      destruct (before_init _ _ _ _ _ _ _ _ Hts HL Hu HS O X Hp) as (w & V & t & HS' & _). eauto.
    + right. destruct (after_exec _ _ _ _ _ _ _ _ _ _ Hn Hts Hu Hr HL HL1 HM HB HA HS O X) as (w' & t' & HS'). eauto.
  - assert (S : step e now L (EvExt ts) L1) by (econstructor; eassumption).
    pose proof (step_ok e Henv _ _ _ _ Hn S HL) as HL1. cbn in HL1.
    split; [lia|]. split; [assumption|]. split; [eapply ext_minings; eassumption|].
    split; [eapply ext_bumps; eassumption|]. split; [exact (step_addresses e Henv _ _ _ _ Hn S HL HA)|].
    destruct HS as [HS|(w & V & t & HS)].
    + left. eapply before_ext; eassumption.
    + right. destruct (after_ext _ _ _ _ _ _ _ Hn Hts Hu HL HL1 HM HS X O) as (t' & HS'). eauto.
Qed.

Lemma genesis_zero L k m : genesis e L -> is_mining e L k m -> m = zero_wmining.
Proof.
  intros G [Ho Hm]. destruct (G k) as [_ Hz]. specialize (Hz Ho). unfold data_of in Hm. rewrite Hm in Hz.
  apply all_zero_mining. assumption.
Qed.
Lemma genesis_before L : genesis e L -> (forall k, derived e k -> owner_of L k = system_id) -> before L.
Proof.
  intros G Hd. pose proof (eo_toksys _ Henv). constructor.
  - intros w [Ho Hw]. destruct (G P) as [_ Hz']. specialize (Hz' Ho). unfold data_of in Hw. rewrite Hw in Hz'.
    apply all_zero_pool. assumption.
  - intros k m Hm Hp. rewrite (genesis_zero L k m G Hm) in Hp. cbn in Hp. congruence.
  - intros m b k Hc Ho. rewrite Hd in Ho by (right; eauto). congruence.
Qed.
Lemma genesis_good L : genesis e L -> (forall k, derived e k -> owner_of L k = system_id) -> good 0 L.
Proof.
  intros G Hd. pose proof (eo_sys _ Henv).
  split; [lia|]. split; [apply genesis_ok; [lia|assumption]|].
  split. { intros k m Hm. right. rewrite (genesis_zero L k m G Hm). split; reflexivity. }
  split. { intros o p b k Hc Ho. rewrite Hd in Ho by (left; eauto). congruence. }
  split; [apply genesis_addresses; assumption|]. left. apply genesis_before; assumption.
Qed.

Lemma orderly_good now L : orderly e P D now L -> good now L.
Proof. intros (L0 & G & Hd & R). eapply run_good; [eassumption|]. apply genesis_good; assumption. Qed.

Lemma orderly_core now L w V :
  orderly e P D now L -> pool_vault e L P V w -> exists t, after now L w V t.
Proof.
  intros HO (Hw & Hty & HV). destruct (orderly_good _ _ HO) as (_ & _ & _ & _ & _ & [HB|(w' & V' & t & HA)]).
  - rewrite (bf_pool _ HB w Hw) in Hty. discriminate.
  - pose proof HA as [(Hw' & _ & HV') _ _ _ _ _ _].
    assert (w' = w) by (destruct Hw, Hw'; congruence). subst w'.
    assert (V' = V) by congruence. subst V'. eauto.
Qed.
End pool.
End env.
