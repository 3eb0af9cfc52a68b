(** What stays and what grows over histories of the whole ledger; where minings live. *)
From stdpp Require Import gmap.
From Verif Require Import Base OMap State Spec Ledger Program ResLemmas LedgerLemmas LedgerSpec
  FrameLemmas CodecLemmas WfLemmas History HistoryLemmas Changes AccessLemmas.

Definition lamports_of (L : ledger) (k : pubkey) : Z := a_lamports (acc L k).

Section env.
Context (e : env) (Henv : env_ok e).

(** ** Pools persist *)
Lemma exec_pool now ts ms i L L' r k w :
  now <= ts -> ledger_ok e now L -> exec e ts ms i L = Ok (L', r) ->
  is_pool e L k w -> p_type (wp w) = TYPE_POOL ->
  exists w', is_pool e L' k w' /\ pool_grows ts w w' /\ lamports_of L' k = lamports_of L k.
Proof.
  intros Hts HL H [Ho Hd] Ht. apply exec_inv in H as [H _].
  pose proof (process_change e now ts ms i L L' r Henv Hts HL H k) as C.
  unfold is_pool, owner_of, data_of, lamports_of in *.
  pose proof (eo_sys _ Henv). pose proof (eo_tok _ Henv). pose proof (eo_toksys _ Henv).
  destruct C as [E|w0 w' A B -> G|w0 ? ? ? ? ? ? _ _ _ A B ?|m m' A B -> G|? ? ? _ _ A|? _ _ A B|? A|? ? A B|? ? ? ? A];
    try congruence.
  - rewrite E. exists w. split; [auto|]. split; [apply pool_grows_refl|reflexivity].
  - rewrite B in Hd. injection Hd as ->. exists w'. cbn. auto.
Qed.

Lemma ext_pool L L' k w :
  external e L L' -> is_pool e L k w -> 0 < lamports_of L k ->
  is_pool e L' k w /\ lamports_of L k <= lamports_of L' k.
Proof.
  intros H [Ho Hd] Hl. unfold is_pool, owner_of, data_of, lamports_of in *.
  destruct (H k) as (_ & H1 & _). destruct (H1 Ho) as [(A & B & C)|[A _]]; [|lia].
  rewrite A, B. auto.
Qed.

Lemma pool_persists now L evs now' L' k w :
  run e now L evs now' L' -> 0 <= now -> ledger_ok e now L ->
  is_pool e L k w -> p_type (wp w) = TYPE_POOL -> 0 < lamports_of L k ->
  exists w', is_pool e L' k w' /\ pool_grows now w w' /\ lamports_of L k <= lamports_of L' k.
Proof.
  intros R. revert w. induction R as [|now L ev L1 evs now' L' S R IH]; intros w Hn HL Hw Ht Hl.
  - exists w. split; [assumption|]. split; [apply pool_grows_refl|lia].
  - assert (HL1 : ledger_ok e (time_of ev) L1) by (eapply step_ok; eassumption).
    assert (Hn1 : 0 <= time_of ev) by (pose proof (step_time e _ _ _ _ S); lia).
    assert (H1 : exists w1, is_pool e L1 k w1 /\ pool_grows now w w1 /\ lamports_of L k <= lamports_of L1 k).
    { destruct S as [ts ms i L1 r Hts _ _ X|ts L1 Hts _ X].
      - destruct (exec_pool _ _ _ _ _ _ _ _ _ Hts HL X Hw Ht) as (w1 & A & B & C). exists w1. rewrite C.
        split; [assumption|]. split; [exact (pool_grows_mono now ts _ _ Hts B)|lia].
      - destruct (ext_pool _ _ _ _ X Hw Hl). exists w. split; [assumption|]. split; [apply pool_grows_refl|assumption]. }
    destruct H1 as (w1 & A & B & C).
    destruct (IH w1 Hn1 HL1 A) as (w2 & A2 & B2 & C2); [destruct B as [(_ & _ & _ & _ & _ & ->) _]; assumption|lia|].
    exists w2. split; [assumption|]. split; [|lia].
    exact (pool_grows_trans now (time_of ev) _ _ _ (proj1 (step_time e _ _ _ _ S)) B B2).
Qed.

(** ** Minings persist *)
Lemma exec_mining now ts ms i L L' r k m :
  now <= ts -> ledger_ok e now L -> exec e ts ms i L = Ok (L', r) ->
  is_mining e L k m -> ~ (i = CloseMining /\ account_at ms 0 k) ->
  exists m', is_mining e L' k m' /\ mining_grows m m' /\ lamports_of L' k = lamports_of L k.
Proof.
  intros Hts HL H [Ho Hd] Hc. apply exec_inv in H as [H _].
  pose proof (process_change e now ts ms i L L' r Henv Hts HL H k) as C.
  unfold is_mining, owner_of, data_of, lamports_of in *.
  pose proof (eo_sys _ Henv). pose proof (eo_tok _ Henv). pose proof (eo_toksys _ Henv).
  destruct C as [E|w0 w' A B -> G|w0 ? ? ? ? ? ? _ _ _ A B ?|m0 m' A B -> G|? ? ? _ _ A|? P Q A B|? A|? ? A B|? ? ? ? A];
    try congruence.
  - rewrite E. exists m. split; [auto|]. split; [apply mining_grows_refl|reflexivity].
  - rewrite B in Hd. injection Hd as ->. exists m'. cbn. auto.
  - exfalso. apply Hc. auto.
Qed.

Lemma ext_mining L L' k m :
  external e L L' -> is_mining e L k m -> 0 < lamports_of L k ->
  is_mining e L' k m /\ lamports_of L k <= lamports_of L' k.
Proof.
  intros H [Ho Hd] Hl. unfold is_mining, owner_of, data_of, lamports_of in *.
  destruct (H k) as (_ & H1 & _). destruct (H1 Ho) as [(A & B & C)|[A _]]; [|lia].
  rewrite A, B. auto.
Qed.

(** an event that closes the mining at [k] *)
Definition closes (k : pubkey) (ev : event) : Prop :=
  match ev with EvIx _ ms CloseMining => account_at ms 0 k | _ => False end.

Lemma mining_persists now L evs now' L' k m :
  run e now L evs now' L' -> 0 <= now -> ledger_ok e now L ->
  (forall ev, In ev evs -> ~ closes k ev) ->
  is_mining e L k m -> 0 < lamports_of L k ->
  exists m', is_mining e L' k m' /\ mining_grows m m' /\ lamports_of L k <= lamports_of L' k.
Proof.
  intros R. revert m. induction R as [|now L ev L1 evs now' L' S R IH]; intros m Hn HL Hc Hw Hl.
  - exists m. split; [assumption|]. split; [apply mining_grows_refl|lia].
  - assert (HL1 : ledger_ok e (time_of ev) L1) by (eapply step_ok; eassumption).
    assert (Hn1 : 0 <= time_of ev) by (pose proof (step_time e _ _ _ _ S); lia).
    assert (H1 : exists w1, is_mining e L1 k w1 /\ mining_grows m w1 /\ lamports_of L k <= lamports_of L1 k).
    { pose proof (Hc ev (or_introl eq_refl)) as Hcv.
      destruct S as [ts ms i L1 r Hts _ _ X|ts L1 Hts _ X].
      - destruct (exec_mining _ _ _ _ _ _ _ _ _ Hts HL X Hw) as (w1 & A & B & C).
        { intros [-> Ha]. apply Hcv. exact Ha. }
        exists w1. rewrite C. split; [assumption|]. split; [assumption|lia].
      - destruct (ext_mining _ _ _ _ X Hw Hl). exists m. split; [assumption|]. split; [apply mining_grows_refl|assumption]. }
    destruct H1 as (w1 & A & B & C).
    destruct (IH w1 Hn1 HL1) as (w2 & A2 & B2 & C2); [intros; apply Hc; right; assumption|assumption|lia|].
    exists w2. split; [assumption|]. split; [eapply mining_grows_trans; eassumption|lia].
Qed.

(** ** Addresses *)

(** every initialised mining sits at the derived address of its owner and pool *)
Definition addresses_ok (L : ledger) : Prop :=
  forall k m, is_mining e L k m -> m_type (wm m) = TYPE_MINING ->
    cpa_mining e (m_owner (wm m)) (m_pool (wm m)) (m_bump (wm m)) = Some k.

Lemma genesis_addresses L : genesis e L -> addresses_ok L.
Proof.
  intros H k m [Ho Hd] Ht. destruct (H k) as [_ Hz]. unfold owner_of, data_of in *.
  specialize (Hz Ho). rewrite Hd in Hz. apply all_zero_mining in Hz. subst m. discriminate.
Qed.

Lemma step_addresses now L ev L' :
  0 <= now -> step e now L ev L' -> ledger_ok e now L -> addresses_ok L -> addresses_ok L'.
Proof.
  intros Hn S HL HA k m' [Ho Hd] Ht.
  pose proof (eo_sys _ Henv). pose proof (eo_tok _ Henv). pose proof (eo_toksys _ Henv).
  destruct S as [ts ms i L' r Hts _ _ X|ts L' Hts _ X].
  - apply exec_inv in X as [X _].
    pose proof (process_change e now ts ms i L L' r Henv Hts HL X k) as C.
    unfold owner_of, data_of in *.
    destruct C as [E|? ? A B E G|? ? ? ? ? ? ? _ _ _ A B ? ? E|m0 m1 A B E G|? ? ? _ _ A ? ? F E|? P Q A B E|? A E|? ? A B E|? ? ? ? A ? ? F E];
      rewrite E in Ho, Hd; cbn in Ho, Hd; try congruence.
    + apply HA; [split; assumption|assumption].
    + injection Hd as ->. destruct G as [(G1 & G2 & G3 & G4 & G5) _].
      rewrite G1, G2, G4. apply HA; [split; assumption|rewrite <- G5; exact Ht].
    + injection Hd as <-. cbn. apply (proj1 (eo_mining _ Henv _ _ _ _ F)).
    + injection Hd as <-. discriminate.
  - destruct (X k) as (_ & H1' & H2'). unfold owner_of, data_of in *.
    destruct (Z.eq_dec (a_owner (acc L k)) (program_id e)) as [Eo|Eo].
    + destruct (H1' Eo) as [(A & B & _)|[_ A]].
      * apply HA; [split; [exact Eo|unfold data_of; congruence]|assumption].
      * rewrite A in Hd. discriminate.
    + specialize (H2' Eo Ho). rewrite Hd in H2'. apply all_zero_mining in H2'. subst m'. discriminate.
Qed.

Lemma run_addresses now L evs now' L' :
  run e now L evs now' L' -> 0 <= now -> ledger_ok e now L -> addresses_ok L -> addresses_ok L'.
Proof.
  intros R. induction R as [|now L ev L1 evs now' L' S R IH]; intros Hn HL HA; [assumption|].
  pose proof (step_time e _ _ _ _ S).
  apply IH; [lia|eapply step_ok; eassumption|eapply step_addresses; eassumption].
Qed.

(** ** Isolation *)

(** the old delegate of a ChangeDelegate, or the mining of a CloseMining *)
Definition hole (ms : list meta) (i : ix) (k : pubkey) : Prop :=
  (exists a n, i = ChangeDelegate a n) /\ account_at ms 4 k \/ i = CloseMining /\ account_at ms 0 k.

Lemma delegate_pool (Hinj : env_inj e) L mining dm delegate pool m :
  addresses_ok L -> delegate_ok e L mining dm delegate pool -> dm <> mining ->
  is_mining e L dm m -> m_type (wm m) = TYPE_MINING -> m_pool (wm m) = pool.
Proof.
  intros HA [->|(_ & _ & Ho & m0 & Hd & Hp)] Hne [Ho' Hd'] Ht; [contradiction|].
  rewrite Hd in Hd'. injection Hd' as ->.
  destruct (ei_mining _ Hinj _ _ _ _ _ _ _ (HA dm m (conj Ho Hd) Ht) Hp) as (_ & ? & _). assumption.
Qed.

Lemma dlg_none L dm mining d' : dm = mining -> dlg_grows (dlg_of L dm mining) d' -> d' = None.
Proof.
  intros -> H. unfold dlg_of in H. rewrite Z.eqb_refl in H. destruct d'; [contradiction|reflexivity].
Qed.

Lemma isolation_pool ts ms i L L' r P k w :
  exec e ts ms i L = Ok (L', r) -> account_at ms (pool_position i) P ->
  is_pool e L k w -> k <> P -> acc L' k = acc L k.
Proof.
  intros H HP [Ho Hd] Hne. destruct (decide (acc L' k = acc L k)) as [|Hc]; [assumption|exfalso].
  apply exec_inv in H as [H _].
  pose proof (eo_sys _ Henv). pose proof (eo_tok _ Henv). pose proof (eo_toksys _ Henv).
  destruct i; cbn [process pool_position] in *; try (apply no_ret_ok in H as [H _]).
  - apply init_pool_inv in H as (pool & mint & vault & payer & auth & bump & w0 & L1 & L2 & A & _ & _ & _ & _ & _ & _ & _ & _ & _ & _ & Hcr & Ha & ->).
    apply create_account_inv in Hcr as (_ & _ & _ & _ & Hv & _ & Hf & _ & _ & _ & ->).
    apply initialize_account_inv in Ha as (_ & _ & _ & ->).
    assert (P = pool) by (eapply at_fun; [eassumption|at_]). subst P.
    chase Hc k; congruence.
  - apply fill_inv in H as (pool & mint & vault & auth & src & w0 & w' & A & _ & _ & Hv & Hs & _ & _ & _ & _ & _ & _ & _ & Ht).
    assert (P = pool) by (eapply at_fun; [eassumption|at_]). subst P.
    apply spl_transfer_inv in Ht as (s & d & _ & _ & _ & _ & _ & _ & _ & _ & [[-> ->]|(_ & _ & ->)]);
    chase Hc k; congruence.
  - apply init_mining_inv in H as (pool & mining & payer & bump & L1 & A & _ & _ & _ & _ & Hcr & ->).
    apply create_account_inv in Hcr as (_ & _ & _ & _ & Hv & _ & Hf & _ & _ & _ & ->).
    chase Hc k; congruence.
  - apply deposit_inv in H as (pool & mining & auth & dm & w0 & m & w' & m' & d' & A & [] & Hdo & _ & Hde & ->).
    assert (P = pool) by (eapply at_fun; [eassumption|at_]). subst P.
    apply deposit_grows in Hde as (_ & _ & G). apply dlg_of_cases in G as [[-> ->]|(_ & ? & ? & Hdm & -> & _)];
    chase Hc k; congruence.
  - apply withdraw_inv in H as (pool & mining & auth & dm & w0 & m & w' & m' & d' & A & [] & Hdo & _ & Hde & ->).
    assert (P = pool) by (eapply at_fun; [eassumption|at_]). subst P.
    apply withdraw_grows in Hde as (_ & _ & G). apply dlg_of_cases in G as [[-> ->]|(_ & ? & ? & Hdm & -> & _)];
    chase Hc k; congruence.
  - destruct (process_claim e ts ms L) as [[L1 x]|] eqn:E; [|discriminate]. injection H as <- <-.
    apply claim_inv in E as (pool & mint & vault & mining & owner & auth & dest & w0 & m & m1 & t & A & _ & _ & Hv & _ & Hde & _ & _ & _ & _ & _ & _ & Hm & _ & _ & _ & _ & _ & _ & Hcl).
    cbv zeta in Hcl. destruct Hcl as [[_ ->]|[_ Ht]].
    + chase Hc k; congruence.
    + apply spl_transfer_inv in Ht as (s & d & _ & _ & _ & _ & _ & _ & _ & _ & [[-> ->]|(_ & _ & ->)]);
      chase Hc k; congruence.
  - apply extend_inv in H as (pool & mining & auth & dm & w0 & m & w' & m' & d' & A & [] & Hdo & _ & Hde & ->).
    assert (P = pool) by (eapply at_fun; [eassumption|at_]). subst P.
    apply extend_grows in Hde as (_ & _ & G). apply dlg_of_cases in G as [[-> ->]|(_ & ? & ? & Hdm & -> & _)];
    chase Hc k; congruence.
  - apply distribute_inv in H as (pool & auth & w0 & r0 & w' & A & _ & _ & _ & _ & _ & _ & ->).
    assert (P = pool) by (eapply at_fun; [eassumption|at_]). subst P.
    chase Hc k; congruence.
  - apply close_inv in H as (mining & owner & target & auth & pool & w0 & m & m1 & A & _ & Ht & _ & _ & _ & _ & _ & _ & Hm & _ & _ & _ & _ & _ & ->).
    chase Hc k; congruence.
  - apply change_inv in H as (pool & mining & auth & owner & od & nd & w0 & m & w' & m' & od' & nd' & A & [] & _ & _ & _ & _ & _ & _ & Hch & ->).
    assert (P = pool) by (eapply at_fun; [eassumption|at_]). subst P.
    apply change_grows in Hch as (_ & _ & G1 & G2).
    apply dlg_of_cases in G1 as [[-> ->]|(_ & ? & ? & Hdm1 & -> & _)];
    apply dlg_of_cases in G2 as [[-> ->]|(_ & ? & ? & Hdm2 & -> & _)];
    chase Hc k; congruence.
  - apply slash_inv in H as (auth & pool & mining & w0 & m & w' & m' & A & [] & _ & ->).
    assert (P = pool) by (eapply at_fun; [eassumption|at_]). subst P.
    chase Hc k; congruence.
  - apply decrease_inv in H as (auth & pool & mining & w0 & m & m' & A & [] & _ & ->).
    chase Hc k; congruence.
Qed.

Lemma isolation_mining (Hinj : env_inj e) ts ms i L L' r P k m :
  addresses_ok L ->
  exec e ts ms i L = Ok (L', r) -> account_at ms (pool_position i) P ->
  is_mining e L k m -> m_type (wm m) = TYPE_MINING -> m_pool (wm m) <> P -> ~ hole ms i k ->
  acc L' k = acc L k.
Proof.
  intros HA H HP [Ho Hd] Hty Hne Hho. destruct (decide (acc L' k = acc L k)) as [|Hc]; [assumption|exfalso].
  apply exec_inv in H as [H _].
  pose proof (eo_sys _ Henv). pose proof (eo_tok _ Henv). pose proof (eo_toksys _ Henv).
  destruct i; cbn [process pool_position] in *; try (apply no_ret_ok in H as [H _]).
  - apply init_pool_inv in H as (pool & mint & vault & payer & auth & bump & w0 & L1 & L2 & A & _ & _ & _ & _ & _ & ? & _ & _ & _ & _ & Hcr & Ha & ->).
    apply create_account_inv in Hcr as (_ & _ & _ & _ & Hv & _ & Hf & _ & _ & _ & ->).
    apply initialize_account_inv in Ha as (_ & _ & _ & ->).
    chase Hc k; congruence.
  - apply fill_inv in H as (pool & mint & vault & auth & src & w0 & w' & A & _ & _ & Hv & Hs & _ & _ & ? & _ & _ & _ & _ & Ht).
    apply spl_transfer_inv in Ht as (s & d & _ & _ & _ & _ & _ & _ & _ & _ & [[-> ->]|(_ & _ & ->)]);
    chase Hc k; congruence.
  - apply init_mining_inv in H as (pool & mining & payer & bump & L1 & A & _ & _ & _ & _ & Hcr & ->).
    apply create_account_inv in Hcr as (_ & _ & _ & _ & Hv & _ & Hf & _ & _ & _ & ->).
    chase Hc k; congruence.
  - apply deposit_inv in H as (pool & mining & auth & dm & w0 & m0 & w' & m' & d' & A & [] & Hdo & _ & Hde & ->).
    assert (P = pool) by (eapply at_fun; [eassumption|at_]). subst P.
    apply deposit_grows in Hde as (_ & _ & G). apply dlg_of_cases in G as [[-> ->]|(Hnm & ? & ? & Hdm & -> & _)];
    chase Hc k; try congruence.
    apply Hne. eapply delegate_pool; eauto. split; assumption.
  - apply withdraw_inv in H as (pool & mining & auth & dm & w0 & m0 & w' & m' & d' & A & [] & Hdo & _ & Hde & ->).
    assert (P = pool) by (eapply at_fun; [eassumption|at_]). subst P.
    apply withdraw_grows in Hde as (_ & _ & G). apply dlg_of_cases in G as [[-> ->]|(Hnm & ? & ? & Hdm & -> & _)];
    chase Hc k; try congruence.
    apply Hne. eapply delegate_pool; eauto. split; assumption.
  - destruct (process_claim e ts ms L) as [[L1 x]|] eqn:E; [|discriminate]. injection H as <- <-.
    apply claim_inv in E as (pool & mint & vault & mining & owner & auth & dest & w0 & m0 & m1 & t & A & _ & _ & Hv & _ & Hde & _ & _ & _ & _ & _ & _ & Hm & _ & Hmp & _ & _ & _ & _ & Hcl).
    assert (P = pool) by (eapply at_fun; [eassumption|at_]). subst P.
    cbv zeta in Hcl. destruct Hcl as [[_ ->]|[_ Ht]].
    + chase Hc k; congruence.
    + apply spl_transfer_inv in Ht as (s & d & _ & _ & _ & _ & _ & _ & _ & _ & [[-> ->]|(_ & _ & ->)]);
      chase Hc k; congruence.
  - apply extend_inv in H as (pool & mining & auth & dm & w0 & m0 & w' & m' & d' & A & [] & Hdo & _ & Hde & ->).
    assert (P = pool) by (eapply at_fun; [eassumption|at_]). subst P.
    apply extend_grows in Hde as (_ & _ & G). apply dlg_of_cases in G as [[-> ->]|(Hnm & ? & ? & Hdm & -> & _)];
    chase Hc k; try congruence.
    apply Hne. eapply delegate_pool; eauto. split; assumption.
  - apply distribute_inv in H as (pool & auth & w0 & r0 & w' & A & _ & _ & ? & _ & _ & _ & ->).
    chase Hc k; congruence.
  - apply close_inv in H as (mining & owner & target & auth & pool & w0 & m0 & m1 & A & _ & Ht & _ & _ & _ & _ & _ & _ & Hm & _ & _ & _ & _ & _ & ->).
    chase Hc k; try congruence. apply Hho. right. split; [reflexivity|at_].
  - apply change_inv in H as (pool & mining & auth & owner & od & nd & w0 & m0 & w' & m' & od' & nd' & A & [] & _ & Hdo & _ & _ & _ & _ & Hch & ->).
    assert (P = pool) by (eapply at_fun; [eassumption|at_]). subst P.
    apply change_grows in Hch as (_ & _ & G1 & G2).
    apply dlg_of_cases in G1 as [[-> ->]|(_ & ? & ? & Hdm1 & -> & _)];
    apply dlg_of_cases in G2 as [[-> ->]|(Hnm & ? & ? & Hdm2 & -> & _)];
    chase Hc k; try congruence;
    first [apply Hho; left; split; [do 2 eexists; reflexivity|at_]
          |apply Hne; eapply delegate_pool; eauto; split; assumption].
  - apply slash_inv in H as (auth & pool & mining & w0 & m0 & w' & m' & A & [] & _ & ->).
    assert (P = pool) by (eapply at_fun; [eassumption|at_]). subst P.
    chase Hc k; congruence.
  - apply decrease_inv in H as (auth & pool & mining & w0 & m0 & m' & A & [] & _ & ->).
    assert (P = pool) by (eapply at_fun; [eassumption|at_]). subst P.
    chase Hc k; congruence.
Qed.

End env.
