(** A staker of a pool with an orderly history can take everything and go. *)
From stdpp Require Import gmap.
From Verif Require Import Base OMap State Spec EffectSpec Core Ledger Program ResLemmas TreeLemmas RefreshLemmas WfLemmas CodecLemmas
  LedgerLemmas LedgerSpec History HistoryLemmas AccessLemmas HistoryThms ReachThms Clients ClientSpec
  LedgerView LedgerCore LedgerCoreThms EffectLemmas EffectThms EffectMore EffectCompare SuccessSpec SuccessThms.

Lemma upto_after d t : upto d (Spec.after d t) = [].
Proof.
  unfold upto, Spec.after. induction t as [|[k v] r IH]; [reflexivity|]. cbn [List.filter fst].
  destruct (Z.ltb_spec d k); [|exact IH]. cbn [List.filter fst]. destruct (Z.leb_spec k d); [lia|exact IH].
Qed.
Lemma all_due d t : (forall k v, In (k, v) t -> k <= d) -> due d t = total t.
Proof.
  induction t as [|[k v] r IH]; intros H; [reflexivity|]. cbn [due total].
  rewrite IH by (intros; eapply H; right; eassumption).
  destruct (Z.leb_spec k d) as [|B]; [lia|]. pose proof (H k v (or_introl eq_refl)). lia.
Qed.

Section env.
Context (e : env) (Henv : env_ok e) (Hinj : env_inj e) (Hrent : 0 < rent_min e MINING_LEN).
Context (P : pubkey) (HP : P <> 0).

Lemma orderly_runs D now L now' L' : orderly_run e P D now L now' L' -> exists evs, run e now L evs now' L'.
Proof.
  induction 1 as [|now L ts ms i L1 r now' L' Hts Hu Hr X O R [evs IH]|now L ts L1 now' L' Hts Hu X O R [evs IH]].
  - exists []. constructor.
  - exists (EvIx ts ms i :: evs). econstructor; [econstructor; eassumption|exact IH].
  - exists (EvExt ts :: evs). econstructor; [econstructor; eassumption|exact IH].
Qed.
Lemma orderly_reached D now L : orderly e P D now L -> reached e now L.
Proof. intros (L0 & G & _ & R). apply orderly_runs in R as [evs R]. exists L0, evs. auto. Qed.

Lemma run_last now L evs now1 L1 ev L2 :
  run e now L evs now1 L1 -> step e now1 L1 ev L2 -> run e now L (evs ++ [ev]) (time_of ev) L2.
Proof.
  induction 1 as [|now L ev0 L0 evs now1 L1 S R IH]; intros HS; cbn [app].
  - econstructor; [exact HS|constructor].
  - econstructor; [exact S|]. apply IH. exact HS.
Qed.
Lemma reached_snoc now L ts ms i L1 r :
  reached e now L -> now <= ts -> is_u64 ts -> ix_in_range i -> exec e ts ms i L = Ok (L1, r) -> reached e ts L1.
Proof.
  intros (L0 & evs & G & R) Hts Hu Hr X. exists L0, (evs ++ [EvIx ts ms i]). split; [assumption|].
  apply (run_last _ _ _ _ _ (EvIx ts ms i) _ R). econstructor; eassumption.
Qed.

(** nothing left to bring up to date *)
Lemma refreshed_again ts ci m m1 m' :
  refreshed ts ci m m1 -> m_share (wm m') + m_sfo (wm m') < U64 -> 0 <= m_share (wm m') ->
  m_index (wm m') = m_index (wm m1) -> wm_diffs m' = wm_diffs m1 -> m_unclaimed (wm m') = 0 ->
  can_refresh ts ci m' /\ tokens_at ts ci m' = 0 /\ share_at ts m' = m_share (wm m').
Proof.
  intros R Hf Hs Hi Hd Hu. destruct R as [_ _ Rd _ Ri _ _ _ _].
  assert (E : upto (day_start ts) (wm_diffs m') = []) by (rewrite Hd, Rd; apply upto_after).
  assert (E0 : due (day_start ts) (wm_diffs m') = 0) by (rewrite <- total_upto, E; reflexivity).
  assert (T : tokens_at ts ci m' = 0).
  { unfold tokens_at. rewrite E, Hu, Hi, Ri. cbn [earned]. rewrite Z.sub_diag. reflexivity. }
  split; [|split; [exact T|unfold share_at; lia]]. unfold U64 in *. constructor; [exact Hf|lia|lia| |rewrite T; lia].
  intros d v Hin Hle. exfalso.
  assert (Hin' : In (d, v) (upto (day_start ts) (wm_diffs m'))).
  { unfold upto. apply List.filter_In. split; [exact Hin|]. apply Z.leb_le. exact Hle. }
  rewrite E in Hin'. destruct Hin'.
Qed.

Lemma leave now ts L V w k m T x mx dl a target :
  orderly e P disciplined now L -> pool_vault e L P V w -> now <= ts -> is_u64 ts ->
  owner_of L (p_mint (wp w)) = spl_token_id e -> p_deposit_auth (wp w) <> system_id ->
  mining_in e L P k m -> m_owner (wm m) <> system_id -> payable e L w V m T -> m_sfo (wm m) = 0 ->
  0 <= a <= unlocked_stake m -> is_key (m_owner (wm m)) -> is_key dl ->
  x = k \/ mining_in e L P x mx /\ dl = m_owner (wm mx) /\ a <= m_sfo (wm mx) ->
  owner_of L target = system_id -> lamports_of L target + lamports_of L k < U64 ->
  exists L1 L2 L3 r w',
    exec e ts (fst (b_claim e P (p_mint (wp w)) V k (m_owner (wm m)) (p_deposit_auth (wp w)) T)) Claim L = Ok (L1, Some r) /\
    exec e ts (fst (b_withdraw P k (p_deposit_auth (wp w)) x a (m_owner (wm m)) dl))
      (WithdrawMining a (m_owner (wm m)) dl) L1 = Ok (L2, None) /\
    exec e ts (fst (b_close k (m_owner (wm m)) target (p_deposit_auth (wp w)) P)) CloseMining L2 = Ok (L3, None) /\
    r = tokens_at ts (wp_ci w) m /\
    balance L3 T = balance L T + r /\ balance L3 V = balance L V - r /\
    lamports_of L3 target = lamports_of L target + lamports_of L k /\
    acc L3 k = Account 0 (program_id e) (DMining zero_wmining) /\
    is_pool e L3 P w' /\
    forall d, day_start ts <= d ->
      p_total (wp w') - due d (wp_diffs w') = p_total (wp w) - due d (wp_diffs w) - a - if_other x k a.
Proof.
  intros HO HV Hts Hu Hmint Hauth Hm Hown Hpay Hsfo Ha Hko Hkd Hx Htg Hfit.
  pose proof (orderly_reached _ _ _ HO) as HR.
  assert (Hn : 0 <= now) by (exact (orderly_time e Henv Hinj Hrent P HP disciplined disciplined_donate disciplined_init _ _ HO)).
  pose proof (eo_tok _ Henv) as Ntok. pose proof (eo_sys _ Henv) as Nsys. pose proof (eo_toksys _ Henv) as Nts.
  assert (HTV : T <> V) by (destruct Hpay as (? & _ & _ & _ & ? & _); assumption).
  (* the claim *)
  destruct (claim_exec e Henv Hinj Hrent P HP disciplined disciplined_donate disciplined_init now ts L V w (p_mint (wp w)) k m T
    (orderly_reachable e Henv Hinj Hrent P HP disciplined disciplined_donate disciplined_init (fun _ _ _ H => H) _ _ _ _ HO HV)
    HO HV Hts eq_refl Hmint Hm Hpay) as (L1 & r & X1 & _).
  pose proof (claim_orderly e P disciplined _ _ _ _ _ _ _ _ _ _ _ disciplined_claim HO HV Hts Hu Hown Hauth X1) as HO1.
  destruct (claim_post e Henv Hinj Hrent P HP disciplined disciplined_donate disciplined_init _ _ _ _ _ _ _ _ _ _ _ _ HO HV Hts Hu HTV X1)
    as (Q1 & HV1 & _ & Q4 & Q5).
  destruct (claim_pays e Henv _ _ _ _ _ _ P k V T HR Hts X1) as (w0 & m0 & m1 & m' & t & C1 & C2 & C3 & C4 & C5 & C6 & C7 & C8 & C9 & C10);
    [reflexivity..|].
  assert (w0 = w) by (destruct HV as [[_ ?] _], C1; congruence). subst w0.
  assert (m0 = m) by (destruct Hm as [[_ ?] _], C2; congruence). subst m0.
  injection C6 as ->.
  pose proof (reached_snoc _ _ _ _ Claim _ _ HR Hts Hu I X1) as HR1.
  assert (Vt : exists tv, is_token e L V tv).
  { destruct (orderly_core e Henv Hinj Hrent P HP disciplined disciplined_donate disciplined_init _ _ _ _ HO HV) as [tv HA].
    exists tv. apply HA. }
  assert (N : forall q, owner_of L q = program_id e \/ owner_of L q = system_id -> q <> V /\ q <> T).
  { intros q Hq. destruct Hpay as (t0 & [To _] & _), Vt as (tv & [Vo _]). split; intros ->; destruct Hq; congruence. }
  assert (Nk : k <> V /\ k <> T) by (apply N; left; apply Hm).
  assert (HT1 : balance L1 T = balance L T + m_unclaimed (wm m1)).
  { unfold balance. rewrite C7. destruct (Z_lt_le_dec 0 (m_unclaimed (wm m1))) as [Hp|Hz].
    - destruct (C8 Hp (not_eq_sym HTV)) as (v & _ & _ & _ & ->). reflexivity.
    - assert (E : m_unclaimed (wm m1) = 0).
      { assert (0 <= m_unclaimed (wm m1)); [|lia].
        destruct (orderly_good e Henv Hinj Hrent P HP disciplined disciplined_donate disciplined_init _ _ HO) as (_ & HL & _).
        pose proof X1 as X. apply exec_inv in X as [X _]. cbn [process] in X. apply rbind_ok in X as ([L1' r'] & X & E).
        injection E as -> ->.
        apply claim_inv in X as (pool & mint' & vault & mining & owner' & auth' & dest & w0 & m0 & m2 & t0 & A & Hpo & _ & _ & Hmo & _ & _ & _ & _ & _ & Hpd & _ & Hmd & _ & _ & _ & _ & Hr & Ea & _).
        destruct A as [rest A]. cbn in A. injection A as <- <- <- <- <- <- <- <-.
        destruct (HL P) as [_ Hpw]. destruct (HL k) as [_ Hmw]. unfold owner_of, data_of in Hpo, Hmo, Hpd, Hmd.
        specialize (Hpw Hpo). specialize (Hmw Hmo). rewrite Hpd in Hpw. rewrite Hmd in Hmw.
        pose proof (refresh_wf _ _ _ _ _ Hpw Hmw Hr) as [_ _ HW]. rewrite Ea. apply HW. }
      rewrite (C9 (or_introl E) T) by (intros E'; apply (proj2 Nk); congruence). rewrite C7. lia. }
  (* the withdrawal *)
  assert (Hm' : mining_in e L1 P k m').
  { split; [exact C4|]. destruct C5 as [(E & _) _], C3 as [(E' & _) _ _ _ _ _ _ _ _]. rewrite E, E'. apply Hm. }
  assert (Eo : m_owner (wm m') = m_owner (wm m)).
  { destruct C5 as [(_ & E & _) _], C3 as [(_ & E' & _) _ _ _ _ _ _ _ _]. congruence. }
  assert (Hun : unlocked m' = unlocked_stake m).
  { destruct C5 as (_ & E & _ & _ & E' & _), C3 as [_ _ Rd Rs _ _ _ _ _]. unfold unlocked, unlocked_stake.
    rewrite E, E', Rd, Rs, total_after. lia. }
  destruct (withdraw_exec e Henv Hinj Hrent P HP disciplined disciplined_donate disciplined_init (fun _ _ _ H => H)
    ts ts L1 V w k m' a x mx dl HO1 HV1 (Z.le_refl _) Hm') as (L2 & X2); [lia| |].
  { destruct Hx as [->|((Hx & Hxp) & -> & Hxa)]; [left; reflexivity|].
    destruct (Z.eq_dec x k) as [->|Hxk]; [left; reflexivity|]. right. split; [|auto]. split; [|exact Hxp].
    destruct (N x (or_introl (proj1 Hx))). unfold is_mining, owner_of, data_of in *. rewrite C10 by assumption. exact Hx. }
  rewrite Eo in X2. cbn [fst] in X2.
  assert (Ha64 : is_u64 a).
  { destruct (stored_in_range e Henv _ _ k HR) as (_ & _ & _ & Hr0). destruct (Hr0 m (proj1 Hm)) as (_ & S1 & _ & _ & _ & S2 & _).
    assert (0 <= total (wm_diffs m)).
    { clear -S2. induction (wm_diffs m) as [|[d v] l IH]; [cbn; lia|]. cbn [total].
      assert (0 <= v) by (destruct (S2 d v (or_introl eq_refl)) as [_ [? _]]; assumption).
      assert (0 <= total l) by (apply IH; intros; apply S2; right; assumption). lia. }
    unfold is_u64, unlocked_stake in *. lia. }
  pose proof (reached_snoc _ _ _ _ (WithdrawMining a (m_owner (wm m)) dl) _ _ HR1 (Z.le_refl _) Hu (conj Ha64 (conj Hko Hkd)) X2) as HR2.
  destruct (withdraw_on_ledger e Henv _ _ _ _ _ _ _ _ _ HR1 (Z.le_refl _) Ha64 X2)
    as (P0 & k0 & D0 & w1 & m2 & m3 & w' & m4 & A0 & A1 & A3 & W1 & W2 & W3 & W4 & W5 & W6 & W7 & W8 & W9 & W10 & W11 & W12 & _ & W14).
  cbn in A0, A1, A3. injection A0 as <-. injection A1 as <-. injection A3 as <-.
  assert (w1 = w) by (destruct HV1 as [[_ ?] _], W1; congruence). subst w1.
  assert (m2 = m') by (destruct C4, W2; congruence). subst m2.
  (* closing *)
  assert (Hpl : pool_vault e L2 P V w').
  { split; [exact W3|]. destruct W10 as (_ & _ & _ & E1 & _ & _ & _ & E2 & E3 & _). rewrite E1, E2, E3.
    split; apply HV. }
  destruct (stored_in_range e Henv _ _ k HR2) as (_ & _ & _ & Hr2). destruct (Hr2 m4 W4) as (_ & S1 & _).
  assert (S0 : m_sfo (wm m4) = 0).
  { destruct W6 as (_ & _ & _ & E1), W5 as [_ E2 _ _ _ _ _ _ _], C5 as (_ & _ & E3 & _), C3 as [_ E4 _ _ _ _ _ _ _]. congruence. }
  assert (T0 : tokens_at ts (wp_ci w) m' = 0 /\ can_refresh ts (wp_ci w) m').
  { destruct C5 as (_ & E1 & E2 & E3 & E4 & E5).
    destruct (stored_in_range e Henv _ _ k HR1) as (_ & _ & _ & Hr1). destruct (Hr1 m' C4) as (_ & S3 & _).
    destruct (refreshed_again ts (wp_ci w) m m1 m' C3) as (? & ? & _); auto.
    - rewrite E2, (rf_sfo _ _ _ _ C3), Hsfo. unfold is_u64 in S3. lia.
    - apply S3. }
  assert (U0 : m_unclaimed (wm m4) = 0).
  { destruct W6 as (_ & _ & E & _). rewrite E, (rf_unclaimed _ _ _ _ W5). apply T0. }
  destruct (refreshed_again ts (wp_ci w) m' m3 m4 W5) as (F1 & F2 & F3); auto.
  { rewrite S0. unfold is_u64 in S1. lia. } { apply S1. } { apply W6. }
  assert (Eci : wp_ci w' = wp_ci w) by apply W10.
  assert (Nt : target <> k /\ target <> P /\ target <> x).
  { destruct Hm as [[Hk _] _], HV as [[Hp _] _]. split; [congruence|]. split; [congruence|].
    destruct Hx as [->|[[[Hxo _] _] _]]; congruence. }
  destruct Nt as (Nt1 & Nt2 & Nt3). destruct (N target (or_intror Htg)) as [Nt4 Nt5].
  assert (Et : acc L2 target = acc L target).
  { rewrite <- (C10 target) by assumption.
    destruct (decide (acc L2 target = acc L1 target)) as [E|NE]; [exact E|exfalso].
    destruct (changed_named e _ _ _ _ _ _ _ X2 NE) as [(n & Hin & Hat) _]. cbn [may_change In] in Hin.
    unfold account_at in Hat. decompose [or] Hin; subst; try contradiction; cbn in Hat; congruence. }
  destruct (reached_ok e Henv _ _ HR) as (LO & _ & _). destruct (reached_ok e Henv _ _ HR1) as (LO1 & _ & _).
  assert (Ek : lamports_of L2 k = lamports_of L k).
  { destruct (exec_mining e Henv _ _ _ _ _ _ _ _ _ Hts LO X1 (proj1 Hm)) as (? & _ & _ & E1); [intros [? _]; discriminate|].
    destruct (exec_mining e Henv _ _ _ _ _ _ _ _ _ (Z.le_refl _) LO1 X2 C4) as (? & _ & _ & E2); [intros [? _]; discriminate|]. congruence. }
  assert (Eo4 : m_owner (wm m4) = m_owner (wm m)).
  { destruct W6 as [(_ & E & _) _], W5 as [(_ & E' & _) _ _ _ _ _ _ _ _]. congruence. }
  assert (X3 : exists y, exec e ts (fst (b_close k (m_owner (wm m)) target (p_deposit_auth (wp w)) P)) CloseMining L2 = Ok y).
  { apply (built_iff e Henv ts ts _ CloseMining L2 HR2 (Z.le_refl _) I); [constructor|].
    exists k, (m_owner (wm m)), target, (p_deposit_auth (wp w)), P, w', m4.
    split; [exists []; reflexivity|]. split; [exact W3|]. split; [exact W4|].
    split; [unfold owner_of; rewrite Et; exact Htg|].
    split; [exists (Meta (m_owner (wm m)) true false); cbn; auto|].
    split; [exists (Meta (p_deposit_auth (wp w)) true false); cbn; auto 10|].
    split; [apply W10|]. split; [exact Eo4|]. rewrite Eci. split; [exact F1|]. split; [exact S0|]. split; [exact F2|].
    unfold lamports_of at 1. rewrite Et, Ek. unfold lamports_of, U64 in Hfit. exact Hfit. }
  destruct X3 as [[L3 r3] X3].
  assert (r3 = None).
  { pose proof X3 as X. apply exec_inv in X as [X _]. cbn [process] in X. unfold no_ret in X.
    apply rbind_ok in X as (? & _ & E). congruence. }
  subst r3.
  destruct (close_on_ledger e Henv _ _ _ _ _ _ HR2 X3) as (k1 & o1 & t1 & P1 & w2 & m5 & m6 & B0 & B1 & B2 & B4 & _ & _ & _ & _ & _ & _ & _ & G1 & G2 & _ & _ & _ & G3 & G4).
  cbn in B0, B1, B2, B4. injection B0 as <-. injection B1 as <-. injection B2 as <-. injection B4 as <-.
  exists L1, L2, L3, (m_unclaimed (wm m1)), w'.
  split; [exact X1|]. split; [exact X2|]. split; [exact X3|].
  split; [rewrite (rf_unclaimed _ _ _ _ C3); reflexivity|].
  assert (Htok : forall q tq, is_token e L q tq -> exists t1, data_of L1 q = DToken t1 /\ data_of L3 q = DToken t1).
  { intros q tq Hq.
    assert (exists t1, data_of L1 q = DToken t1) as [t1 E].
    { destruct (Z.eq_dec q V) as [->|Hqv].
      - destruct (orderly_core e Henv Hinj Hrent P HP disciplined disciplined_donate disciplined_init _ _ _ _ HO1 HV1) as [tv HA].
        exists tv. apply HA.
      - destruct (Q5 q tq Hqv Hq) as (t1 & [_ E] & _). exists t1. exact E. }
    exists t1. split; [exact E|]. apply G3. apply W14. exact E. }
  split.
  { destruct Hpay as (t0 & Ht0 & _). destruct (Htok _ _ Ht0) as (t1 & E1 & E3).
    rewrite <- HT1. unfold balance. rewrite E1, E3. reflexivity. }
  split.
  { destruct Vt as (tv & Hv). destruct (Htok _ _ Hv) as (t1 & E1 & E3).
    rewrite <- Q4. unfold balance. rewrite E1, E3. reflexivity. }
  split; [rewrite G2, Ek; unfold lamports_of; rewrite Et; reflexivity|]. split; [exact G1|].
  split; [unfold is_pool, owner_of, data_of in *; rewrite (G4 P w' W3); exact W3|].
  intros d Hd. rewrite W11, W12, due_after by assumption. lia.
Qed.

Lemma leave_all ts m :
  (forall d v, In (d, v) (wm_diffs m) -> d <= day_start ts) -> unlocked_stake m = share_at ts m.
Proof. intros H. unfold unlocked_stake, share_at. rewrite (all_due _ _ H). reflexivity. Qed.
End env.
