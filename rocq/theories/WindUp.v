(** Stakers leave one after the other. *)
From stdpp Require Import gmap.
From Verif Require Import Base OMap State Spec EffectSpec Core Ledger Program ResLemmas TreeLemmas RefreshLemmas WfLemmas CodecLemmas
  LedgerLemmas LedgerSpec History HistoryLemmas AccessLemmas HistoryThms ReachThms Clients ClientSpec
  LedgerView LedgerCore LedgerCoreThms EffectLemmas EffectThms EffectMore EffectCompare SuccessSpec SuccessThms Leave WindUpSpec.

Section env.
Context (e : env) (Henv : env_ok e) (Hinj : env_inj e) (Hrent : 0 < rent_min e MINING_LEN).
Context (P : pubkey) (HP : P <> 0).

Lemma orderly_weaker (D D' : Z -> op -> core -> Prop) now L :
  (forall ts o c, D ts o c -> D' ts o c) -> orderly e P D now L -> orderly e P D' now L.
Proof.
  intros HD (L0 & G & Hd & R). exists L0. split; [exact G|]. split; [exact Hd|]. clear G Hd Henv Hinj Hrent HP.
  induction R as [|now L0 ts ms i L1 r now' L' Hts Hu Hr X O R IH|now L0 ts L1 now' L' Hts Hu X O R IH].
  - constructor.
  - apply (or_ix e P D' now L0 ts ms i L1 r); try assumption. destruct O as [O1 O2 O3 O4 O5 O6]. constructor; try assumption.
    intros V w o H1 H2. apply HD. exact (O6 V w o H1 H2).
  - eapply or_ext; eassumption.
Qed.

(** the three calls of somebody who leaves, and all they change *)
Lemma departs now ts L V w k m T x mx dl a target :
  orderly e P disciplined now L -> pool_vault e L P V w -> now <= ts -> is_u64 ts ->
  owner_of L (p_mint (wp w)) = spl_token_id e -> p_deposit_auth (wp w) <> system_id ->
  mining_in e L P k m -> m_owner (wm m) <> system_id -> payable e L w V m T -> m_sfo (wm m) = 0 ->
  0 <= a <= unlocked_stake m -> is_key (m_owner (wm m)) -> is_key dl ->
  x = k \/ x <> k /\ mining_in e L P x mx /\ dl = m_owner (wm mx) /\ a <= m_sfo (wm mx) ->
  owner_of L target = system_id -> lamports_of L target + lamports_of L k < U64 ->
  exists L1 L2 L3 r w',
    exec e ts (fst (b_claim e P (p_mint (wp w)) V k (m_owner (wm m)) (p_deposit_auth (wp w)) T)) Claim L = Ok (L1, Some r) /\
    exec e ts (fst (b_withdraw P k (p_deposit_auth (wp w)) x a (m_owner (wm m)) dl))
      (WithdrawMining a (m_owner (wm m)) dl) L1 = Ok (L2, None) /\
    exec e ts (fst (b_close k (m_owner (wm m)) target (p_deposit_auth (wp w)) P)) CloseMining L2 = Ok (L3, None) /\
    r = tokens_at ts (wp_ci w) m /\ 0 <= r /\
    balance L3 T = balance L T + r /\ balance L3 V = balance L V - r /\
    lamports_of L3 target = lamports_of L target + lamports_of L k /\ owner_of L3 target = system_id /\
    acc L3 k = Account 0 (program_id e) (DMining zero_wmining) /\
    pool_vault e L3 P V w' /\ only_total w w' /\
    (forall d, day_start ts <= d ->
      p_total (wp w') - due d (wp_diffs w') = p_total (wp w) - due d (wp_diffs w) - a - if_other x k a) /\
    orderly e P disciplined ts L3 /\ owner_of L3 T = owner_of L T /\
    (x <> k -> exists mx', mining_in e L3 P x mx' /\ m_owner (wm mx') = m_owner (wm mx) /\ m_sfo (wm mx') = m_sfo (wm mx) - a /\
      refreshed ts (wp_ci w) (with_delegated mx (m_sfo (wm mx) - a)) mx' /\ lamports_of L3 x = lamports_of L x) /\
    (forall q, q <> P -> q <> V -> q <> T -> q <> k -> q <> x -> q <> target -> acc L3 q = acc L q).
Proof.
  intros HO HV Hts Hu Hmint Hauth Hm Hown Hpay Hsfo Ha Hko Hkd Hx Htg Hfit.
  assert (Hx' : x = k \/ mining_in e L P x mx /\ dl = m_owner (wm mx) /\ a <= m_sfo (wm mx)) by tauto.
  destruct (leave e Henv Hinj Hrent P HP now ts L V w k m T x mx dl a target HO HV Hts Hu Hmint Hauth Hm Hown Hpay Hsfo Ha Hko Hkd Hx' Htg Hfit)
    as (L1 & L2 & L3 & r & w' & X1 & X2 & X3 & Er & BT & BV & LT & AK & PW & Tot).
  exists L1, L2, L3, r, w'. do 3 (split; [assumption|]). split; [exact Er|].
  pose proof (orderly_reached _ _ _ _ _ HO) as HR.
  pose proof (eo_tok _ Henv) as Ntok. pose proof (eo_sys _ Henv) as Nsys. pose proof (eo_toksys _ Henv) as Nts.
  assert (HTV : T <> V) by (destruct Hpay as (? & _ & _ & _ & ? & _); assumption).
  pose proof (claim_orderly e P disciplined _ _ _ _ _ _ _ _ _ _ _ disciplined_claim HO HV Hts Hu Hown Hauth X1) as HO1.
  destruct (claim_post e Henv Hinj Hrent P HP disciplined disciplined_donate disciplined_init _ _ _ _ _ _ _ _ _ _ _ _ HO HV Hts Hu HTV X1)
    as (Q1 & HV1 & _ & Q4 & Q5).
  destruct (claim_pays e Henv _ _ _ _ _ _ P k V T HR Hts X1) as (w0 & m0 & m1 & m' & t & C1 & C2 & C3 & C4 & C5 & C6 & C7 & C8 & C9 & C10);
    [reflexivity..|].
  assert (w0 = w) by (destruct HV as [[_ ?] _], C1; congruence). subst w0.
  assert (m0 = m) by (destruct Hm as [[_ ?] _], C2; congruence). subst m0.
  injection C6 as ->.
  pose proof (reached_snoc e _ _ _ _ Claim _ _ HR Hts Hu I X1) as HR1.
  assert (Vt : exists tv, is_token e L V tv).
  { destruct (orderly_core e Henv Hinj Hrent P HP disciplined disciplined_donate disciplined_init _ _ _ _ HO HV) as [tv HA].
    exists tv. apply HA. }
  assert (N : forall q, owner_of L q = program_id e \/ owner_of L q = system_id -> q <> V /\ q <> T).
  { intros q Hq. destruct Hpay as (t0 & [To _] & _), Vt as (tv & [Vo _]). split; intros ->; destruct Hq; congruence. }
  assert (Nk : k <> V /\ k <> T) by (apply N; left; apply Hm).
  split.
  { (* what is paid is not negative *)
    destruct (stored_in_range e Henv _ _ k HR) as (_ & _ & _ & Hr0). destruct (Hr0 m (proj1 Hm)) as (_ & S1 & _ & S3 & _).
    destruct (stored_in_range e Henv _ _ T HR1) as (_ & Ht1 & _). destruct (stored_in_range e Henv _ _ V HR1) as (_ & Hv1 & _).
    destruct (Z_lt_le_dec (m_unclaimed (wm m1)) 0) as [Hneg|]; [exfalso|assumption].
    destruct Hpay as (t0 & Ht0 & _). destruct (Q5 T t0 HTV Ht0) as (t1 & [_ E1] & _ & _ & Hle).
    destruct (orderly_good e Henv Hinj Hrent P HP disciplined disciplined_donate disciplined_init _ _ HO) as (_ & HL & _).
    pose proof X1 as X. apply exec_inv in X as [X _]. cbn [process] in X. apply rbind_ok in X as ([L1' r'] & X & E).
    injection E as -> ->.
    apply claim_inv in X as (pool & mint' & vault & mining & owner' & auth' & dest & w1 & m2 & m3 & t2 & A & Hpo & _ & _ & Hmo & _ & _ & _ & _ & _ & Hpd & _ & Hmd & _ & _ & _ & _ & Hr & Ea & _).
    destruct A as [rest A]. cbn in A. injection A as <- <- <- <- <- <- <- <-.
    destruct (HL P) as [_ Hpw]. destruct (HL k) as [_ Hmw]. unfold owner_of, data_of in Hpo, Hmo, Hpd, Hmd.
    specialize (Hpw Hpo). specialize (Hmw Hmo). rewrite Hpd in Hpw. rewrite Hmd in Hmw.
    pose proof (refresh_wf _ _ _ _ _ Hpw Hmw Hr) as [_ _ HW].
    assert (0 <= m_unclaimed (wm m3)) by apply HW. lia. }
  do 3 (split; [assumption|]).
  assert (Hm' : mining_in e L1 P k m').
  { split; [exact C4|]. destruct C5 as [(E & _) _], C3 as [(E' & _) _ _ _ _ _ _ _ _]. rewrite E, E'. apply Hm. }
  assert (Hun : unlocked m' = unlocked_stake m).
  { destruct C5 as (_ & E & _ & _ & E' & _), C3 as [_ _ Rd Rs _ _ _ _ _]. unfold unlocked, unlocked_stake.
    rewrite E, E', Rd, Rs, total_after. lia. }
  assert (Ha64 : is_u64 a).
  { destruct (stored_in_range e Henv _ _ k HR) as (_ & _ & _ & Hr0). destruct (Hr0 m (proj1 Hm)) as (_ & S1 & _ & _ & _ & S2 & _).
    assert (0 <= total (wm_diffs m)).
    { clear -S2. induction (wm_diffs m) as [|[d v] l IH]; [cbn; lia|]. cbn [total].
      assert (0 <= v) by (destruct (S2 d v (or_introl eq_refl)) as [_ [? _]]; assumption).
      assert (0 <= total l) by (apply IH; intros; apply S2; right; assumption). lia. }
    unfold is_u64, unlocked_stake in *. lia. }
  pose proof (reached_snoc e _ _ _ _ (WithdrawMining a (m_owner (wm m)) dl) _ _ HR1 (Z.le_refl _) Hu (conj Ha64 (conj Hko Hkd)) X2) as HR2.
  assert (HO2 : orderly e P disciplined ts L2).
  { eapply orderly_snoc; [exact HO1|apply Z.le_refl|exact Hu| |exact X2|]; [exact (conj Ha64 (conj Hko Hkd))|].
    constructor; try discriminate.
    - intros (y & Hin & E1 & E2). cbn in Hin. decompose [or] Hin; subst; cbn in *; try discriminate; try contradiction; congruence.
    - intros V0 w1 o Hpv Ho. cbn in Ho. rewrite Z.eqb_refl in Ho. injection Ho as <-. intros c. destruct c; try exact I.
      cbn [cond_ok]. intros m2 H2. unfold core_of in H2. cbn [c_min] in H2. apply in_view in H2 as [[_ H2] _].
      destruct C4 as [_ C4]. assert (m2 = m') by congruence. subst m2. lia. }
  destruct (withdraw_on_ledger e Henv _ _ _ _ _ _ _ _ _ HR1 (Z.le_refl _) Ha64 X2)
    as (P0 & k0 & D0 & w1 & m2 & m3 & w2 & m4 & A0 & A1 & A3 & W1 & W2 & W3 & W4 & W5 & W6 & W7 & W8 & W9 & W10 & W11 & W12 & W13 & W14).
  cbn in A0, A1, A3. injection A0 as <-. injection A1 as <-. injection A3 as <-.
  assert (w1 = w) by (destruct HV1 as [[_ ?] _], W1; congruence). subst w1.
  assert (m2 = m') by (destruct C4, W2; congruence). subst m2.
  destruct (close_on_ledger e Henv _ _ _ _ _ _ HR2 X3) as (k1 & o1 & t1 & P1 & w3 & m5 & m6 & B0 & B1 & B2 & B4 & _ & _ & _ & _ & _ & _ & _ & G1 & G2 & G5 & G6 & G7 & G3 & G4).
  cbn in B0, B1, B2, B4. injection B0 as <-. injection B1 as <-. injection B2 as <-. injection B4 as <-.
  assert (w' = w2).
  { destruct PW as [_ PW], W3 as [W3o W3]. unfold data_of in *. rewrite (G4 P w2 (conj W3o W3)) in PW. congruence. }
  subst w2.
  assert (Nt : target <> k /\ target <> P /\ target <> x).
  { destruct Hm as [[Hk _] _], HV as [[Hp _] _]. split; [congruence|]. split; [congruence|].
    destruct Hx' as [->|[[[Hxo _] _] _]]; congruence. }
  destruct Nt as (Nt1 & Nt2 & Nt3). destruct (N target (or_intror Htg)) as [Nt4 Nt5].
  assert (F2 : forall q, q <> P -> q <> k -> q <> x -> acc L2 q = acc L1 q).
  { intros q N1 N2 N3. destruct (decide (acc L2 q = acc L1 q)) as [E|NE]; [exact E|exfalso].
    destruct (changed_named e _ _ _ _ _ _ _ X2 NE) as [(n & Hin & Hat) _]. cbn [may_change In] in Hin.
    unfold account_at in Hat. decompose [or] Hin; subst; try contradiction; cbn in Hat; congruence. }
  assert (Frame : forall q, q <> P -> q <> V -> q <> T -> q <> k -> q <> x -> q <> target -> acc L3 q = acc L q).
  { intros q N1 N2 N3 N4 N5 N6. rewrite G7, F2, C10 by assumption. reflexivity. }
  split; [rewrite G5; unfold owner_of; rewrite F2, C10 by assumption; exact Htg|].
  split; [exact AK|].
  split.
  { split; [exact PW|]. destruct W10 as (_ & _ & _ & E1 & _ & _ & _ & E2 & E3 & _). rewrite E1, E2, E3. split; apply HV. }
  split; [exact W10|]. split; [exact Tot|]. split.
  { apply (orderly_snoc e P disciplined ts L2 ts _ CloseMining L3 None HO2 (Z.le_refl _) Hu I X3).
    constructor; try discriminate.
    - intros (y & Hin & E1 & E2). cbn in Hin. decompose [or] Hin; subst; cbn in *; try discriminate; try contradiction; congruence.
    - intros q my p _ H1 H2 _ _. injection H2 as <-. reflexivity.
    - intros V0 w1 o _ Ho. cbn in Ho. rewrite Z.eqb_refl in Ho. injection Ho as <-. intros c. destruct c; exact I. }
  split.
  { assert (ET : owner_of L T = spl_token_id e) by (destruct Hpay as (t0 & [E _] & _); exact E).
    assert (T <> P) by (destruct HV as [[E _] _]; congruence). assert (T <> k) by (destruct Hm as [[E _] _]; congruence).
    assert (T <> x) by (destruct Hx' as [->|[[[E _] _] _]]; congruence).
    rewrite <- (Q1 T). unfold owner_of. rewrite G7, F2 by congruence. reflexivity. }
  split; [|exact Frame].
  intros Hne. destruct Hx as [->|(_ & (Hx1 & Hx2) & Hd & Hle)]; [congruence|].
  destruct (N x (or_introl (proj1 Hx1))) as [Nx1 Nx2].
  destruct W13 as [?|(_ & y & y' & Y1 & Y2 & _ & Y3)]; [congruence|].
  assert (y = mx).
  { destruct Y1 as [_ Y1], Hx1 as [_ Hx1]. unfold data_of in *. rewrite C10 in Y1 by assumption. congruence. }
  subst y. exists y'. split; [split|].
  - unfold is_mining, owner_of, data_of in *. rewrite G7 by congruence. exact Y2.
  - destruct Y3 as [(E & _) _ _ _ _ _ _ _ _]. rewrite E. exact Hx2.
  - pose proof Y3 as [(_ & E & _) E2 _ _ _ _ _ _ _]. rewrite E, E2. do 2 (split; [reflexivity|]). split; [exact Y3|].
    destruct (exec_mining e Henv ts ts _ _ _ _ _ x mx (Z.le_refl _) (proj1 (reached_ok e Henv _ _ HR1)) X2 Y1) as (y & _ & _ & EL); [intros [? _]; discriminate|].
    unfold lamports_of in *. rewrite G7 by congruence. rewrite EL, C10 by assumption. reflexivity.
Qed.

(** ** Sums over those who leave *)
Lemma zsum_nonneg {A} (f : A -> Z) l : (forall x, In x l -> 0 <= f x) -> 0 <= zsum (map f l).
Proof.
  induction l as [|x l IH]; intros H; cbn; [lia|]. pose proof (H x (or_introl eq_refl)).
  pose proof (IH (fun y Hy => H y (or_intror Hy))). lia.
Qed.

Lemma Forall2_in {A B} (R S : A -> B -> Prop) l xs :
  (forall x y, In x l -> R x y -> S x y) -> Forall2 R l xs -> Forall2 S l xs.
Proof.
  intros H F. induction F as [|x y l xs Hxy F IH]; [constructor|]. constructor; [apply H; [left; reflexivity|exact Hxy]|].
  apply IH. intros a b Ha. apply H. right. exact Ha.
Qed.
Lemma refund_none L t l : ~ In t (map d_target l) -> refund L t l = 0.
Proof.
  intros H. unfold refund. induction l as [|d l IH]; [reflexivity|]. cbn [map zsum] in *. rewrite IH by (intros Hi; apply H; right; exact Hi).
  destruct (Z.eqb_spec (d_target d) t); [exfalso; apply H; left; assumption|lia].
Qed.

Lemma wind_up : forall l now ts L V w,
  orderly e P disciplined now L -> pool_vault e L P V w -> now <= ts -> is_u64 ts ->
  owner_of L (p_mint (wp w)) = spl_token_id e -> p_deposit_auth (wp w) <> system_id ->
  List.NoDup (map d_mining l) -> List.NoDup (map d_to l) ->
  (forall d, In d l -> may_leave e L P V w l d) ->
  exists L' xs w', departures e ts P (p_mint (wp w)) V (p_deposit_auth (wp w)) l L = Ok (L', xs) /\
    Forall2 (has_left e ts P w L L') l xs /\
    balance L' V = balance L V - zsum xs /\
    (forall t, In t (map d_target l) -> lamports_of L' t = lamports_of L t + refund L t l) /\
    pool_vault e L' P V w' /\ only_total w w' /\
    (forall d, day_start ts <= d -> p_total (wp w') - due d (wp_diffs w') = p_total (wp w) - due d (wp_diffs w) - leaving l) /\
    (forall q, q <> P -> q <> V -> ~ In q (map d_to l) -> ~ In q (map d_mining l) -> ~ In q (map d_dm l) ->
       ~ In q (map d_target l) -> acc L' q = acc L q) /\
    (forall q m, mining_in e L' P q m -> ~ In q (map d_mining l) /\ exists m0, mining_in e L P q m0) /\
    (l <> [] -> orderly e P disciplined ts L').
Proof.
  induction l as [|d l IH]; intros now ts L V w HO HV Hts Hu Hmint Hauth Hnd Hnt Hl.
  { exists L, [], w. cbn. split; [reflexivity|]. split; [constructor|]. split; [lia|]. split; [intros ? []|].
    split; [exact HV|]. split; [repeat split|]. split; [intros; lia|]. split; [reflexivity|].
    split; [intros q m H; split; [intros []|exists m; exact H]|congruence]. }
  destruct d as [k o T x dl a target]. cbn [map d_mining d_to] in Hnd, Hnt. apply List.NoDup_cons_iff in Hnd as [Nk Hnd].
  apply List.NoDup_cons_iff in Hnt as [NT Hnt].
  pose proof (orderly_reached _ _ _ _ _ HO) as HR.
  pose proof (eo_tok _ Henv) as Ntok. pose proof (eo_sys _ Henv) as Nsys. pose proof (eo_toksys _ Henv) as Nts.
  assert (Hlam : forall q, 0 <= lamports_of L q) by (intros q; apply (stored_in_range e Henv _ _ q HR)).
  assert (Hst : forall d, In d l -> 0 <= d_stake d).
  { intros d Hd. destruct (Hl d (or_intror Hd)) as (? & _ & _ & _ & _ & _ & _ & _ & H & _). apply H. }
  destruct (Hl _ (or_introl eq_refl)) as (m & Hm & Eo & Ho0 & Ko & Kd & Hpay & Hsfo & Ha & Hx & Htg & Hfit).
  cbn [d_mining d_owner d_to d_dm d_delegate d_stake d_target] in *. subst o.
  assert (Htk : forall y, 0 <= taken y l).
  { intros y. apply zsum_nonneg. intros d Hd. specialize (Hst d Hd). destruct (_ =? _); lia. }
  assert (Hrf : forall t, 0 <= refund L t l).
  { intros y. apply zsum_nonneg. intros d Hd. specialize (Hlam (d_mining d)). destruct (_ =? _); lia. }
  assert (Hfit1 : lamports_of L target + lamports_of L k < U64).
  { unfold refund in Hfit. cbn [map zsum d_target d_mining] in Hfit. rewrite Z.eqb_refl in Hfit. specialize (Hrf target). unfold refund in Hrf. lia. }
  assert (HX : exists mx, x = k \/ x <> k /\ mining_in e L P x mx /\ dl = m_owner (wm mx) /\ a <= m_sfo (wm mx)).
  { destruct Hx as [->|(Nx & mx & H1 & H2 & H3)]; [exists m; left; reflexivity|]. exists mx. right.
    split; [intros ->; apply Nx; left; reflexivity|]. split; [exact H1|]. split; [exact H2|].
    unfold taken in H3. cbn [map zsum d_dm d_stake] in H3. rewrite Z.eqb_refl in H3. specialize (Htk x). unfold taken in Htk. lia. }
  destruct HX as [mx HX].
  destruct (departs now ts L V w k m T x mx dl a target HO HV Hts Hu Hmint Hauth Hm Ho0 Hpay Hsfo Ha Ko Kd HX Htg Hfit1)
    as (L1 & L2 & L3 & r & w1 & X1 & X2 & X3 & Er & R0 & BT & BV & LT & OT & AK & HV3 & OW & Tot & HO3 & OT3 & MX & Frame).
  assert (Vt : exists tv, is_token e L V tv).
  { destruct (orderly_core e Henv Hinj Hrent P HP disciplined disciplined_donate disciplined_init _ _ _ _ HO HV) as [tv HA].
    exists tv. apply HA. }
  destruct Vt as [tv Vt].
  destruct Hpay as (t0 & Ht0 & Hpo & Hpm & HTV & Hpf).
  destruct HV as [HVp HVr]. pose proof (conj HVp HVr : pool_vault e L P V w) as HV.
  assert (Ek : owner_of L k = program_id e) by apply Hm.
  assert (Ex : owner_of L x = program_id e).
  { destruct HX as [->|(_ & [[E _] _] & _)]; [apply Hm|exact E]. }
  assert (EP : owner_of L P = program_id e) by apply HVp.
  assert (ET : owner_of L T = spl_token_id e) by apply Ht0.
  assert (EV : owner_of L V = spl_token_id e) by apply Vt.
  destruct OW as (W1 & W2 & W3 & W4 & W5 & W6 & W7 & W8 & W9 & W10).
  (* the other minings, token accounts and targets are as they were *)
  assert (Fm : forall q mq, mining_in e L P q mq -> q <> k -> q <> x -> acc L3 q = acc L q).
  { intros q mq [[E E'] _] N1 N2. apply Frame; try assumption; try congruence.
    intros ->. destruct HVp as [_ HVp]. congruence. }
  assert (Ft : forall q tq, is_token e L q tq -> q <> V -> q <> T -> acc L3 q = acc L q).
  { intros q tq [E _] N1 N2. apply Frame; congruence. }
  assert (Fs : forall q, owner_of L q = system_id -> q <> target -> acc L3 q = acc L q).
  { intros q E N1. apply Frame; congruence. }
  (* accounts of the others *)
  assert (Hk : forall d, In d l -> d_mining d <> k) by (intros d Hd E; apply Nk; rewrite <- E; apply in_map; exact Hd).
  assert (HT : forall d, In d l -> d_to d <> T) by (intros d Hd E; apply NT; rewrite <- E; apply in_map; exact Hd).
  assert (Hxk : forall d, In d l -> d_mining d <> x).
  { intros d Hd E. destruct Hx as [->|[Nx _]]; [exact (Hk d Hd E)|]. apply Nx. right. rewrite <- E. apply in_map. exact Hd. }
  assert (El : forall d, In d l -> lamports_of L3 (d_mining d) = lamports_of L (d_mining d)).
  { intros d Hd. destruct (Hl d (or_intror Hd)) as (md & Hmd & _). unfold lamports_of.
    rewrite (Fm _ _ Hmd (Hk d Hd) (Hxk d Hd)). reflexivity. }
  assert (Erf : forall t, refund L3 t l = refund L t l).
  { intros t. unfold refund. f_equal. apply List.map_ext_in. intros d Hd. rewrite (El d Hd). reflexivity. }
  assert (Em : owner_of L3 (p_mint (wp w1)) = spl_token_id e).
  { rewrite W4. set (q := p_mint (wp w)) in *.
    destruct (Z.eq_dec q V) as [->|N1]; [|destruct (Z.eq_dec q T) as [->|N2]].
    - destruct (orderly_core e Henv Hinj Hrent P HP disciplined disciplined_donate disciplined_init _ _ _ _ HO3 HV3) as [tv3 HA].
      destruct HA as [_ _ _ [E _] _ _ _]. exact E.
    - rewrite OT3. exact ET.
    - unfold owner_of. rewrite Frame; try assumption; congruence. }
  destruct (IH ts ts L3 V w1 HO3 HV3 (Z.le_refl _) Hu Em) as (L' & xs & w' & E1 & E2 & E3 & E4 & E5 & E6 & E7 & E8 & E10 & E9); try assumption; [congruence| |].
  { intros d Hd. destruct (Hl d (or_intror Hd)) as (md & Hmd & F1 & F2 & F3 & F4 & (td & Htd & F5 & F6 & F7 & F8) & F9 & F10 & F11 & F12 & F13).
    pose proof (Fm _ _ Hmd (Hk d Hd) (Hxk d Hd)) as Am. pose proof (Ft _ _ Htd F7 (HT d Hd)) as At.
    exists md. split; [split; [|apply Hmd]; unfold is_mining, owner_of, data_of; rewrite Am; apply Hmd|].
    do 4 (split; [assumption|]). split.
    { exists td. split; [unfold is_token, owner_of, data_of; rewrite At; apply Htd|]. split; [assumption|]. split; [congruence|]. split; [assumption|]. lia. }
    do 2 (split; [assumption|]). split.
    { destruct F11 as [F11|(Nx & my & G1 & G2 & G3)]; [left; exact F11|right]. cbn [map d_mining] in Nx.
      assert (Ny : d_dm d <> k /\ ~ In (d_dm d) (map d_mining l)) by (split; intros H; apply Nx; [left; congruence|right; exact H]).
      destruct Ny as [Ny1 Ny2]. split; [exact Ny2|].
      unfold taken in G3. cbn [map zsum d_dm d_stake] in G3. fold (taken (d_dm d) l) in G3.
      destruct (Z.eqb_spec x (d_dm d)) as [Exd|Ne].
      - rewrite <- Exd in *. destruct (MX Ny1) as (mx' & K1 & K2 & K3 & _). exists mx'. split; [exact K1|].
        destruct HX as [?|(_ & [[_ HX1] _] & _)]; [congruence|]. assert (mx = my) by (destruct G1 as [[_ ?] _]; congruence). subst my.
        split; [congruence|]. rewrite K3. lia.
      - exists my. pose proof (Fm _ _ G1 Ny1 (not_eq_sym Ne)) as Ay.
        split; [split; [|apply G1]; unfold is_mining, owner_of, data_of; rewrite Ay; apply G1|]. split; [exact G2|]. lia. }
    destruct (Z.eq_dec (d_target d) target) as [Et|Nt].
    - rewrite Et in *. split; [exact OT|]. rewrite LT, Erf. unfold refund in F13. cbn [map zsum d_target d_mining] in F13. rewrite Z.eqb_refl in F13.
      fold (refund L target l) in F13. lia.
    - pose proof (Fs _ F12 Nt) as At'. unfold owner_of, lamports_of. rewrite At'. split; [exact F12|]. rewrite Erf.
      unfold refund in F13. cbn [map zsum d_target d_mining] in F13. destruct (Z.eqb_spec target (d_target d)); [congruence|]. 
      fold (refund L (d_target d) l) in F13. unfold lamports_of in F13. lia. }
  exists L', (r :: xs), w'. cbn [departures d_mining d_owner d_to d_dm d_delegate d_stake d_target].
  split.
  { rewrite X1. cbn [rbind]. rewrite X2. cbn [rbind]. rewrite X3. cbn [rbind]. rewrite <- W4, <- W1, E1. reflexivity. }
  (* the accounts of this staker are not touched by the others *)
  assert (ndm : forall q, owner_of L q <> program_id e \/ q = k -> ~ In q (map d_dm l)).
  { intros q Hq Hin. apply in_map_iff in Hin as (d & <- & Hd).
    destruct (Hl d (or_intror Hd)) as (md & Hmd & _ & _ & _ & _ & _ & _ & _ & F11 & _).
    destruct Hq as [Hq|Hq].
    - apply Hq. destruct F11 as [->|(_ & my & G1 & _)]; [apply Hmd|apply G1].
    - destruct F11 as [F11|(Nx & _)]; [apply (Hk d Hd); congruence|]. apply Nx. left. cbn. congruence. }
  assert (nmn : forall q, owner_of L q <> program_id e -> ~ In q (map d_mining l)).
  { intros q Hq Hin. apply in_map_iff in Hin as (d & <- & Hd). destruct (Hl d (or_intror Hd)) as (md & Hmd & _). apply Hq, Hmd. }
  assert (nto : forall q, owner_of L q <> spl_token_id e -> ~ In q (map d_to l)).
  { intros q Hq Hin. apply in_map_iff in Hin as (d & <- & Hd).
    destruct (Hl d (or_intror Hd)) as (md & _ & _ & _ & _ & _ & (td & Htd & _) & _). apply Hq, Htd. }
  assert (ntg : forall q, owner_of L q <> system_id -> ~ In q (map d_target l)).
  { intros q Hq Hin. apply in_map_iff in Hin as (d & <- & Hd).
    destruct (Hl d (or_intror Hd)) as (md & _ & _ & _ & _ & _ & _ & _ & _ & _ & F12 & _). apply Hq, F12. }
  split.
  { constructor.
    - exists m. split; [exact Hm|]. split; [exact Er|]. cbn [d_to d_mining].
      split.
      + rewrite <- BT. unfold balance, data_of. rewrite E8; [reflexivity| | | | | |]; try congruence.
        * apply nmn. congruence. * apply ndm. left. congruence. * apply ntg. congruence.
      + rewrite E8; [exact AK| | | | | |]; try congruence.
        * intros ->. destruct HVp as [_ Ev], Hm as [[_ Ed] _]. congruence.
        * apply nto. congruence.
        * apply ndm. right. reflexivity.
        * apply ntg. congruence.
    - apply (Forall2_in (has_left e ts P w1 L3 L')); [|exact E2]. intros d y Hd (md & Hmd & K1 & K2 & K3).
      destruct (Hl d (or_intror Hd)) as (mo & Hmo & _ & _ & _ & _ & (td & Htd & _ & _ & F7 & _) & _).
      pose proof (Fm _ _ Hmo (Hk d Hd) (Hxk d Hd)) as Am. pose proof (Ft _ _ Htd F7 (HT d Hd)) as At.
      exists md. split; [unfold mining_in, is_mining, owner_of, data_of in *; rewrite Am in Hmd; exact Hmd|].
      split; [congruence|]. split; [|exact K3]. rewrite K2. unfold balance, data_of. rewrite At. reflexivity. }
  split; [cbn [zsum]; rewrite E3, BV; lia|]. split.
  { intros t Ht. unfold refund. cbn [map zsum d_target d_mining]. fold (refund L t l).
    assert (Ot : owner_of L t = system_id).
    { destruct Ht as [<-|Ht]; [exact Htg|]. apply in_map_iff in Ht as (d & <- & Hd).
      destruct (Hl d (or_intror Hd)) as (md & _ & _ & _ & _ & _ & _ & _ & _ & _ & F12 & _). exact F12. }
    assert (A : lamports_of L3 t = lamports_of L t + if target =? t then lamports_of L k else 0).
    { destruct (Z.eqb_spec target t) as [<-|Ne]; [exact LT|]. unfold lamports_of. rewrite Fs by congruence. lia. }
    destruct (in_dec Z.eq_dec t (map d_target l)) as [Hi|Hi].
    - rewrite (E4 t Hi), A, Erf. lia.
    - rewrite (refund_none L t l Hi). unfold lamports_of at 1. rewrite E8; try assumption; try congruence.
      + fold (lamports_of L3 t). rewrite A. lia.
      + apply nto. congruence. + apply nmn. congruence. + apply ndm. left. congruence. }
  split; [exact E5|]. split.
  { destruct E6 as (V1 & V2 & V3 & V4 & V5 & V6 & V7 & V8 & V9 & V10).
    split; [congruence|]. split; [congruence|]. split; [congruence|]. split; [congruence|]. split; [congruence|]. split; [congruence|].
    split; [congruence|]. split; [congruence|]. split; congruence. }
  split.
  { intros d Hd. rewrite E7, Tot by assumption. unfold leaving. cbn [map zsum d_stake d_dm d_mining]. lia. }
  split.
  { intros q N1 N2 N3 N4 N5 N6. cbn [map In d_to d_mining d_dm d_target] in N3, N4, N5, N6.
    rewrite E8 by tauto. apply Frame; try assumption; intros ->; tauto. }
  split.
  { intros q mq Hq. destruct (E10 q mq Hq) as [Nq (m3 & Hq3)].
    assert (Nqk : q <> k).
    { intros ->. destruct Hq3 as [[_ D3] P3]. unfold data_of in D3. rewrite AK in D3. cbn in D3. injection D3 as <-. cbn in P3. congruence. }
    split; [intros [H|H]; [apply Nqk; symmetry; exact H|exact (Nq H)]|].
    destruct (Z.eq_dec q x) as [->|Nqx]; [destruct HX as [?|(_ & H & _)]; [congruence|exists mx; exact H]|].
    exists m3. destruct Hq3 as [[O3 D3] P3]. split; [|exact P3]. unfold is_mining, owner_of, data_of in *.
    rewrite <- Frame; [auto|..]; try assumption.
    - intros ->. destruct HV3 as [[_ D4] _]. unfold data_of in D4. congruence.
    - intros ->. destruct (orderly_core e Henv Hinj Hrent P HP disciplined disciplined_donate disciplined_init _ _ _ _ HO3 HV3) as [tv3 HA].
      destruct HA as [_ _ _ [E _] _ _ _]. unfold owner_of in E. congruence.
    - intros ->. congruence.
    - intros ->. congruence. }
  intros _. destruct l; [cbn in E1; injection E1 as <- _; exact HO3|apply E9; discriminate].
Qed.

(** ** The pool when all have left *)
Lemma unlocked_expired ts d m :
  (forall x v, In (x, v) (wm_diffs m) -> x <= day_start ts) -> day_start ts <= d -> m_sfo (wm m) = 0 ->
  eff m d = unlocked_stake m.
Proof.
  intros H Hd Hs. unfold eff, unlocked_stake. rewrite Hs, (all_due d) by (intros k v Hin; specialize (H k v Hin); lia). lia.
Qed.

Lemma all_leave l now ts L V w :
  orderly e P exact_disciplined now L -> pool_vault e L P V w -> now <= ts -> is_u64 ts ->
  owner_of L (p_mint (wp w)) = spl_token_id e -> p_deposit_auth (wp w) <> system_id ->
  List.NoDup (map d_mining l) -> List.NoDup (map d_to l) ->
  (forall d, In d l -> may_leave e L P V w l d) ->
  (forall k m, mining_in e L P k m -> exists d, In d l /\ d_mining d = k /\ d_dm d = k /\ d_stake d = unlocked_stake m /\
     forall x v, In (x, v) (wm_diffs m) -> x <= day_start ts) ->
  exists L' xs w', departures e ts P (p_mint (wp w)) V (p_deposit_auth (wp w)) l L = Ok (L', xs) /\
    Forall2 (has_left e ts P w L L') l xs /\
    pool_vault e L' P V w' /\ (forall k m, ~ mining_in e L' P k m) /\
    (forall d, day_start ts <= d -> p_total (wp w') - due d (wp_diffs w') = 0) /\
    p_avail (wp w') = p_avail (wp w) /\ p_avail (wp w) <= balance L' V /\ balance L' V = balance L V - zsum xs.
Proof.
  intros HO HV Hts Hu Hmint Hauth Hnd Hnt Hl Hall.
  pose proof (orderly_weaker exact_disciplined disciplined now L (fun _ _ _ H => proj1 H) HO) as HO'.
  destruct (wind_up l now ts L V w HO' HV Hts Hu Hmint Hauth Hnd Hnt Hl)
    as (L' & xs & w' & E1 & E2 & E3 & _ & E5 & E6 & E7 & _ & E10 & E9).
  exists L', xs, w'. split; [exact E1|]. split; [exact E2|]. split; [exact E5|].
  split.
  { intros k m Hm. destruct (E10 k m Hm) as [Nk (m0 & Hm0)]. destruct (Hall k m0 Hm0) as (d & Hd & <- & _). apply Nk. apply in_map. exact Hd. }
  assert (Hn : 0 <= now) by (exact (orderly_time e Henv Hinj Hrent P HP disciplined disciplined_donate disciplined_init _ _ HO')).
  split.
  { intros d Hd. rewrite (E7 d Hd).
    set (g := fun x => (d_mining x, match data_of L (d_mining x) with DMining m => m | _ => zero_wmining end)).
    assert (Hg : forall x, In x l -> exists m, g x = (d_mining x, m) /\ mining_in e L P (d_mining x) m).
    { intros x Hx. destruct (Hl x Hx) as (m & Hm & _). exists m. split; [|exact Hm]. unfold g. destruct Hm as [[_ ->] _]. reflexivity. }
    rewrite <- (shares_exact e Henv Hinj Hrent P now L V w d (map g l) HP HO HV).
    - assert (E : zsum (map (fun x => eff (snd x) d) (map g l)) = leaving l); [|lia]. rewrite List.map_map. unfold leaving. f_equal.
      apply List.map_ext_in. intros x Hx. destruct (Hg x Hx) as (m & Eg & Hm). rewrite Eg. cbn [snd].
      destruct (Hall _ _ Hm) as (y & Hy & Ky & Dy & Sy & By).
      assert (y = x).
      { clear -Hnd Hx Hy Ky. induction l as [|z l IH]; [destruct Hx|]. cbn [map] in Hnd. apply List.NoDup_cons_iff in Hnd as [N1 N2].
        destruct Hx as [->|Hx], Hy as [->|Hy]; [reflexivity| | |auto]; exfalso; apply N1; [rewrite <- Ky|rewrite Ky]; apply in_map; assumption. }
      subst y. destruct (Hl x Hx) as (m1 & [[_ D1] _] & _ & _ & _ & _ & _ & S1 & _).
      assert (m1 = m) by (destruct Hm as [[_ ?] _]; congruence). subst m1.
      rewrite (unlocked_expired ts d m By Hd S1), Sy. unfold if_other. rewrite Dy, Z.eqb_refl. lia.
    - assert (day_start now <= day_start ts) by (unfold day_start; pose proof (Z.div_le_mono now ts 86400 ltac:(lia) Hts); nia). lia.
    - split.
      + rewrite List.map_map. exact Hnd.
      + intros k m. split.
        * intros Hin. apply in_map_iff in Hin as (x & Ex & Hx). destruct (Hg x Hx) as (m1 & E & Hm). rewrite E in Ex. injection Ex as <- <-. exact Hm.
        * intros Hm. destruct (Hall k m Hm) as (x & Hx & <- & _). destruct (Hg x Hx) as (m1 & E & Hm1).
          assert (m1 = m) by (destruct Hm as [[_ ?] _], Hm1 as [[_ ?] _]; congruence). subst m1. rewrite <- E. apply in_map. exact Hx. }
  destruct E6 as (_ & _ & _ & _ & _ & _ & Ea & _). split; [exact Ea|]. split; [|exact E3]. rewrite <- Ea.
  destruct l as [|d l].
  - cbn in E1. injection E1 as <- <-.
    pose proof (solvent_returns e Henv Hinj Hrent P HP disciplined disciplined_donate disciplined_init (fun _ _ _ H => H) now ts L V w' []
      HO' E5 Hts (List.NoDup_nil _) (fun _ _ H => match H with end)) as S. cbn in S. lia.
  - pose proof (solvent_returns e Henv Hinj Hrent P HP disciplined disciplined_donate disciplined_init (fun _ _ _ H => H) ts ts L' V w' []
      (E9 ltac:(discriminate)) E5 (Z.le_refl _) (List.NoDup_nil _) (fun _ _ H => match H with end)) as S. cbn in S. lia.
Qed.
End env.
