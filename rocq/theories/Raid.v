(** Proof of C80: a stake of one second collects the pool's whole past. *)
From stdpp Require Import gmap.
From Verif Require Import Base OMap State Spec EffectSpec Ledger Program Clients ResLemmas TreeLemmas AccrualLemmas RefreshLemmas WfLemmas LedgerLemmas LedgerSpec
  CodecLemmas History HistoryLemmas Changes AccessLemmas HistoryThms ReachThms EffectLemmas EffectMethods EffectThms EffectMore
  SuccessSpec SuccessThms LedgerCore Determined Commute Worth CompleteSpec Complete ChoiceSpec Choice PowerSpec Powers BackSpec TakenBack
  FreezeSpec Freeze Anybody RaidSpec.

Lemma at_fits d t : values is_u64 t -> fits (at_date d t).
Proof.
  induction t as [|[k x] r IH]; intros H; cbn; [lia|]. pose proof (H k x (or_introl eq_refl)) as Hx. unfold is_u64, U64 in Hx.
  destruct (_ =? _); [lia|]. apply IH. intros d' x' Hi. exact (H d' x' (or_intror Hi)).
Qed.
Lemma none_upto b t : dates (fun d => b < d) t -> upto b t = [].
Proof.
  intros H. induction t as [|[d v] r IH]; [reflexivity|]. cbn. rewrite (proj2 (Z.leb_gt _ _) (H d v (or_introl eq_refl))).
  apply IH. intros d' v' Hi. exact (H d' v' (or_intror Hi)).
Qed.
Lemma none_due b t : dates (fun d => b < d) t -> due b t = 0.
Proof.
  intros H. induction t as [|[d v] r IH]; [reflexivity|]. cbn. rewrite (proj2 (Z.leb_gt _ _) (H d v (or_introl eq_refl))).
  apply IH. intros d' v' Hi. exact (H d' v' (or_intror Hi)).
Qed.
(** a mining that has seen everything can be refreshed, and keeps its tokens *)
Lemma current_tokens ts ci m : m_index (wm m) = visible ts ci -> dates (fun d => day_start ts < d) (wm_diffs m) ->
  tokens_at ts ci m = m_unclaimed (wm m).
Proof.
  intros H1 H2. unfold tokens_at. rewrite (none_upto _ _ H2). cbn [earned]. rewrite H1, Z.sub_diag, Z.mul_0_l, Z.div_0_l by lia. lia.
Qed.
Lemma current_can ts ci m : m_index (wm m) = visible ts ci -> dates (fun d => day_start ts < d) (wm_diffs m) ->
  fits (m_share (wm m) + m_sfo (wm m)) -> 0 <= m_share (wm m) -> fits (m_unclaimed (wm m)) -> can_refresh ts ci m.
Proof.
  intros H1 H2 H3 H4 H5. constructor; [exact H3|rewrite (none_due _ _ H2); exact H4|lia| |rewrite current_tokens; assumption].
  intros d v Hi Hd. specialize (H2 d v Hi). cbn in H2. lia.
Qed.

Section env.
Context (e : env) (Henv : env_ok e) (Hinj : env_inj e).

Lemma call_ok' now ts ms i L :
  reached e now L -> now <= ts -> is_u64 ts -> ix_in_range i ->
  (forall n k, In n (may_change i) -> account_at ms n k -> writable ms k) -> allowed e ts ms i L ->
  exists L1 r, exec e ts ms i L = Ok (L1, r) /\ step e now L (EvIx ts ms i) L1 /\ effect e ts ms i L L1 r /\ reached e ts L1.
Proof.
  intros HR Hts Hu Hi Hw HA. apply (succeeds_iff e Henv now ts ms i L HR Hts Hi Hw) in HA as [[L1 r] X].
  exists L1, r. split; [exact X|]. split; [apply (step_ix e now L ts ms i L1 r); assumption|].
  split; [eapply exec_effect; eassumption|eapply reached_exec; eassumption].
Qed.

Ltac apart := let E := fresh in unfold far; intros E; congruence.
Ltac afar := solve [assumption | apply far_sym; assumption].
Ltac look := repeat (rewrite Z.eqb_refl || match goal with |- context [?a =? ?b] => rewrite (far_eqb a b) by afar end).
Ltac within := cbn [In]; repeat (first [left; reflexivity | right]).
Ltac held m := exists m; split; [solve [within]|split; reflexivity].
Ltac sig := match goal with |- signed _ ?k => first [held (mw k true) | held (mr k true)] end.
Ltac wr := let n := fresh in let q := fresh in let Hn := fresh in let Hq := fresh in
  intros n q Hn Hq; cbn in Hn; repeat (destruct Hn as [<-|Hn]); try contradiction Hn; cbn in Hq; injection Hq as <-;
  match goal with |- writable _ ?k => first [held (mw k false) | held (mw k true)] end.
Ltac same := exists []; reflexivity.

Lemma raid_full now ts L P w mint V v O k mk W j B D t a :
  reached e now L -> now <= ts -> is_u64 ts -> fits (expiry LFlex ts) ->
  raid e ts L P w mint V v O k mk W j B D t a ->
  exists L', History.run e now L (four_calls e ts (p_deposit_auth (wp w)) P mint V O k W j B D a) ts L' /\
    data_of L' V = DToken (Token (t_mint v) (t_owner v) (t_amount v - whole_past ts w a)) /\
    data_of L' D = DToken (Token (t_mint t) (t_owner t) (t_amount t + whole_past ts w a)) /\
    exists w' m' n', is_pool e L' P w' /\ only_expired ts w w' /\ is_mining e L' k m' /\ only_updated ts (wp_ci w) mk m' /\
      is_mining e L' j n' /\ m_share (wm n') = 0 /\ m_sfo (wm n') = 0 /\ m_unclaimed (wm n') = 0 /\
    dates (fun d => day_start ts < d) (wp_diffs w') /\ dates (fun d => day_start ts < d) (wm_diffs m') /\
    reached e ts L' /\ owner_of L' V = owner_of L V /\ owner_of L' D = owner_of L D /\
    acc L' B = having (acc L B) (lamports_of L B - rent_min e 1776) /\
    forall q, q <> P -> q <> k -> q <> V -> q <> j -> q <> B -> q <> D -> acc L' q = acc L q.
Proof.
  intros HR Hts Hu Hexp [PW MO (CV & VO & VD & VA) (KM & KO & KP & KC) CR (JF & JL & JO & JD) (BO & BD & BL & BJ) (DO & DD & DA & DM & VDn) (KeyO & KeyW) A0 (R1 & R2) DU ((Y0 & Y1) & Y2)].
  pose proof (eo_sys _ Henv) as E1. pose proof (eo_tok _ Henv) as E2. pose proof (eo_toksys _ Henv) as E3.
  destruct PW as [PO PD]. destruct KM as [KOw KD].
  destruct (find_mining e W P) as [j0 bj] eqn:FJ. cbn in JF. subst j0.
  destruct (eo_mining _ Henv _ _ _ _ FJ) as [CJ Bj].
  fold (far B j) in BJ. fold (far V D) in VDn. set (A := p_deposit_auth (wp w)) in *. set (y := whole_past ts w a) in *.
  assert (JP : far j P) by apart. assert (JK : far j k) by apart. assert (JV : far j V) by apart. assert (JDd : far j D) by apart.
  assert (JM : far j mint) by apart. assert (PK : far P k) by apart. assert (PV : far P V) by apart. assert (PDd : far P D) by apart.
  assert (PM : far P mint) by apart. assert (KV : far k V) by apart. assert (KDd : far k D) by apart. assert (KMt : far k mint) by apart.
  assert (BP : far B P) by apart. assert (BK : far B k) by apart. assert (BV : far B V) by apart. assert (BDd : far B D) by apart.
  assert (BM : far B mint) by apart.
  destruct (reached_ok e Henv _ _ HR) as (HL & _ & Hn0).
  pose proof (ok_pool e now L P w HL PO PD) as WP. pose proof (ok_mining e _ _ _ _ HL KOw KD) as WK.
  pose proof (pw_total _ _ WP) as Wt. pose proof (mw_sfo _ WK) as Ws. pose proof (mw_share _ WK) as Wsh. unfold is_u64, U64 in Wt, Ws, Wsh.
  pose proof (cr_due _ _ _ CR) as CRd.
  assert (Ia : is_u64 a). { unfold is_u64, U64. lia. }
  assert (Vis0 : 0 <= visible ts (wp_ci w)).
  { pose proof (visible_u128 now w ts WP) as G. unfold is_u128 in G. lia. }
  (* the new mining *)
  edestruct (call_ok' now ts (fst (b_initialize_mining P j B W)) (InitializeMining W) L HR Hts Hu)
    as (L1 & r1 & X1 & S1 & F1 & HR1).
  { exact KeyW. } { wr. }
  { cbn [allowed]. exists P, j, B. split; [same|]. split; [exact PO|]. rewrite FJ. split; [reflexivity|].
    split; [split; [exact JL|]; split; [exact JO|exact JD]|]. split; [|exact BJ].
    split; [sig|]. split; [exact BO|]. split; [exact BD|exact BL]. }
  cbn [effect] in F1. destruct F1 as (p1 & q1 & pa1 & b1 & [rs1 Hms1] & FJ1 & _ & B1).
  cbn in Hms1. injection Hms1 as <- <- <- _. rewrite FJ in FJ1. injection FJ1 as <-.
  pose (mj := WMining (Mining P W 0 0 0 0 0 bj 2) []).
  assert (J1 : is_mining e L1 j mj).
  { unfold is_mining, owner_of, data_of in *. rewrite B1. cbn [listed]. look. cbn. auto. }
  assert (O1 : forall q, far q j -> far q B -> acc L1 q = acc L q).
  { intros q ? ?. rewrite B1. cbn [listed]. look. reflexivity. }
  assert (B1' : acc L1 B = having (acc L B) (lamports_of L B - rent_min e 1776)).
  { rewrite B1. cbn [listed]. look. reflexivity. }
  clear B1.
  assert (P1 : is_pool e L1 P w) by (unfold is_pool, owner_of, data_of in *; rewrite O1 by afar; auto).
  assert (K1 : is_mining e L1 k mk) by (unfold is_mining, owner_of, data_of in *; rewrite O1 by afar; auto).
  assert (Up0 : tokens_at ts (wp_ci w) (with_delegated mj (m_sfo (wm mj) + a)) = y).
  { unfold tokens_at, y, whole_past. cbn [with_delegated mj wm wm_diffs m_index m_sfo m_share m_unclaimed upto filter earned].
    rewrite !Z.add_0_l, Z.sub_0_r. reflexivity. }
  (* the deposit *)
  assert (Yf : fits y). { pose proof (ok_token e now L V v HL VD) as Hv. unfold is_u64, U64 in Hv. lia. }
  edestruct (call_ok' ts ts (fst (b_deposit P k A j a LFlex O W)) (DepositMining a LFlex O W) L1 HR1 (Z.le_refl _) Hu)
    as (L2 & r2 & X2 & S2 & F2 & HR2).
  { split; [exact Ia|]. split; assumption. } { wr. }
  { cbn [allowed]. exists P, k, A, j, w, mk, (Some mj). split; [same|]. split.
    { constructor; try assumption; try reflexivity. sig. }
    split. { split; [right; split; [exact JK|]; exists mj; auto|exact CJ]. }
    unfold can_deposit. change (weight_of LFlex) with 1. rewrite Z.mul_1_r, Z.mul_0_r, !Z.add_0_r.
    split; [discriminate|]. split; [exact CR|]. unfold share_at in *.
    split; [lia|]. split; [lia|]. split; [lia|]. split; [exact Hexp|].
    split; [apply at_fits, WP|]. split; [apply at_fits, WK|].
    cbn [can_join]. cbn [mj wm m_sfo]. split; [lia|]. split; [lia|].
    constructor; cbn [with_delegated wm wm_diffs m_index m_sfo m_share m_unclaimed mj due]; [lia|lia|lia|intros ? ? []|].
    change (fits (tokens_at ts (wp_ci w) (with_delegated mj (m_sfo (wm mj) + a)))). rewrite Up0. exact Yf. }
  cbn [effect] in F2. destruct F2 as (p2 & q2 & au2 & dm2 & w2 & m2 & d2 & w2' & m2' & d2' & [rs2 Hms2] & Hw2 & Hm2 & Hd2 & D2 & _ & B2).
  cbn in Hms2. injection Hms2 as <- <- <- <- _.
  rewrite (pool_fun e _ _ _ _ Hw2 P1), (mining_fun e _ _ _ _ Hm2 K1) in *. clear Hw2 Hm2 w2 m2.
  destruct Hd2 as [[Hc _]|(_ & x2 & Hx2 & ->)]; [destruct (JK Hc)|]. rewrite (mining_fun e _ _ _ _ Hx2 J1) in *. clear Hx2 x2.
  destruct D2 as ((m1 & Rf & Os & Sh & Sc & As) & Ot & Tt & Sp & Ap & Dg). destruct d2' as [x2|]; [|contradiction Dg]. cbn [delegated] in Dg.
  change (weight_of LFlex) with 1 in *. rewrite Z.mul_0_r, Z.mul_1_r in *. cbn [for_delegate delegate_now] in *.
  assert (P2 : is_pool e L2 P w2').
  { unfold is_pool, owner_of, data_of in *. rewrite B2. cbn [listed pool_now mining_now]. look. cbn. split; [apply P1|reflexivity]. }
  assert (K2 : is_mining e L2 k m2').
  { unfold is_mining, owner_of, data_of in *. rewrite B2. cbn [listed pool_now mining_now]. look. cbn. split; [apply K1|reflexivity]. }
  assert (J2 : is_mining e L2 j x2).
  { unfold is_mining, owner_of, data_of in *. rewrite B2. cbn [listed pool_now mining_now]. look. cbn. split; [apply J1|reflexivity]. }
  clear B2.
  pose proof (expiry_later LFlex ts ltac:(discriminate)) as Hex.
  assert (Dm : dates (fun d => day_start ts < d) (wm_diffs m2')).
  { eapply scheduled_dates; [exact Sc| |exact Hex]. rewrite (rf_diffs _ _ _ _ Rf). apply dates_after. }
  assert (Dx : wm_diffs x2 = []) by (rewrite (rf_diffs _ _ _ _ Dg); reflexivity).
  pose proof (rf_unclaimed _ _ _ _ Dg) as Ux. fold (tokens_at ts (wp_ci w) (with_delegated mj (m_sfo (wm mj) + a))) in Ux. rewrite Up0 in Ux.
  pose proof (rf_share _ _ _ _ Dg) as Sx. pose proof (rf_sfo _ _ _ _ Dg) as Fx. pose proof (rf_index _ _ _ _ Dg) as Ix.
  destruct (rf_same _ _ _ _ Dg) as (Gx1 & Gx2 & Gx3 & Gx4 & Gx5).
  cbn [with_delegated mj wm wm_diffs m_sfo m_share m_pool m_owner m_bump m_type due] in Sx, Fx, Gx1, Gx2, Gx4, Gx5.
  assert (Due2 : due (day_start ts) (wp_diffs w2') = due (day_start ts) (wp_diffs w)).
  { eapply scheduled_due; [exact (pool_asc e Henv _ _ _ _ HR1 P1)|exact Ap|exact Hex|exact Sp]. }
  pose proof Ot as (T1 & T2 & T3 & T4 & T5 & T6 & T7 & T8 & T9 & T10).
  pose proof (rf_index _ _ _ _ Rf) as Ik. pose proof (rf_unclaimed _ _ _ _ Rf) as Uk. pose proof (rf_share _ _ _ _ Rf) as Rk.
  pose proof (rf_sfo _ _ _ _ Rf) as Fk. destruct (rf_same _ _ _ _ Rf) as (Gk1 & Gk2 & Gk3 & Gk4 & Gk5).
  pose proof Os as ((Ob1 & Ob2 & Ob3 & Ob4 & Ob5) & Oi & Ou & Of).
  pose proof (cr_tokens _ _ _ CR) as CT. unfold tokens_at in CT.
  (* the withdrawal *)
  edestruct (call_ok' ts ts (fst (b_withdraw P k A j a O W)) (WithdrawMining a O W) L2 HR2 (Z.le_refl _) Hu)
    as (L3 & r3 & X3 & S3 & F3 & HR3).
  { split; [exact Ia|]. split; assumption. } { wr. }
  { cbn [allowed]. exists P, k, A, j, w2', m2', (Some x2). split; [same|]. split.
    { constructor; try assumption; try congruence. sig. }
    split. { split; [right; split; [exact JK|]; exists x2; auto|]. rewrite Gx4. exact CJ. }
    unfold can_withdraw. rewrite T10, Due2, Tt. unfold share_at in *. rewrite (none_due _ _ Dm), Sh, Rk.
    split. { apply current_can; [congruence|exact Dm|rewrite Sh, Rk, Of, Fk; lia|rewrite Sh, Rk; lia|rewrite Ou, Uk; exact CT]. }
    split; [lia|]. split; [lia|]. cbn [can_leave]. rewrite Fx. split; [lia|]. split; [lia|].
    apply current_can; cbn [with_delegated wm wm_diffs m_index m_sfo m_share m_unclaimed]; [exact Ix|rewrite Dx; intros ? ? []|lia|lia|].
    rewrite Ux. exact Yf. }
  destruct (deposit_withdraw e Henv ts ts _ _ a O W O W L1 L2 L3 r2 r3 P k j HR1 (Z.le_refl _) Hu ltac:(split; [exact Ia|]; split; assumption)
    X2 X3 eq_refl eq_refl eq_refl eq_refl eq_refl eq_refl) as (w0 & m0 & w3 & m3 & Hw0 & Hm0 & P3 & K3 & OE & OU & DE).
  rewrite (pool_fun e _ _ _ _ Hw0 P1), (mining_fun e _ _ _ _ Hm0 K1) in *. clear Hw0 Hm0 w0 m0.
  destruct DE as [DE|(_ & x0 & x3 & Hx0 & J3 & CW & _)]; [destruct (JK DE)|].
  rewrite (mining_fun e _ _ _ _ Hx0 J1) in *. clear Hx0 x0.
  assert (Fresh : dates (fun d => day_start ts < d) (wp_diffs w3) /\ dates (fun d => day_start ts < d) (wm_diffs m3)).
  { cbn [effect] in F3. destruct F3 as (p3 & q3 & au3 & dm3 & wa & ma & da & wb & mb & db & [rs3 Hms3] & Hwa & Hma & _ & Wd & _ & B3).
    cbn in Hms3. injection Hms3 as <- <- <- <- _. destruct Wd as ((mm & Rm & _ & _ & Dmm) & _ & _ & Dww & _).
    assert (Hwb : is_pool e L3 P wb).
    { unfold is_pool, owner_of, data_of in *. rewrite B3. cbn [listed pool_now mining_now]. look. cbn. split; [apply P2|reflexivity]. }
    assert (Hmb : is_mining e L3 k mb).
    { unfold is_mining, owner_of, data_of in *. rewrite B3. cbn [listed pool_now mining_now]. look. cbn. split; [apply K2|reflexivity]. }
    rewrite <- (pool_fun e _ _ _ _ Hwb P3), <- (mining_fun e _ _ _ _ Hmb K3), Dww, Dmm, (rf_diffs _ _ _ _ Rm). split; apply dates_after. }
  pose proof (stake_untouched e ts _ _ (DepositMining a LFlex O W) (WithdrawMining a O W) L1 L2 L3 r2 r3 P k j eq_refl eq_refl X2 X3 eq_refl eq_refl eq_refl eq_refl eq_refl eq_refl) as O3.
  assert (O3' : forall q, far q P -> far q k -> far q j -> far q B -> acc L3 q = acc L q).
  { intros q H1 H2 H3 H4. rewrite O3; [apply O1; assumption|]. intros [H|[H|[H|[]]]]; [apply H1|apply H2|apply H3]; congruence. }
  destruct CW as [(Cs1 & Cs2 & Cs3 & Cs4 & Cs5) Cf Csh Cix Ct Cd]. rewrite Up0 in Ct.
  cbn [mj wm wm_diffs m_sfo m_pool m_owner m_bump m_type] in Cf, Cs1, Cs2, Cs4, Cs5. change (wm_diffs x3 = []) in Cd.
  assert (Cs0 : m_share (wm x3) = 0) by (rewrite Csh; reflexivity).
  pose proof OE as ((U1 & U2 & U3 & U4 & U5 & U6 & U7 & U8 & U9 & U10) & _).
  assert (Tk : tokens_at ts (wp_ci w) x3 = y).
  { rewrite current_tokens; [exact Ct|exact Cix|rewrite Cd; intros ? ? []]. }
  (* the claim *)
  edestruct (call_ok' ts ts (fst (b_claim e P mint V j W A D)) Claim L3 HR3 (Z.le_refl _) Hu)
    as (L4 & r4 & X4 & S4 & F4 & HR4).
  { exact I. } { wr. }
  { cbn [allowed]. exists P, mint, V, j, W, A, D, w3, x3, t. split; [same|].
    unfold owner_of, data_of, can_send in *. rewrite (O3' mint), (O3' V), (O3' D) by afar. rewrite U10, U8.
    split; [exact P3|]. split; [exact J3|]. split; [exact MO|]. split; [exact VO|]. split; [exact DO|]. split; [exact DD|].
    split; [exact DA|]. split; [sig|]. split; [sig|]. split; [exact U1|]. split; [exact Cs2|]. split; [exact Cs1|]. split; [exact CV|].
    split. { apply current_can; [exact Cix|rewrite Cd; intros ? ? []|rewrite Cs0, Cf; lia|rewrite Cs0; lia|rewrite Ct; exact Yf]. }
    intros _. rewrite Tk. exists v, t. unfold data_of. rewrite (O3' V), (O3' D) by afar. split; [exact VD|]. split; [exact DD|].
    split; [exact VA|]. split; [exact DM|]. split; [exact Y1|]. intros _. exact Y2. }
  cbn [effect] in F4. destruct F4 as (p4 & mi4 & v4 & q4 & o4 & au4 & de4 & w4 & m4 & m4' & [rs4 Hms4] & Hw4 & Hm4 & Rf4 & _ & B4).
  cbn in Hms4. injection Hms4 as <- <- <- <- <- <- <- _.
  rewrite (pool_fun e _ _ _ _ Hw4 P3), (mining_fun e _ _ _ _ Hm4 J3) in *. clear Hw4 Hm4 w4 m4.
  pose proof (rf_unclaimed _ _ _ _ Rf4) as U4'. rewrite U10 in U4'. fold (tokens_at ts (wp_ci w) x3) in U4'. rewrite Tk in U4'.
  destruct B4 as [[Bz _]|(_ & v4 & t4 & Hv4 & Ht4 & B4)]; [lia|].
  unfold data_of in Hv4, Ht4. rewrite O3' in Hv4, Ht4 by afar. unfold data_of in VD, DD. rewrite VD in Hv4. rewrite DD in Ht4.
  injection Hv4 as <-. injection Ht4 as <-. rewrite U4' in B4. unfold tokens_now in B4. rewrite (far_eqb V D) in B4 by afar.
  exists L4. split.
  { unfold four_calls. econstructor; [exact S1|]. econstructor; [exact S2|]. econstructor; [exact S3|]. econstructor; [exact S4|apply run_nil]. }
  split. { unfold data_of. rewrite B4. cbn [listed mining_now]. look. reflexivity. }
  split. { unfold data_of. rewrite B4. cbn [listed mining_now]. look. reflexivity. }
  exists w3, m3, (emptied m4').
  split. { unfold is_pool, owner_of, data_of in *. rewrite B4. cbn [listed mining_now]. look. exact P3. }
  split; [exact OE|].
  split. { unfold is_mining, owner_of, data_of in *. rewrite B4. cbn [listed mining_now]. look. exact K3. }
  split; [exact OU|].
  split. { unfold is_mining, owner_of, data_of in *. rewrite B4. cbn [listed mining_now]. look. cbn. split; [apply J3|reflexivity]. }
  cbn [emptied wm m_share m_sfo m_unclaimed]. rewrite (rf_share _ _ _ _ Rf4), (rf_sfo _ _ _ _ Rf4), Cs0, Cd, Cf.
  split; [reflexivity|]. split; [reflexivity|]. split; [reflexivity|]. split; [apply Fresh|]. split; [apply Fresh|]. split; [exact HR4|].
  split. { unfold owner_of. rewrite B4. cbn [listed mining_now]. look. cbn. rewrite (O3' V) by afar. reflexivity. }
  split. { unfold owner_of. rewrite B4. cbn [listed mining_now]. look. cbn. rewrite (O3' D) by afar. reflexivity. }
  split. { rewrite B4. cbn [listed mining_now]. look. rewrite O3; [exact B1'|]. intros [H|[H|[H|[]]]]; [apply BP|apply BK|apply BJ]; congruence. }
  intros q N1 N2 N3 N4 N5 N6. fold (far q P) in N1. fold (far q k) in N2. fold (far q V) in N3. fold (far q j) in N4. fold (far q B) in N5. fold (far q D) in N6.
  rewrite B4. cbn [listed mining_now]. look. apply O3'; assumption.
Qed.

Lemma raid_pays now ts L P w mint V v O k mk W j B D t a :
  reached e now L -> now <= ts -> is_u64 ts -> fits (expiry LFlex ts) ->
  raid e ts L P w mint V v O k mk W j B D t a ->
  exists L', History.run e now L (four_calls e ts (p_deposit_auth (wp w)) P mint V O k W j B D a) ts L' /\
    data_of L' V = DToken (Token (t_mint v) (t_owner v) (t_amount v - whole_past ts w a)) /\
    data_of L' D = DToken (Token (t_mint t) (t_owner t) (t_amount t + whole_past ts w a)) /\
    exists w' m' n', is_pool e L' P w' /\ only_expired ts w w' /\ is_mining e L' k m' /\ only_updated ts (wp_ci w) mk m' /\
      is_mining e L' j n' /\ m_share (wm n') = 0 /\ m_sfo (wm n') = 0 /\ m_unclaimed (wm n') = 0.
Proof.
  intros HR Hts Hu Hexp R. destruct (raid_full now ts L P w mint V v O k mk W j B D t a HR Hts Hu Hexp R)
    as (L' & H1 & H2 & H3 & w' & m' & n' & H4 & H5 & H6 & H7 & H8 & H9 & H10 & H11 & _).
  exists L'. do 3 (split; [assumption|]). exists w', m', n'. do 7 (split; [assumption|]). assumption.
Qed.

Lemma run_then now L es mid L1 fs fin L2 : History.run e now L es mid L1 -> History.run e mid L1 fs fin L2 ->
  History.run e now L (es ++ fs) fin L2.
Proof. intros H. revert fs fin L2. induction H as [|now L ev L1 es fin L' S R IH]; intros fs fin2 L2 H2; cbn; [exact H2|]. econstructor; [exact S|]. apply IH. exact H2. Qed.

Lemma raids_pay ts P mint V O k B a l : is_u64 ts -> fits (expiry LFlex ts) -> forall now L w v mk,
  reached e now L -> now <= ts ->
  raids e ts L P w mint V v O k mk B a l ->
  exists L', History.run e now L (all_calls e ts (p_deposit_auth (wp w)) P mint V O k B a l) (match l with [] => now | _ => ts end) L' /\
    (l <> [] -> data_of L' V = DToken (Token (t_mint v) (t_owner v) (t_amount v - Z.of_nat (length l) * whole_past ts w a))) /\
    (forall x, In x l -> data_of L' (ac_purse x) =
       DToken (Token (t_mint (ac_tokens x)) (t_owner (ac_tokens x)) (t_amount (ac_tokens x) + whole_past ts w a))) /\
    forall q, owner_of L q = spl_token_id e -> q <> V -> (forall x, In x l -> q <> ac_purse x) -> acc L' q = acc L q.
Proof.
  intros Hu Hexp. induction l as [|x l IH]; intros now L w v mk HR Hts [Each NJ ND Rent Loot].
  - exists L. split; [apply run_nil|]. split; [congruence|]. split; [intros ? []|]. auto.
  - pose proof (Each x (or_introl eq_refl)) as R. cbn [map] in NJ, ND. apply List.NoDup_cons_iff in NJ as [NJ NJ'], ND as [ND ND'].
    destruct (raid_full now ts L P w mint V v O k mk _ _ B _ _ a HR Hts Hu Hexp R)
      as (L1 & H1 & H2 & H3 & w1 & m1 & n1 & H4 & OE & H6 & OU & H8 & _ & _ & _ & Fw & Fm & HR1 & HOV & HOD & HB & Frame).
    pose proof OE as ((U1 & U2 & U3 & U4 & U5 & U6 & U7 & U8 & U9 & U10) & UT & _).
    destruct OU as [(Os1 & Os2 & Os3 & Os4 & Os5) Osf Osh Oix Otk _].
    assert (WP : whole_past ts w1 a = whole_past ts w a) by (unfold whole_past; rewrite U10; reflexivity).
    pose proof (eo_sys _ Henv) as E1. pose proof (eo_tok _ Henv) as E2. pose proof (eo_toksys _ Henv) as E3. pose proof (eo_rent _ Henv 1776) as E4.
    destruct (reached_ok e Henv _ _ HR) as (HL & _ & Hn0). destruct (reached_ok e Henv _ _ HR1) as (HL1 & _ & _).
    set (y := whole_past ts w a) in *.
    destruct R as [[PO PD] MO (CV & VO & VD & VA) ([KOw KD] & KO & KP & KC) CR (JF & JL & JO & JD) (BO & BD & BL & BJ) (DO & DD & DA & DM & VDn) (KeyO & KeyW) A0 (R1 & R2) DU ((Y0 & Y1) & Y2)].
    pose proof (ok_pool e _ _ _ _ HL1 (proj1 H4) (proj2 H4)) as WP1. pose proof (pw_total _ _ WP1) as Wt. unfold is_u64, U64 in Wt.
    pose proof (ok_pool e _ _ _ _ HL PO PD) as WP0.
    pose proof (ok_mining e _ _ _ _ HL1 (proj1 H6) (proj2 H6)) as WM1. pose proof (mw_share _ WM1) as Ws. pose proof (mw_sfo _ WM1) as Wf. unfold is_u64, U64 in Ws, Wf.
    assert (Du0 : 0 <= due (day_start ts) (wp_diffs w)) by (apply due_bounds; intros d z Hi; pose proof (pw_diffs_vals _ _ WP0 d z Hi) as Hz; unfold is_u64 in Hz; cbn; lia).
    assert (Same : forall q, owner_of L q = spl_token_id e -> q <> V -> q <> ac_purse x -> acc L1 q = acc L q).
    { intros q Hq HV HD. apply Frame; try assumption; intros ->; congruence. }
    cbn [length] in Rent, Loot. rewrite Nat2Z.inj_succ, Z.mul_succ_l in Rent, Loot.
    destruct (IH ts L1 w1 (Token (t_mint v) (t_owner v) (t_amount v - y)) m1 HR1 (Z.le_refl _)) as (L' & G1 & G2 & G3 & G4).
    { constructor; [|exact NJ'|exact ND'| |].
      - intros z Hz. pose proof (Each z (or_intror Hz)) as [_ _ _ _ _ (ZJF & ZJL & ZJO & ZJD) (_ & _ & _ & ZBJ) (ZDO & ZDD & ZDA & ZDM & ZVD) (_ & ZKey) _ _ _ (_ & ZY)].
        assert (ZJ : acc L1 (ac_mining z) = acc L (ac_mining z)).
        { apply Frame; try (intros EQ; rewrite EQ in *; congruence). intros EQ. apply NJ. rewrite <- EQ. apply in_map. exact Hz. }
        assert (ZD : acc L1 (ac_purse z) = acc L (ac_purse z)).
        { apply Same; [exact ZDO|congruence|]. intros EQ. apply ND. rewrite <- EQ. apply in_map. exact Hz. }
        assert (Len : 1 <= Z.of_nat (length l)) by (destruct l; [destruct Hz|cbn [length]; lia]).
        pose proof (Z.mul_le_mono_nonneg_r _ _ (rent_min e 1776) ltac:(lia) Len) as LenR. pose proof (Z.mul_le_mono_nonneg_r _ _ y ltac:(lia) Len) as LenY.
        constructor.
        + exact H4.
        + destruct (Z.eq_dec mint V) as [->|NV]; [congruence|]. destruct (Z.eq_dec mint (ac_purse x)) as [->|NP]; [congruence|].
          unfold owner_of in *. rewrite Same by assumption. exact MO.
        + rewrite U8, U1. split; [exact CV|]. split; [congruence|]. split; [exact H2|exact VA].
        + rewrite Os1, Os2, Os4. split; [exact H6|]. split; [exact KO|]. split; [exact KP|exact KC].
        + rewrite U10. apply current_can; [exact Oix|exact Fm|rewrite Osh, Osf; lia|lia|]. rewrite Otk. apply (cr_tokens _ _ _ CR).
        + split; [exact ZJF|]. unfold vacant, lamports_of, owner_of, data_of in *. rewrite ZJ. auto.
        + unfold owner_of, data_of, lamports_of in *. rewrite HB. cbn. split; [exact BO|]. split; [exact BD|]. split; [lia|exact ZBJ].
        + unfold owner_of, data_of in *. rewrite ZD. cbn. auto.
        + split; [exact KeyO|exact ZKey].
        + exact A0.
        + rewrite UT, Osf. unfold share_at. rewrite (none_due _ _ Fm), Osh. split; [lia|]. unfold share_at in *. lia.
        + rewrite (none_due _ _ Fw). lia.
        + rewrite WP. cbn [t_amount]. split; [lia|exact ZY].
      - unfold lamports_of in *. rewrite HB. cbn. lia.
      - rewrite WP. cbn [t_amount]. lia. }
    rewrite WP in G2, G3. rewrite U1 in G1. cbn [t_mint t_owner t_amount] in G2.
    exists L'. split; [cbn [all_calls flat_map]; eapply run_then; [exact H1|]; destruct l; exact G1|]. split; [|split].
    + intros _. destruct l as [|z l].
      * cbn in G1. inversion G1; subst. rewrite H2. cbn [length]. f_equal. f_equal. lia.
      * rewrite G2 by discriminate. cbn [length]. rewrite (Nat2Z.inj_succ (S (length l))), Z.mul_succ_l. f_equal. f_equal. lia.
    + intros z [<-|Hz]; [|apply G3, Hz]. unfold data_of. rewrite G4; [exact H3|congruence|congruence|].
      intros z Hz EQ. apply ND. rewrite EQ. apply in_map. exact Hz.
    + intros q Hq HV Hp. rewrite G4; [apply Same; [exact Hq|exact HV|apply Hp; left; reflexivity]| |exact HV|intros z Hz; apply Hp; right; exact Hz].
      unfold owner_of in *. rewrite Same; [exact Hq|exact Hq|exact HV|apply Hp; left; reflexivity].
Qed.
End env.

(** an amount that takes any [x], up to the worth of one unit of stake *)
Lemma loot_near i x : 0 < i -> 0 <= x ->
  let y := i * (x * 10000000000000000 / i) / 10000000000000000 in y <= x < y + i / 10000000000000000 + 2.
Proof.
  intros Hi Hx y. unfold y. set (q := x * 10000000000000000 / i).
  pose proof (Z.mul_div_le (x * 10000000000000000) i Hi). pose proof (Z.mul_succ_div_gt (x * 10000000000000000) i Hi). fold q in H, H0.
  pose proof (Z.mul_div_le (i * q) 10000000000000000 ltac:(lia)). pose proof (Z.mul_succ_div_gt (i * q) 10000000000000000 ltac:(lia)).
  pose proof (Z.mul_div_le i 10000000000000000 ltac:(lia)). pose proof (Z.mul_succ_div_gt i 10000000000000000 ltac:(lia)). lia.
Qed.
