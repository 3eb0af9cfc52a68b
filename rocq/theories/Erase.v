(** Proof of C83: anybody can erase what expired bonuses earned, in three calls and without tokens. *)
From stdpp Require Import gmap.
From Verif Require Import Base OMap State Spec EffectSpec Ledger Program Clients ResLemmas TreeLemmas AccrualLemmas RefreshLemmas WfLemmas LedgerLemmas LedgerSpec
  CodecLemmas History HistoryLemmas Changes AccessLemmas HistoryThms ReachThms EffectLemmas EffectMethods EffectThms EffectMore
  SuccessSpec SuccessThms LedgerCore Determined Commute CompleteSpec Complete ChoiceSpec Choice PowerSpec Powers FreezeSpec Freeze Anybody
  CapSpec Cap DustSpec IncomeSpec Income StrikeSpec Strike.

Section env.
Context (e : env) (Henv : env_ok e) (Hinj : env_inj e).

Ltac apart := let E := fresh in unfold far; intros E; congruence.
Ltac afar := solve [assumption | apply far_sym; assumption].
Ltac look := repeat (rewrite Z.eqb_refl || match goal with |- context [?a =? ?b] => rewrite (far_eqb a b) by afar end).
Ltac within := cbn [In]; repeat (first [left; reflexivity | right]).
Ltac held m := exists m; split; [solve [within]|split; reflexivity].
Ltac sig := match goal with |- signed _ ?k => first [held (mw k true) | held (mr k true)] end.
Ltac wr := let n := fresh in let q := fresh in let Hn := fresh in let Hq := fresh in
  intros n q Hn Hq; cbn in Hn; repeat (destruct Hn as [<-|Hn]); try contradiction Hn; cbn in Hq; injection Hq as <-;
  match goal with |- writable _ ?k => first [held (mw k false) | held (mw k true)] end.
Ltac same := exists []; reflexivity.

Lemma earned_nothing l ts : forall s, earned [] s 0 l ts = 0.
Proof.
  induction l as [|[d v] r IH]; intros s; cbn [earned]; [reflexivity|]. change (visible d []) with 0. rewrite IH. reflexivity.
Qed.

Lemma anybody_erases now ts L A Q mint V j k P w mk :
  reached e now L -> now <= ts -> is_u64 ts -> purse e L A Q mint V j -> P <> Q ->
  open_in e P k L w mk -> m_index (wm mk) = 0 -> fits (m_share (wm mk) + m_sfo (wm mk)) ->
  due (day_start ts) (wm_diffs mk) <= m_share (wm mk) ->
  exists L' m', History.run e now L (three_calls e ts A Q mint V j k) ts L' /\ open_in e P k L' w m' /\
    let loss := accrual 0 (fun d => eff mk d - eff mk (day_start ts)) (wp_ci w) in
    owed (wp_ci w) mk - loss - most ts mk <= owed (wp_ci w) m' <= owed (wp_ci w) mk - loss.
Proof.
  intros HR Hts Hu [ [WO WD] Rent [QO QD] [MO MD] (VF & VL & VO & VD) (JF & JL & JO & JD) [AV AJ] HK ] HPQ HO Hi0 Hfit Hdue.
  pose proof HO as ([PO PD] & Tw & [KO KD] & Tm & HP).
  pose proof (eo_sys _ Henv) as E1. pose proof (eo_tok _ Henv) as E2. pose proof (eo_toksys _ Henv) as E3.
  pose proof (eo_rent _ Henv 165) as R1. pose proof (eo_rent _ Henv 1776) as R2.
  destruct (find_vault e Q mint) as [V0 bv] eqn:FV. cbn in VF. subst V0.
  destruct (find_mining e A Q) as [j0 bj] eqn:FJ. cbn in JF. subst j0.
  destruct (eo_vault _ Henv _ _ _ _ FV) as [CV Bv]. destruct (eo_mining _ Henv _ _ _ _ FJ) as [CJ Bj].
  fold (far A V) in AV. fold (far A j) in AJ. fold (far P Q) in HPQ.
  assert (VJ : far V j) by (intros ->; exact (ei_disjoint _ Hinj _ _ _ _ _ _ _ CJ CV)).
  assert (QV : far Q V) by apart. assert (QA : far Q A) by apart. assert (QJ : far Q j) by apart.
  assert (QM : far Q mint) by apart. assert (QK : far Q k) by apart. assert (VM : far V mint) by apart.
  assert (VK : far V k) by apart. assert (AM : far A mint) by apart. assert (AK : far A k) by apart.
  assert (JM : far j mint) by apart. assert (JK : far j k) by apart.
  assert (PV : far P V) by apart. assert (PA : far P A) by apart. assert (PJ : far P j) by apart.
  destruct (reached_ok e Henv _ _ HR) as (_ & _ & Hn0).
  (* the pool *)
  edestruct (call_ok e Henv now ts (fst (b_initialize_pool e Q mint V A A A A)) (InitializePool A A) L HR Hts Hu)
    as (L1 & r1 & S1 & F1 & HR1).
  { split; assumption. } { wr. }
  { cbn [allowed]. exists Q, mint, V, A, A, (WPool (Pool 0 0 0 0 0 0 0 0 0 0) [] []). split; [same|]. split; [split; assumption|].
    split; [discriminate|]. split; [exact MO|]. split; [exact MD|]. rewrite FV. split; [reflexivity|].
    split; [split; [exact VL|]; split; [exact VO|left; exact VD]|].
    split; [split; [sig|]; split; [exact WO|]; split; [exact WD|lia]|]. split; [exact AV|]. split; [sig|congruence]. }
  cbn [effect] in F1. destruct F1 as (p1 & mi1 & v1 & pa1 & au1 & b1 & [rs1 Hms1] & FV1 & _ & B1).
  cbn in Hms1. injection Hms1 as <- <- <- <- <- _. rewrite FV in FV1. injection FV1 as <-.
  pose (w1 := WPool (Pool A A A mint 0 0 0 0 bv 1) [] []).
  assert (Q1 : is_pool e L1 Q w1).
  { unfold is_pool, owner_of, data_of in *. rewrite B1. cbn [listed pool_now]. look. cbn. auto. }
  assert (V1 : acc L1 V = Account (rent_min e 165) (spl_token_id e) (DToken (Token mint A 0))).
  { rewrite B1. cbn [listed pool_now]. look. reflexivity. }
  assert (A1 : acc L1 A = having (acc L A) (lamports_of L A - rent_min e 165)).
  { rewrite B1. cbn [listed pool_now]. look. reflexivity. }
  assert (O1 : forall q, far q Q -> far q V -> far q A -> acc L1 q = acc L q).
  { intros q ? ? ?. rewrite B1. cbn [listed pool_now]. look. reflexivity. }
  clear B1.
  (* the mining *)
  edestruct (call_ok e Henv ts ts (fst (b_initialize_mining Q j A A)) (InitializeMining A) L1 HR1 (Z.le_refl _) Hu)
    as (L2 & r2 & S2 & F2 & HR2).
  { exact HK. } { wr. }
  { cbn [allowed]. exists Q, j, A. split; [same|]. split; [exact (proj1 Q1)|]. rewrite FJ. split; [reflexivity|].
    unfold vacant, can_pay, lamports_of, owner_of, data_of in *. rewrite (O1 j), A1 by afar.
    split; [split; [exact JL|]; split; [exact JO|left; exact JD]|]. split; [|exact AJ].
    split; [sig|]. split; [exact WO|]. split; [exact WD|]. cbn. lia. }
  cbn [effect] in F2. destruct F2 as (p2 & m2 & pa2 & b2 & [rs2 Hms2] & FJ2 & _ & B2).
  cbn in Hms2. injection Hms2 as <- <- <- _. rewrite FJ in FJ2. injection FJ2 as <-.
  pose (mj := WMining (Mining Q A 0 0 0 0 0 bj 2) []).
  assert (J2 : is_mining e L2 j mj).
  { unfold is_mining, owner_of, data_of in *. rewrite B2. cbn [listed]. look. cbn. auto. }
  assert (O2 : forall q, far q j -> far q A -> acc L2 q = acc L1 q).
  { intros q ? ?. rewrite B2. cbn [listed]. look. reflexivity. }
  clear B2.
  assert (Q2 : is_pool e L2 Q w1) by (unfold is_pool, owner_of, data_of in *; rewrite O2 by afar; exact Q1).
  assert (P2 : is_pool e L2 P w).
  { unfold is_pool, owner_of, data_of in *. rewrite O2, O1 by afar. auto. }
  assert (K2 : is_mining e L2 k mk).
  { unfold is_mining, owner_of, data_of in *. rewrite O2, O1 by afar. auto. }
  destruct (reached_ok e Henv _ _ HR2) as (HL2 & _ & _).
  pose proof (ok_mining e _ _ _ _ HL2 (proj1 K2) (proj2 K2)) as W. pose proof (mining_wf_min _ W) as Wm.
  (* the strike *)
  destruct (proj2 (strike_iff e Henv ts ts L2 Q j A A k w1 mj mk A HR2 (Z.le_refl _) HK Q2 eq_refl J2
    eq_refl eq_refl CJ K2 ltac:(auto))) as [[L3 r3] X3].
  { split.
    - constructor; unfold tokens_at; cbn; first [lia | intros ? ? [] | reflexivity].
    - constructor; [exact Hfit|exact Hdue|rewrite Hi0; cbn; lia|intros; rewrite Hi0; cbn; lia|].
      unfold tokens_at. rewrite Hi0, earned_nothing. pose proof (mw_unclaimed _ W) as Hun. unfold is_u64, U64 in Hun. lia. }
  assert (HO2 : open_in e P k L2 w mk) by (split; [exact P2|]; split; [exact Tw|]; split; [exact K2|]; split; [exact Tm|exact HP]).
  destruct (strike_loss e Henv ts ts (strike_on Q j A A k) 0 A L2 L3 r3 P Q k w mk w1 HR2 (Z.le_refl _)) as (m' & HO3 & B); try assumption.
  { split; [unfold is_u64, U64; lia|exact HK]. } { reflexivity. } { reflexivity. } { apply far_sym. exact HPQ. } { intros ? ? []. }
  { destruct (reached_ok e Henv _ _ HR) as (HL & _ & _). pose proof (ok_pool e _ _ _ _ HL PO PD) as Wp.
    cbn. exact (growing_last 0 _ (h_grow _ (pool_wf_hist _ _ Wp))). }
  exists L3, m'. split; [|split; [exact HO3|]].
  - unfold three_calls. econstructor; [exact S1|]. econstructor; [exact S2|]. econstructor; [|apply run_nil].
    apply (step_ix e ts L2 ts _ _ L3 r3 (Z.le_refl _) Hu); [split; [unfold is_u64, U64; lia|exact HK]|exact X3].
  - cbv zeta in B |- *. rewrite Hi0 in B.
    unfold accrual in B |- *. rewrite (accrual_ext 0 (fun d => eff mk d - eff mk (day_start ts)) (fun d => eff mk d - eff mk (day_start ts) + 0)); [exact B| |intros; lia].
    destruct (reached_ok e Henv _ _ HR) as (HL & _ & _). exact (h_grow _ (pool_wf_hist _ _ (ok_pool e _ _ _ _ HL PO PD))).
Qed.
End env.
