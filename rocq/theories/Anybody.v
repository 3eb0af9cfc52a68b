(** Proof of C78: anybody can strike, in six calls. *)
From stdpp Require Import gmap.
From Verif Require Import Base OMap State Spec EffectSpec Ledger Program Clients ResLemmas TreeLemmas AccrualLemmas RefreshLemmas WfLemmas LedgerLemmas LedgerSpec
  CodecLemmas History HistoryLemmas Changes AccessLemmas HistoryThms ReachThms EffectLemmas EffectMethods EffectThms EffectMore
  SuccessSpec SuccessThms LedgerCore Determined Commute CompleteSpec Complete ChoiceSpec Choice PowerSpec Powers FreezeSpec Freeze.

Section env.
Context (e : env) (Henv : env_ok e) (Hinj : env_inj e).

Lemma call_ok now ts ms i L :
  reached e now L -> now <= ts -> is_u64 ts -> ix_in_range i ->
  (forall n k, In n (may_change i) -> account_at ms n k -> writable ms k) -> allowed e ts ms i L ->
  exists L1 r, step e now L (EvIx ts ms i) L1 /\ effect e ts ms i L L1 r /\ reached e ts L1.
Proof.
  intros HR Hts Hu Hi Hw HA. apply (succeeds_iff e Henv now ts ms i L HR Hts Hi Hw) in HA as [[L1 r] X].
  exists L1, r. split; [apply (step_ix e now L ts ms i L1 r); assumption|].
  split; [eapply exec_effect; eassumption|eapply reached_exec; eassumption].
Qed.

(* kept out of the sight of lia *)
Definition far (a b : pubkey) : Prop := a <> b.
Lemma far_sym a b : far a b -> far b a.
Proof. unfold far. auto. Qed.
Lemma far_eqb a b : far a b -> (a =? b) = false.
Proof. apply Z.eqb_neq. Qed.

Ltac apart := let E := fresh in unfold far; intros E; congruence.
Ltac afar := solve [assumption | apply far_sym; assumption].
Ltac look := repeat (rewrite Z.eqb_refl || match goal with |- context [?a =? ?b] => rewrite (far_eqb a b) by afar end).
Ltac within := cbn [In]; repeat (first [left; reflexivity | right]).
Ltac held m := exists m; split; [solve [within]|split; reflexivity].
Ltac sig := match goal with |- signed _ ?k => first [held (mw k true) | held (mr k true)] end.
Ltac wr := let n := fresh in let q := fresh in let Hn := fresh in let Hq := fresh in
  intros n q Hn Hq; cbn in Hn; repeat (destruct Hn as [<-|Hn]); try contradiction Hn; cbn in Hq; injection Hq as <-;
  match goal with |- writable _ ?k => first [held (mw k false) | held (mw k true)] end.
Ltac same := exists []; reflexivity.

Lemma anybody_strikes now ts L A Q mint V j S X k P w mk :
  reached e now L -> now <= ts -> is_u64 ts -> fits (expiry LFlex ts) -> day_start ts < ts ->
  means e L A Q mint V j S X -> 0 < X < 18446744073709551616 ->
  is_pool e L P w -> P <> Q -> p_index (wp w) < 10000000000000000 * X ->
  is_mining e L k mk -> (forall d v, In (d, v) (wm_diffs mk) -> day_start ts < d) ->
  fits (m_share (wm mk) + m_sfo (wm mk)) -> m_index (wm mk) <= 10000000000000000 * X ->
  fits (m_unclaimed (wm mk) + (m_share (wm mk) + m_sfo (wm mk)) * (10000000000000000 * X - m_index (wm mk)) / 10000000000000000) ->
  exists L', History.run e now L (six_calls e ts A Q mint V j S X k) ts L' /\ is_pool e L' P w /\
    exists m', is_mining e L' k m' /\ m_index (wm m') = 10000000000000000 * X /\ ahead w m'.
Proof.
  intros HR Hts Hu Hexp Hmid [ [WO WD] Rent [QO QD] [MO MD] (VF & VL & VO & VD) (JF & JL & JO & JD) (SO & st & SD & ST & SM & SA) [AV AJ] HK ] HX Hw HPQ HpX Hk Hdue Hfit HiX Htok.
  pose proof (eo_sys _ Henv) as E1. pose proof (eo_tok _ Henv) as E2. pose proof (eo_toksys _ Henv) as E3.
  destruct Hw as [PO PD]. destruct Hk as [KO KD].
  pose proof (eo_rent _ Henv 165) as R1. pose proof (eo_rent _ Henv 1776) as R2.
  destruct (find_vault e Q mint) as [V0 bv] eqn:FV. cbn in VF. subst V0.
  destruct (find_mining e A Q) as [j0 bj] eqn:FJ. cbn in JF. subst j0.
  destruct (eo_vault _ Henv _ _ _ _ FV) as [CV Bv]. destruct (eo_mining _ Henv _ _ _ _ FJ) as [CJ Bj].
  fold (far A V) in AV. fold (far A j) in AJ. fold (far P Q) in HPQ.
  assert (VJ : far V j) by (intros ->; exact (ei_disjoint _ Hinj _ _ _ _ _ _ _ CJ CV)).
  assert (QV : far Q V) by apart. assert (QA : far Q A) by apart. assert (QJ : far Q j) by apart. assert (QS : far Q S) by apart.
  assert (QM : far Q mint) by apart. assert (QK : far Q k) by apart. assert (VS : far V S) by apart. assert (VM : far V mint) by apart.
  assert (VK : far V k) by apart. assert (AS : far A S) by apart. assert (AM : far A mint) by apart. assert (AK : far A k) by apart.
  assert (JS : far j S) by apart. assert (JM : far j mint) by apart. assert (JK : far j k) by apart.
  assert (SMt : far S mint) by apart. assert (SK : far S k) by apart. assert (MK : far mint k) by apart.
  assert (PV : far P V) by apart. assert (PA : far P A) by apart. assert (PJ : far P j) by apart. assert (PS : far P S) by apart.
  destruct (reached_ok e Henv _ _ HR) as (_ & _ & Hn0).
  (* the pool *)
  edestruct (call_ok now ts (fst (b_initialize_pool e Q mint V A A A A)) (InitializePool A A) L HR Hts Hu)
    as (L1 & r1 & S1 & F1 & HR1).
  { split; assumption. } { wr. }
  { cbn [allowed]. exists Q, mint, V, A, A, (WPool (Pool 0 0 0 0 0 0 0 0 0 0) [] []). split; [same|]. split; [split; assumption|].
    split; [discriminate|]. split; [exact MO|]. split; [exact MD|]. rewrite FV. split; [reflexivity|].
    split; [split; [exact VL|]; split; [exact VO|left; exact VD]|].
    split; [split; [sig|]; split; [exact WO|]; split; [exact WD|lia]|]. split; [exact AV|]. split; [sig|congruence]. }
  cbn [effect] in F1. destruct F1 as (p1 & mi1 & v1 & pa1 & au1 & b1 & [rs1 Hms1] & FV1 & _ & B1).
  cbn in Hms1. injection Hms1 as <- <- <- <- <- _. rewrite FV in FV1. injection FV1 as <-.
  pose (w1 := WPool (Pool A A A mint 0 0 0 0 bv 1) [] []).
  assert (Q1 : is_pool e L1 Q w1).
  { unfold is_pool, owner_of, data_of in *. rewrite B1. cbn [listed pool_now]. look. cbn. auto. }
  assert (V1 : acc L1 V = Account (rent_min e 165) (spl_token_id e) (DToken (Token mint A 0))).
  { rewrite B1. cbn [listed pool_now]. look. reflexivity. }
  assert (A1 : acc L1 A = having (acc L A) (lamports_of L A - rent_min e 165)).
  { rewrite B1. cbn [listed pool_now]. look. reflexivity. }
  assert (O1 : forall q, far q Q -> far q V -> far q A -> acc L1 q = acc L q).
  { intros q ? ? ?. rewrite B1. cbn [listed pool_now]. look. reflexivity. }
  clear B1.
  (* the mining *)
  edestruct (call_ok ts ts (fst (b_initialize_mining Q j A A)) (InitializeMining A) L1 HR1 (Z.le_refl _) Hu)
    as (L2 & r2 & S2 & F2 & HR2).
  { exact HK. } { wr. }
  { cbn [allowed]. exists Q, j, A. split; [same|]. split; [exact (proj1 Q1)|]. rewrite FJ. split; [reflexivity|].
    unfold vacant, can_pay, lamports_of, owner_of, data_of in *. rewrite (O1 j), A1 by afar.
    split; [split; [exact JL|]; split; [exact JO|left; exact JD]|]. split; [|exact AJ].
    split; [sig|]. split; [exact WO|]. split; [exact WD|]. cbn. lia. }
  cbn [effect] in F2. destruct F2 as (p2 & m2 & pa2 & b2 & [rs2 Hms2] & FJ2 & _ & B2).
  cbn in Hms2. injection Hms2 as <- <- <- _. rewrite FJ in FJ2. injection FJ2 as <-.
  pose (mj := WMining (Mining Q A 0 0 0 0 0 bj 2) []).
  assert (J2 : is_mining e L2 j mj).
  { unfold is_mining, owner_of, data_of in *. rewrite B2. cbn [listed]. look. cbn. auto. }
  assert (O2 : forall q, far q j -> far q A -> acc L2 q = acc L1 q).
  { intros q ? ?. rewrite B2. cbn [listed]. look. reflexivity. }
  clear B2.
  assert (Q2 : is_pool e L2 Q w1) by (unfold is_pool, owner_of, data_of in *; rewrite O2 by afar; exact Q1).
  (* one token *)
  assert (Hd0 : forall t, visible t [] = 0) by reflexivity.
  edestruct (call_ok ts ts (fst (b_deposit Q j A j 1 LFlex A A)) (DepositMining 1 LFlex A A) L2 HR2 (Z.le_refl _) Hu)
    as (L3 & r3 & S3 & F3 & HR3).
  { split; [unfold is_u64, U64; lia|]. split; exact HK. } { wr. }
  { cbn [allowed]. exists Q, j, A, j, w1, mj, None. split; [same|]. split.
    { constructor; try assumption; try reflexivity. sig. }
    split; [split; [left; auto|exact I]|]. unfold can_deposit, share_at, can_join. cbn [w1 mj wp wm wp_ci wp_diffs wm_diffs weight_of p_total m_share due at_date].
    split; [discriminate|]. split.
    { constructor; unfold tokens_at; cbn; try lia; reflexivity. }
    split; [lia|]. split; [lia|]. split; [lia|]. split; [exact Hexp|]. split; [lia|]. split; [lia|exact I]. }
  cbn [effect] in F3. destruct F3 as (p3 & q3 & au3 & dm3 & w3 & m3 & d3 & w3' & m3' & d3' & [rs3 Hms3] & Hw3 & Hm3 & Hd3 & D3 & _ & B3).
  cbn in Hms3. injection Hms3 as <- <- <- <- _.
  rewrite (pool_fun e _ _ _ _ Hw3 Q2), (mining_fun e _ _ _ _ Hm3 J2) in *. clear Hw3 Hm3 w3 m3.
  destruct Hd3 as [[_ ->]|(Hc & _)]; [|congruence].
  destruct D3 as ((m1 & Rf & Os & Sh & Sc & As) & Ot & Tt & Sp & Ap & Dg). destruct d3' as [|]; [contradiction Dg|]. clear Dg.
  cbn [w1 mj wp wm wp_ci wp_diffs wm_diffs weight_of p_total m_share for_delegate] in *.
  assert (AN : ascending []) by (cbn; auto).
  assert (Dp : wp_diffs w3' = [(expiry LFlex ts, 0)]).
  { rewrite (scheduled_is _ _ _ _ _ AN Ap Sp). reflexivity. }
  pose proof (rf_diffs _ _ _ _ Rf) as Df. cbn in Df.
  assert (Dm : wm_diffs m3' = [(expiry LFlex ts, 0)]).
  { rewrite Df in Sc. rewrite (scheduled_is _ _ _ _ _ AN As Sc). reflexivity. }
  pose proof (rf_index _ _ _ _ Rf) as Ix. pose proof (rf_unclaimed _ _ _ _ Rf) as Un. pose proof (rf_share _ _ _ _ Rf) as Rs.
  pose proof (rf_sfo _ _ _ _ Rf) as Rsf. destruct (rf_same _ _ _ _ Rf) as (Sa1 & Sa2 & Sa3 & Sa4 & Sa5).
  destruct Os as ((Ob1 & Ob2 & Ob3 & Ob4 & Ob5) & Oi & Ou & Of). cbn in Ix, Un, Rs, Rsf, Sa1, Sa2, Sa3, Sa4, Sa5.
  destruct Ot as (T1 & T2 & T3 & T4 & T5 & T6 & T7 & T8 & T9 & T10). cbn in T1, T2, T3, T4, T5, T6, T7, T8, T9, T10.
  cbn [delegate_now app] in B3.
  assert (Q3 : is_pool e L3 Q w3').
  { unfold is_pool, owner_of, data_of in *. rewrite B3. cbn [listed pool_now mining_now]. look. cbn. split; [apply Q2|reflexivity]. }
  assert (J3 : is_mining e L3 j m3').
  { unfold is_mining, owner_of, data_of in *. rewrite B3. cbn [listed pool_now mining_now]. look. cbn. split; [apply J2|reflexivity]. }
  assert (O3 : forall q, far q Q -> far q j -> acc L3 q = acc L2 q).
  { intros q ? ?. rewrite B3. cbn [listed pool_now mining_now]. look. reflexivity. }
  clear B3.
  (* fill *)
  assert (V3 : acc L3 V = Account (rent_min e 165) (spl_token_id e) (DToken (Token mint A 0))) by (rewrite O3, O2 by afar; exact V1).
  assert (S3' : acc L3 S = acc L S) by (rewrite O3, O2, O1 by afar; reflexivity).
  assert (M3 : acc L3 mint = acc L mint) by (rewrite O3, O2, O1 by afar; reflexivity).
  assert (D0 : 0 <= day_start ts) by (unfold day_start; pose proof (Z.div_pos ts 86400); lia).
  edestruct (call_ok ts ts (fst (b_fill_vault e Q mint V A S X ts)) (FillVault X ts) L3 HR3 (Z.le_refl _) Hu)
    as (L4 & r4 & S4 & F4 & HR4).
  { split; [unfold is_u64, U64; lia|exact Hu]. } { wr. }
  { cbn [allowed]. exists Q, mint, V, A, S, w3'. split; [same|]. split; [exact Q3|].
    unfold owner_of, data_of in *. rewrite M3, V3, S3'. split; [exact MO|]. split; [reflexivity|]. split; [exact SO|].
    split; [exact T3|]. split; [sig|]. split; [congruence|]. rewrite T8, T6, T7. split; [exact CV|].
    split; [lia|]. split; [lia|]. split; [lia|]. split; [lia|].
    exists st, (Token mint A 0). unfold data_of. rewrite V3, S3'. cbn. split; [exact SD|]. split; [reflexivity|].
    split; [exact ST|]. split; [exact SM|]. split; [exact SA|lia]. }
  cbn [effect] in F4. destruct F4 as (p4 & mi4 & v4 & au4 & s4 & w4 & ts4 & tv4 & [rs4 Hms4] & Hw4 & _ & _ & _ & B4).
  cbn in Hms4. injection Hms4 as <- <- <- <- <- _. rewrite (pool_fun e _ _ _ _ Hw4 Q3) in *. clear Hw4 w4.
  unfold tokens_now in B4. rewrite (far_eqb S V) in B4 by afar.
  assert (Q4 : is_pool e L4 Q (filled w3' X ts)).
  { unfold is_pool, owner_of, data_of in *. rewrite B4. cbn [listed pool_now]. look. cbn. split; [apply Q3|reflexivity]. }
  assert (O4 : forall q, far q Q -> far q S -> far q V -> acc L4 q = acc L3 q).
  { intros q ? ? ?. rewrite B4. cbn [listed pool_now]. look. reflexivity. }
  clear B4.
  (* distribute *)
  assert (Part : daily_part X (day_start ts) ts = X).
  { unfold daily_part. replace (Z.max 0 (day_start ts - ts)) with 0 by lia. reflexivity. }
  assert (Due : due (day_start ts) (wp_diffs w3') = 0) by (rewrite Dp; cbn; destruct (_ <=? _); reflexivity).
  edestruct (call_ok ts ts (fst (b_distribute Q A)) DistributeRewards L4 HR4 (Z.le_refl _) Hu) as (L5 & r5 & S5 & F5 & HR5).
  { exact I. } { wr. }
  { cbn [allowed]. exists Q, A, (filled w3' X ts). split; [same|]. split; [exact Q4|]. cbn. split; [exact T2|]. split; [sig|].
    unfold can_distribute. cbn. rewrite T5, T7, Tt, Due, (Z.add_0_l X), Part. split; [lia|]. split; [lia|]. right. split; [lia|].
    replace (0 + 1 * 1 + 0 - 0) with 1 by lia. rewrite Z.div_1_r. lia. }
  cbn [effect] in F5. destruct F5 as (p5 & au5 & w5 & w5' & [rs5 Hms5] & Hw5 & D5 & _ & B5).
  cbn in Hms5. injection Hms5 as <- <- _. rewrite (pool_fun e _ _ _ _ Hw5 Q4) in *. clear Hw5 w5.
  destruct D5 as (Od & Td & _ & _ & Di). cbn in Td, Di. rewrite T10 in Di.
  destruct Di as (Pi & _ & Ci); [intros [v []]|].
  rewrite T7, (Z.add_0_l X), Part, T5, Td, Tt, Due in Pi. replace (0 + 1 * 1 + 0 - 0) with 1 in Pi by lia. rewrite Z.div_1_r in Pi.
  cbn in Ci. rewrite Pi in Ci.
  assert (Q5 : is_pool e L5 Q w5').
  { unfold is_pool, owner_of, data_of in *. rewrite B5. cbn [listed pool_now]. look. cbn. split; [apply Q4|reflexivity]. }
  assert (O5 : forall q, far q Q -> acc L5 q = acc L4 q).
  { intros q ?. rewrite B5. cbn [listed pool_now]. look. reflexivity. }
  clear B5.
  assert (Vis : visible ts (wp_ci w5') = 10000000000000000 * X).
  { rewrite Ci. change (Z.of_nat 0 <? 1095) with true. unfold visible. cbn [visible_from]. rewrite (proj2 (Z.ltb_lt _ _) Hmid). lia. }
  assert (J5 : is_mining e L5 j m3').
  { unfold is_mining, owner_of, data_of in *. rewrite O5, O4 by afar. exact J3. }
  assert (K5 : is_mining e L5 k mk).
  { unfold is_mining, owner_of, data_of in *. rewrite O5, O4, O3, O2, O1 by afar. auto. }
  assert (P5 : is_pool e L5 P w).
  { unfold is_pool, owner_of, data_of in *. rewrite O5, O4, O3, O2, O1 by afar. auto. }
  (* the strike *)
  assert (DA : p_deposit_auth (wp w5') = A).
  { destruct Od as (D1 & _). rewrite D1. exact T1. }
  destruct (proj2 (strike_iff e Henv ts ts L5 Q j A A k w5' m3' mk A HR5 (Z.le_refl _) HK Q5 DA J5
    ltac:(congruence) ltac:(congruence) ltac:(rewrite Ob4, Sa4; exact CJ) K5 ltac:(auto))) as [[L6 r6] X6].
  { split.
    - assert (Ne : (expiry LFlex ts <=? day_start ts) = false) by (apply Z.leb_gt; unfold expiry; cbn; lia).
      constructor; unfold tokens_at; rewrite ?Dm, ?Sh, ?Of, ?Oi, ?Ou, ?Rs, ?Rsf, ?Ix, ?Un; cbn [due upto filter fst]; rewrite ?Ne; cbn [earned]; rewrite ?Vis; cbn; try lia.
      + intros d v [H|[]] Hd. injection H as <- <-. apply Z.leb_gt in Ne. lia.
      + change (0 + (0 - 0) * (0 + 0) / 10000000000000000) with 0. replace ((10000000000000000 * X - 0) * (0 - 0 + 1 * 1 + 0)) with (X * 10000000000000000) by lia.
        rewrite Z.div_mul by lia. lia.
    - assert (Up : upto (day_start ts) (wm_diffs mk) = []).
      { clear -Hdue. induction (wm_diffs mk) as [|[d v] r IH]; [reflexivity|]. cbn.
        rewrite (proj2 (Z.leb_gt _ _) (Hdue d v (or_introl eq_refl))). apply IH. intros d' v' H. apply Hdue with v'. right. exact H. }
      assert (Du : due (day_start ts) (wm_diffs mk) = 0).
      { clear -Hdue. induction (wm_diffs mk) as [|[d v] r IH]; [reflexivity|]. cbn.
        rewrite (proj2 (Z.leb_gt _ _) (Hdue d v (or_introl eq_refl))). apply IH. intros d' v' H. apply Hdue with v'. right. exact H. }
      destruct (reached_ok e Henv _ _ HR5) as (HL5 & _ & _). pose proof (ok_mining e _ _ _ _ HL5 (proj1 K5) (proj2 K5)) as W.
      pose proof (mw_share _ W) as W1. unfold is_u64 in W1.
      constructor; [exact Hfit|lia|lia| |].
      + intros d v H Hd. specialize (Hdue d v H). lia.
      + unfold tokens_at. rewrite Up. cbn [earned]. rewrite Vis. rewrite Z.mul_comm. exact Htok. }
  destruct (strike_freezes e Henv ts ts L5 L6 r6 Q j A A k P w w5' mk A HR5 (Z.le_refl _) HK X6 P5 HPQ Q5 K5 ltac:(auto) ltac:(lia)) as (P6 & m' & K6 & Fr & Ah).
  exists L6. split; [|split; [exact P6|]; exists m'; split; [exact K6|]; split; [rewrite (rf_index _ _ _ _ Fr); exact Vis|exact Ah]].
  unfold six_calls. econstructor; [exact S1|]. econstructor; [exact S2|]. econstructor; [exact S3|]. econstructor; [exact S4|].
  econstructor; [exact S5|]. econstructor; [|apply run_nil].
  apply (step_ix e ts L5 ts _ _ L6 r6 (Z.le_refl _) Hu); [split; [unfold is_u64, U64; lia|exact HK]|exact X6].
Qed.
End env.
