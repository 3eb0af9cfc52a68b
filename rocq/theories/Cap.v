(** Proofs of C79: what a mining takes is capped by its largest stake and the index. *)
From stdpp Require Import gmap.
From Verif Require Import Base OMap State Spec EffectSpec Ledger Program ResLemmas TreeLemmas AccrualLemmas RefreshLemmas WfLemmas LedgerLemmas LedgerSpec
  CodecLemmas History HistoryLemmas Changes AccessLemmas HistoryThms ReachThms EffectLemmas EffectMethods EffectThms EffectMore
  SuccessSpec SuccessThms LedgerCore Determined Commute CompleteSpec Complete PowerSpec Powers FreezeSpec Freeze CapSpec.

(** however the drops fall, no more is earned than without them *)
Lemma earned_cap ci ts : growing 0 ci -> forall l s j, values is_u64 l -> ascending l ->
  (forall d v, In (d, v) l -> d <= ts /\ j <= visible d ci) -> j <= visible ts ci ->
  10000000000000000 * earned ci s j l ts <= s * (visible ts ci - j).
Proof.
  intros G. induction l as [|[d v] r IH]; intros s j Hv Ha Hd Hj; cbn [earned].
  - pose proof (Z.mul_div_le ((visible ts ci - j) * s) 10000000000000000). lia.
  - destruct (Hd d v (or_introl eq_refl)) as [Hdt Hjd].
    pose proof (visible_mono 0 d ts ci G Hdt) as M. fold (visible d ci) in M. fold (visible ts ci) in M.
    assert (Hv0 : 0 <= v) by (destruct (Hv d v (or_introl eq_refl)); lia).
    pose proof (Z.mul_div_le ((visible d ci - j) * s) 10000000000000000).
    specialize (IH (s - v) (visible d ci)). rewrite Z.mul_add_distr_l.
    assert (10000000000000000 * earned ci (s - v) (visible d ci) r ts <= (s - v) * (visible ts ci - visible d ci)).
    { apply IH; [intros d' v' H'; apply (Hv d'); right; exact H'|apply Ha| |exact M].
      intros d' v' H'. destruct (Hd d' v' (or_intror H')). split; [assumption|].
      apply (visible_mono 0 d d' ci G). pose proof (proj1 Ha d' v' H'). lia. }
    nia.
Qed.

Definition sched_ok (m : wmining) : Prop := values is_u64 (wm_diffs m) /\ ascending (wm_diffs m).

Lemma refreshed_cap ts ci m m' s d x : growing 0 ci -> sched_ok m -> refreshed ts ci m m' ->
  m_share (wm m) <= s -> m_sfo (wm m) <= d -> x = 0 -> capped s d m x m'.
Proof.
  intros G [V A] R Hs Hd ->. pose proof (rf_index_le _ _ _ _ R) as Hi. unfold capped. rewrite (rf_index _ _ _ _ R), (rf_unclaimed _ _ _ _ R).
  split; [exact Hi|].
  pose proof (earned_cap ci ts G (upto (day_start ts) (wm_diffs m)) (m_share (wm m) + m_sfo (wm m)) (m_index (wm m))) as E.
  assert (D : day_start ts <= ts) by (unfold day_start; pose proof (Z.mul_div_le ts 86400); lia).
  enough (10000000000000000 * earned ci (m_share (wm m) + m_sfo (wm m)) (m_index (wm m)) (upto (day_start ts) (wm_diffs m)) ts
     <= (m_share (wm m) + m_sfo (wm m)) * (visible ts ci - m_index (wm m))) by nia.
  apply E; [intros k v H; apply in_upto in H as [H _]; exact (V k v H)|apply ascending_upto; exact A| |exact Hi].
  intros k v H. apply in_upto in H as [H1 H2]. split; [lia|]. exact (rf_first _ _ _ _ R k v H1 H2).
Qed.

Lemma capped_after s d m x a b : capped s d m x a -> m_index (wm b) = m_index (wm a) ->
  m_unclaimed (wm b) = m_unclaimed (wm a) -> capped s d m x b.
Proof. unfold capped. intros H -> ->. exact H. Qed.

Lemma capped_refl s d m : capped s d m 0 m.
Proof. unfold capped. lia. Qed.

Section env.
Context (e : env) (Henv : env_ok e).

Lemma delegated_cap ts ci n y y' s d : growing 0 ci -> sched_ok y -> delegated ts ci n (Some y) (Some y') ->
  m_share (wm y) <= s -> m_sfo (wm y') <= d -> capped s d y 0 y'.
Proof.
  intros G A R Hs Hd. cbn [delegated] in R. pose proof (rf_sfo _ _ _ _ R) as E. cbn [with_delegated wm m_sfo] in E.
  apply (refreshed_cap ts ci (with_delegated y (m_sfo (wm y) + n))); cbn [with_delegated wm m_sfo m_share]; try assumption; lia.
Qed.

Lemma redelegated_cap ts ci b n y y' s d : growing 0 ci -> sched_ok y -> 0 <= b -> redelegated ts ci b n (Some y) (Some y') ->
  m_share (wm y) <= s -> m_sfo (wm y) <= d -> capped s d y 0 y'.
Proof.
  intros G A Hb (z & R & ->) Hs Hd.
  apply (capped_after _ _ _ _ z); [|reflexivity|reflexivity].
  apply (refreshed_cap ts ci (with_delegated y (m_sfo (wm y) - b))); cbn [with_delegated wm m_sfo m_share]; try assumption; lia.
Qed.

Lemma at_third ms a b c q rest k i r : map mt_key ms = a :: b :: c :: q :: rest -> q <> k -> takes k ms i r = 0.
Proof.
  intros E N. unfold takes. rewrite E. cbn. destruct i; try reflexivity. destruct r; [|reflexivity].
  rewrite (proj2 (Z.eqb_neq _ _) N). reflexivity.
Qed.
Lemma no_claim ms i r k : i <> Claim -> takes k ms i r = 0.
Proof. intros H. unfold takes. destruct i; congruence. Qed.

Lemma listed_app k a b : listed k (a ++ b) = match listed k a with Some x => Some x | None => listed k b end.
Proof. induction a as [|[q y] r IH]; cbn; [reflexivity|]. destruct (q =? k); auto. Qed.

Ltac wrong := exfalso; match goal with H : is_mining _ _ ?k ?m', B : acc _ ?k = _ |- _ => destruct H as [_ H]; unfold data_of in H; rewrite B in H; discriminate H end.

(** one instruction *)
Lemma exec_cap now ts ms i L L' r k m m' s d :
  reached e now L -> now <= ts -> ix_in_range i -> exec e ts ms i L = Ok (L', r) ->
  is_mining e L k m -> is_mining e L' k m' -> m_type (wm m') = TYPE_MINING ->
  m_share (wm m) <= s -> m_sfo (wm m) <= d -> m_sfo (wm m') <= d ->
  capped s d m (takes k ms i r) m'.
Proof.
  intros HR Hts Hi X Hm Hm' Ht Hs Hd Hd'.
  pose proof (exec_effect e Henv now ts ms i L L' r HR Hts Hi X) as F.
  pose proof (only_allowed e Henv now ts ms i L L' r HR Hts Hi X) as AL.
  destruct (reached_ok e Henv _ _ HR) as (HL & _ & _).
  assert (G : forall P w, is_pool e L P w -> growing 0 (wp_ci w)).
  { intros P w [Ho Hw]. exact (pw_ci_grow _ _ (ok_pool e _ _ _ _ HL Ho Hw)). }
  assert (K : forall q x, is_mining e L q x -> sched_ok x).
  { intros q x [Ho Hx]. pose proof (ok_mining e _ _ _ _ HL Ho Hx) as W. split; [exact (mw_vals _ W)|exact (mw_asc _ W)]. }
  assert (Same : acc L' k = acc L k -> m' = m).
  { intros E. destruct Hm as [_ H1], Hm' as [_ H2]. unfold data_of in *. congruence. }
  assert (New : forall a x, acc L' k = holding a (DMining x) -> m' = x).
  { intros a x E. destruct Hm' as [_ H2]. unfold data_of in H2. rewrite E in H2. cbn in H2. congruence. }
  assert (Own : forall q x P w x1 x2 a, is_mining e L q x -> is_pool e L P w -> q = k -> acc L' k = holding a (DMining x2) ->
    refreshed ts (wp_ci w) x x1 -> m_index (wm x2) = m_index (wm x1) -> m_unclaimed (wm x2) = m_unclaimed (wm x1) -> capped s d m 0 m').
  { intros q x P w x1 x2 a Hx HP -> E R E1 E2. rewrite (mining_fun e _ _ _ _ Hx Hm) in R. rewrite (New _ _ E).
    apply (capped_after _ _ _ _ x1); [|assumption..]. eapply refreshed_cap; eauto. }
  assert (Keep : acc L' k = acc L k -> takes k ms i r = 0 -> capped s d m (takes k ms i r) m').
  { intros E ->. rewrite (Same E). apply capped_refl. }
  assert (Kept : forall x, acc L' k = having (acc L k) x -> m' = m).
  { intros x E. destruct Hm as [_ H1], Hm' as [_ H2]. unfold data_of in *. rewrite E in H2. cbn in H2. congruence. }
  assert (Deleg : forall mi dm D D' P w n, delegate_part e L mi dm D -> is_pool e L P w -> delegated ts (wp_ci w) n D D' ->
    forall a, listed k (delegate_now L dm D') = Some a -> acc L' k = a -> capped s d m 0 m').
  { intros mi dm D D' P w n HD HP R a E1 E2. destruct D' as [y'|]; [|discriminate]. destruct D as [y|]; [|contradiction].
    cbn [delegate_now listed mining_now] in E1. destruct (dm =? k) eqn:Ek; [|discriminate]. apply Z.eqb_eq in Ek as ->. injection E1 as <-.
    destruct HD as [[_ HD]|(_ & x & Hx & HD)]; [discriminate|]. injection HD as <-.
    rewrite (mining_fun e _ _ _ _ Hx Hm) in R. rewrite (New _ _ E2) in *. eapply delegated_cap; eauto. }
  assert (NoDeleg : forall dm D', (match listed k (delegate_now L dm D') with Some a => a | None => acc L k end) = acc L k \/
    exists a, listed k (delegate_now L dm D') = Some a).
  { intros dm D'. destruct (listed k _); eauto. }
  destruct i; cbn [effect] in F; try rewrite no_claim by discriminate; try (rewrite no_claim in Keep by discriminate).
  - (* InitializePool *)
    destruct F as (p & mi & v & pa & au & b & Hms & _ & _ & B). specialize (B k). cbn [listed pool_now] in B.
    destruct (p =? k) eqn:Ep; [wrong|]. destruct (v =? k) eqn:Ev; [wrong|].
    destruct (pa =? k) eqn:Epa; [|apply Keep; auto].
    apply Z.eqb_eq in Epa as ->. rewrite (Kept _ B). apply capped_refl.
  - (* FillVault *)
    destruct F as (p & mi & v & au & so & w & sv & vv & Hms & _ & _ & _ & _ & B). specialize (B k). cbn [listed pool_now] in B.
    destruct (p =? k) eqn:Ep; [wrong|].
    unfold tokens_now in B. destruct (so =? v); [apply Keep; auto|]. cbn [listed] in B.
    destruct (so =? k); [wrong|]. destruct (v =? k); [wrong|]. apply Keep; auto.
  - (* InitializeMining *)
    destruct F as (p & mi & pa & b & Hms & FM & _ & B). specialize (B k). cbn [listed] in B.
    destruct (mi =? k) eqn:Em.
    { apply Z.eqb_eq in Em as ->. cbn [allowed] in AL. destruct AL as (p2 & mi2 & pa2 & Hms2 & _ & F2 & (_ & Vo & _) & _).
      destruct Hms as [r1 E1], Hms2 as [r2 E2]. rewrite E1 in E2. cbn in E2. injection E2 as <- <- _ _.
      pose proof (eo_sys _ Henv). destruct Hm as [Ho _]. congruence. }
    destruct (pa =? k) eqn:Epa; [|apply Keep; auto].
    apply Z.eqb_eq in Epa as ->. rewrite (Kept _ B). apply capped_refl.
  - (* DepositMining *)
    destruct F as (p & q & au & dm & w & x & D & w' & x' & D' & Hms & Hw & Hx & HD & ((x1 & R & (_ & O1 & O2 & _) & _) & _ & _ & _ & _ & RD) & _ & B).
    specialize (B k). cbn [listed pool_now mining_now] in B.
    destruct (p =? k); [wrong|]. destruct (q =? k) eqn:Eq; [apply Z.eqb_eq in Eq; eapply Own; eassumption|].
    destruct (listed k (delegate_now L dm D')) as [a|] eqn:El; [|apply Keep; auto]. eapply Deleg; eassumption.
  - (* WithdrawMining *)
    destruct F as (p & q & au & dm & w & x & D & w' & x' & D' & Hms & Hw & Hx & HD & ((x1 & R & (_ & O1 & O2 & _) & _) & _ & _ & _ & RD) & _ & B).
    specialize (B k). cbn [listed pool_now mining_now] in B.
    destruct (p =? k); [wrong|]. destruct (q =? k) eqn:Eq; [apply Z.eqb_eq in Eq; eapply Own; eassumption|].
    destruct (listed k (delegate_now L dm D')) as [a|] eqn:El; [|apply Keep; auto]. eapply Deleg; eassumption.
  - (* Claim *)
    destruct F as (p & mi & v & q & ow & au & de & w & x & x1 & [rs Hms] & Hw & Hx & R & -> & B).
    destruct (Z.eq_dec q k) as [->|N].
    + assert (T : takes k ms Claim (Some (m_unclaimed (wm x1))) = m_unclaimed (wm x1)).
      { unfold takes. rewrite Hms. cbn. rewrite Z.eqb_refl. reflexivity. }
      rewrite T. rewrite (mining_fun e _ _ _ _ Hx Hm) in R.
      assert (E : acc L' k = holding (acc L k) (DMining (emptied x1))).
      { destruct B as [[_ B]|(_ & tv & tt & _ & _ & B)]; rewrite (B k); cbn [listed mining_now]; rewrite Z.eqb_refl; reflexivity. }
      rewrite (New _ _ E). destruct (refreshed_cap ts (wp_ci w) m x1 s d 0) as [C1 C2]; eauto.
      split; cbn [emptied wm m_index m_unclaimed]; [exact C1|]. lia.
    + assert (T : forall y, takes k ms Claim y = 0) by (intros y; eapply at_third; [exact Hms|exact N]). rewrite T in Keep |- *.
      destruct B as [[_ B]|(_ & tv & tt & _ & _ & B)]; specialize (B k); cbn [listed mining_now] in B; rewrite (proj2 (Z.eqb_neq _ _) N) in B; [apply Keep; auto|].
      unfold tokens_now in B. destruct (v =? de); [apply Keep; auto|]. cbn [listed] in B.
      destruct (v =? k); [wrong|]. destruct (de =? k); [wrong|]. apply Keep; auto.
  - (* ExtendStake *)
    destruct F as (p & q & au & dm & w & x & D & w' & x' & D' & Hms & Hw & Hx & HD & ((x1 & t & R & (_ & O1 & O2 & _) & _) & _ & _ & _ & _ & RD) & _ & B).
    specialize (B k). cbn [listed pool_now mining_now] in B.
    destruct (p =? k); [wrong|]. destruct (q =? k) eqn:Eq; [apply Z.eqb_eq in Eq; eapply Own; eassumption|].
    destruct (listed k (delegate_now L dm D')) as [a|] eqn:El; [|apply Keep; auto].
    destruct D' as [y'|]; [|discriminate]. destruct D as [y|]; [|contradiction].
    cbn [delegate_now listed mining_now] in El. destruct (dm =? k) eqn:Ek; [|discriminate]. apply Z.eqb_eq in Ek as ->. injection El as <-.
    destruct HD as [[_ HD]|(_ & z & Hz & HD)]; [discriminate|]. injection HD as <-.
    rewrite (mining_fun e _ _ _ _ Hz Hm) in RD. rewrite (New _ _ B) in *. eapply redelegated_cap; eauto.
    cbn in Hi. unfold is_u64 in Hi. tauto || lia.
  - (* DistributeRewards *)
    destruct F as (p & au & w & w' & Hms & Hw & _ & _ & B). specialize (B k). cbn [listed pool_now] in B.
    destruct (p =? k); [wrong|]. apply Keep; auto.
  - (* CloseMining *)
    destruct F as (mi & ow & ta & Hms & _ & B). specialize (B k). cbn [listed] in B.
    destruct (mi =? k). { destruct Hm' as [_ H2]. unfold data_of in H2. rewrite B in H2. cbn in H2. injection H2 as <-. discriminate Ht. }
    destruct (ta =? k) eqn:Ek; [|apply Keep; auto]. apply Z.eqb_eq in Ek as ->. rewrite (Kept _ B). apply capped_refl.
  - (* ChangeDelegate *)
    destruct F as (p & q & au & ow & od & nd & w & x & O & N & w' & x' & O' & N' & Hms & Hw & Hx & HO & HN & (R & _ & _ & _ & RO & RN) & _ & B).
    specialize (B k). cbn [listed pool_now mining_now] in B.
    destruct (p =? k); [wrong|]. destruct (q =? k) eqn:Eq; [apply Z.eqb_eq in Eq; eapply Own; try eassumption; reflexivity|].
    rewrite listed_app in B. destruct (listed k (delegate_now L od O')) as [a|] eqn:El; [exact (Deleg q od O O' p w _ HO Hw RO _ El B)|].
    destruct (listed k (delegate_now L nd N')) as [a|] eqn:El2; [|apply Keep; auto]. exact (Deleg q nd N N' p w _ HN Hw RN _ El2 B).
  - (* Slash *)
    destruct F as (au & p & q & w & x & w' & x' & Hms & Hw & Hx & (x1 & R & (_ & O1 & O2 & _) & _) & _ & B).
    specialize (B k). cbn [listed pool_now mining_now] in B.
    destruct (p =? k); [wrong|]. destruct (q =? k) eqn:Eq; [apply Z.eqb_eq in Eq; eapply Own; eassumption|]. apply Keep; auto.
  - (* DecreaseRewards *)
    destruct F as (au & p & q & x & x' & Hms & Hx & ((_ & O1 & O2 & _) & _) & _ & B).
    specialize (B k). cbn [listed mining_now] in B. destruct (q =? k) eqn:Eq; [|apply Keep; auto].
    apply Z.eqb_eq in Eq as ->. rewrite (New _ _ B). rewrite (mining_fun e _ _ _ _ Hx Hm) in *.
    apply (capped_after _ _ _ _ m); [apply capped_refl|assumption..].
Qed.

Lemma capped_trans s d a x b y c : capped s d a x b -> capped s d b y c -> capped s d a (x + y) c.
Proof. unfold capped. intros [A1 A2] [B1 B2]. split; [lia|]. nia. Qed.

(** whole histories *)
Lemma taken_cap s d k now L evs now' L' x : taken e s d k now L evs now' L' x -> reached e now L ->
  forall m m', is_mining e L k m -> is_mining e L' k m' -> capped s d m x m'.
Proof.
  induction 1 as [now L W|now L ts ms i L1 r evs now' L' x W Hts Hu Hi X T IH|now L ts L1 evs now' L' x W Hts Hu X T IH]; intros HR m m' Hm Hm'.
  - rewrite (mining_fun e _ _ _ _ Hm' Hm). apply capped_refl.
  - assert (W1 : within e s d k L1) by (inversion T; assumption). destruct W1 as (m1 & Hm1 & Ht1 & Hs1 & Hd1).
    destruct W as (m0 & Hm0 & Ht0 & Hs0 & Hd0). rewrite (mining_fun e _ _ _ _ Hm0 Hm) in *.
    apply capped_trans with m1; [|apply IH; try assumption; eapply reached_exec; eassumption].
    eapply exec_cap; eassumption.
  - assert (W1 : within e s d k L1) by (inversion T; assumption). destruct W1 as (m1 & Hm1 & Ht1 & Hs1 & Hd1).
    assert (HR1 : reached e ts L1).
    { eapply reached_run; [exact HR|]. econstructor; [apply step_ext; [exact Hts|exact Hu|exact X]|]. apply run_nil. }
    replace m with m1; [apply IH; assumption|].
    destruct Hm as [Ho Hd], Hm1 as [Ho1 Hdd]. destruct (X k) as (_ & Y & _). unfold owner_of, data_of in *.
    destruct (Y Ho) as [(Y1 & Y2 & _)|[_ Y2]]; [congruence|]. rewrite Y2 in Hdd. discriminate.
Qed.

Lemma taken_run s d k now L evs now' L' x : taken e s d k now L evs now' L' x -> History.run e now L evs now' L'.
Proof.
  induction 1; [apply run_nil| |]; (econstructor; [|eassumption]); [eapply step_ix; eassumption|apply step_ext; assumption].
Qed.
Lemma taken_reached s d k now L evs now' L' x : taken e s d k now L evs now' L' x -> reached e now L -> reached e now' L'.
Proof. intros T HR. eapply reached_run; [exact HR|]. eapply taken_run. exact T. Qed.
Lemma taken_end s d k now L evs now' L' x : taken e s d k now L evs now' L' x -> within e s d k L'.
Proof. induction 1; assumption. Qed.

(** with one more claim: what has been paid altogether *)
Lemma taken_claim s d k now L evs now' L' x ts ms L2 y P w m : taken e s d k now L evs now' L' x -> reached e now L ->
  is_mining e L k m -> now' <= ts -> exec e ts ms Claim L' = Ok (L2, Some y) -> account_at ms 3 k -> account_at ms 0 P ->
  is_pool e L' P w ->
  10000000000000000 * (x + y - m_unclaimed (wm m)) <= (s + d) * (p_index (wp w) - m_index (wm m)).
Proof.
  intros T HR Hm Hts X Hk HP Hw.
  assert (HR' : reached e now' L') by (eapply taken_reached; eassumption).
  destruct (taken_end _ _ _ _ _ _ _ _ _ T) as (m' & Hm' & Ht & Hs & Hd).
  pose proof (taken_cap _ _ _ _ _ _ _ _ _ T HR m m' Hm Hm') as [C1 C2].
  pose proof (exec_effect e Henv now' ts ms Claim L' L2 (Some y) HR' Hts I X) as F. cbn [effect] in F.
  destruct F as (p & mi & v & q & ow & au & de & w1 & x0 & x1 & [rs Hms] & Hw1 & Hx & R & Hy & _).
  unfold account_at in Hk, HP. rewrite Hms in Hk, HP. cbn in Hk, HP. injection Hk as <-. injection HP as <-. injection Hy as ->.
  rewrite (mining_fun e _ _ _ _ Hx Hm') in R. rewrite (pool_fun e _ _ _ _ Hw1 Hw) in R.
  destruct (reached_ok e Henv _ _ HR') as (HL & _ & _). pose proof (ok_mining e _ _ _ _ HL (proj1 Hm') (proj2 Hm')) as W.
  destruct (refreshed_cap ts (wp_ci w) m' x1 s d 0) as [D1 D2]; try assumption; try reflexivity.
  { exact (pw_ci_grow _ _ (ok_pool e _ _ _ _ HL (proj1 Hw) (proj2 Hw))). }
  { split; [exact (mw_vals _ W)|exact (mw_asc _ W)]. }
  pose proof (visible_le_index e now' L' p w ts HL Hw) as V. rewrite <- (rf_index _ _ _ _ R) in V.
  destruct (mw_share _ W), (mw_sfo _ W). nia.
Qed.

(** ** The cap is met *)
Lemma earned_flat ci ts s : forall l j, (forall d v, In (d, v) l -> visible d ci = visible ts ci) ->
  earned ci s j l ts = (visible ts ci - j) * s / 10000000000000000.
Proof.
  intros l j H. destruct l as [|[d v] r]; cbn [earned]; [reflexivity|]. rewrite (H d v (or_introl eq_refl)).
  enough (forall l s', (forall d v, In (d, v) l -> visible d ci = visible ts ci) -> earned ci s' (visible ts ci) l ts = 0) as E.
  { rewrite E; [lia|]. intros d' v' H'. apply (H d' v'). right. exact H'. }
  clear. induction l as [|[d v] r IH]; intros s' H; cbn [earned].
  - rewrite Z.sub_diag. reflexivity.
  - rewrite (H d v (or_introl eq_refl)), Z.sub_diag, IH; [reflexivity|]. intros d' v' H'. apply (H d' v'). right. exact H'.
Qed.

Lemma refreshed_flat ts ci m m' : refreshed ts ci m m' ->
  (forall d v, In (d, v) (wm_diffs m) -> d <= day_start ts -> visible d ci = visible ts ci) ->
  m_unclaimed (wm m') = m_unclaimed (wm m) + (visible ts ci - m_index (wm m)) * (m_share (wm m) + m_sfo (wm m)) / 10000000000000000.
Proof.
  intros R H. rewrite (rf_unclaimed _ _ _ _ R). f_equal. apply earned_flat. intros d v Hd. apply in_upto in Hd as [H1 H2]. eapply H; eassumption.
Qed.

Lemma struck now ts L L' r Q j auth owner k wQ mk x :
  reached e now L -> now <= ts -> is_key x -> exec e ts (strike_on Q j auth owner k) (ChangeDelegate 0 x) L = Ok (L', r) ->
  is_pool e L Q wQ -> is_mining e L k mk -> k <> j ->
  exists m', is_mining e L' k m' /\ refreshed ts (wp_ci wQ) mk m'.
Proof.
  intros HR Hts Hx X HQ Hk Hne.
  apply (change_on_ledger e Henv now) in X; [|assumption|assumption|unfold is_u64, U64; lia].
  destruct X as (Q1 & j1 & O & N & w1 & m1 & w1' & m1' & A0 & A1 & A4 & A5 & _ & Hw1 & _ & _ & _ & _ & _ & _ & _ & DO & _).
  cbn in A0, A1, A4. injection A0 as <-. injection A1 as <-. injection A4 as <-.
  destruct DO as [H|(_ & y & y' & Hy & Hy' & _ & F)]; [congruence|].
  rewrite (mining_fun e _ _ _ _ Hy Hk), with_same, (pool_fun e _ _ _ _ Hw1 HQ) in F.
  exists y'. split; [exact Hy'|exact F].
Qed.

(** a strike with a history that was complete before the expiries, then a claim *)
Lemma overtime now ts L L1 r Q j auth owner k wQ mk x ms L2 y P w :
  reached e now L -> now <= ts -> is_u64 ts -> is_key x ->
  exec e ts (strike_on Q j auth owner k) (ChangeDelegate 0 x) L = Ok (L1, r) ->
  is_pool e L Q wQ -> is_mining e L k mk -> k <> j ->
  (forall d v, In (d, v) (wm_diffs mk) -> d <= day_start ts -> visible d (wp_ci wQ) = visible ts (wp_ci wQ)) ->
  exec e ts ms Claim L1 = Ok (L2, Some y) -> account_at ms 3 k -> account_at ms 0 P -> is_pool e L1 P w ->
  y = m_unclaimed (wm mk) + (visible ts (wp_ci wQ) - m_index (wm mk)) * (m_share (wm mk) + m_sfo (wm mk)) / 10000000000000000
      + (visible ts (wp_ci w) - visible ts (wp_ci wQ)) * (m_share (wm mk) - due (day_start ts) (wm_diffs mk) + m_sfo (wm mk)) / 10000000000000000.
Proof.
  intros HR Hts Hu Hx X HQ Hk Hne Hflat XC Hk3 HP Hw.
  destruct (struck now ts L L1 r Q j auth owner k wQ mk x HR Hts Hx X HQ Hk Hne) as (m' & Hm' & R).
  assert (HR1 : reached e ts L1).
  { eapply reached_exec; [exact HR|exact Hts|exact Hu| |exact X]. split; [unfold is_u64, U64; lia|exact Hx]. }
  pose proof (exec_effect e Henv ts ts ms Claim L1 L2 (Some y) HR1 (Z.le_refl _) I XC) as F. cbn [effect] in F.
  destruct F as (p & mi & v & q & ow & au & de & w1 & x0 & x1 & [rs Hms] & Hw1 & Hx0 & R1 & Hy & _).
  unfold account_at in Hk3, HP. rewrite Hms in Hk3, HP. cbn in Hk3, HP. injection Hk3 as <-. injection HP as <-. injection Hy as ->.
  rewrite (mining_fun e _ _ _ _ Hx0 Hm'), (pool_fun e _ _ _ _ Hw1 Hw) in R1.
  rewrite (refreshed_flat _ _ _ _ R1).
  - rewrite (refreshed_flat _ _ _ _ R Hflat), (rf_index _ _ _ _ R), (rf_share _ _ _ _ R), (rf_sfo _ _ _ _ R). reflexivity.
  - intros d v0 Hd Hd2. rewrite (rf_diffs _ _ _ _ R) in Hd. unfold Spec.after in Hd. apply filter_In in Hd as [_ Hd]. cbn in Hd. lia.
Qed.

End env.
