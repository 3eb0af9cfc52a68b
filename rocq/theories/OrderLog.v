(** Proofs of C88 and C89 in orderly histories. *)
From stdpp Require Import gmap.
From Verif Require Import Base OMap State Spec Core EffectSpec Ledger Program LedgerLemmas LedgerSpec
  CodecLemmas WfLemmas AccrualLemmas ResLemmas TreeLemmas History HistoryLemmas AccessLemmas HistoryThms ReachThms CoreInv CoreThms LedgerView LedgerCore LedgerCoreThms Leave Worth FreezeSpec CapSpec
  IncomeSpec DiarySpec LogSpec Log CompareSpec Compare LongerSpec Longer PropsCompare PropsLonger OwnSpec Own PropsOwn OwnLongSpec OwnLong OrderLogSpec.

Section env.
Context (e : env) (Henv : env_ok e) (Hinj : env_inj e) (Hrent : 0 < rent_min e MINING_LEN).
Context (P : pubkey) (HP : P <> 0).
Local Notation orderly := (orderly e P disciplined).
Local Notation good_of HO := (orderly_good e Henv Hinj Hrent P HP disciplined disciplined_donate disciplined_init _ _ HO).

Lemma orderly_log_full D k now L now' L' b x : orderly_log e P k D now L now' L' b x -> full_log e P k now L now' L' b x.
Proof. induction 1; [constructor; assumption|eapply fl_ix; eassumption|eapply fl_ext; eassumption]. Qed.

(** the history reaches every entry in an orderly way *)
Lemma orderly_log_split k now L now' L' b x : orderly_log e P k disciplined now L now' L' b x -> orderly now L ->
  forall b1 ts i bs l b2, b = b1 ++ (ts, i, bs, l) :: b2 -> exists now1 L1 x1, full_log e P k now L now1 L1 b1 x1 /\ orderly now1 L1 /\ now1 <= ts.
Proof.
  induction 1 as [now L O OM|now L ts0 ms i0 L1 r now' L' b x O OM Hts Hu Hi X OI HH HI IH|now L ts0 L1 now' L' b x O OM Hts Hu X OE HI IH];
    intros HO b1 ts i bs l b2 E.
  - destruct b1; discriminate.
  - assert (HO1 : orderly ts0 L1) by (eapply orderly_snoc; eassumption).
    destruct (logged_with P k ts0 ms i0) as [|z t] eqn:En.
    + destruct (IH HO1 _ _ _ _ _ _ E) as (n2 & L2 & x2 & F & O2 & H2). exists n2, L2, (takes k ms i0 r + x2).
      split; [|split; assumption]. pose proof (fl_ix e P k _ _ _ _ _ _ _ _ _ _ _ O OM Hts Hu Hi X HH F) as G. rewrite En in G. exact G.
    + pose proof (logged_with_short _ _ _ _ _ _ _ En) as ->. cbn [app] in E. destruct b1 as [|z1 b1].
      * exists now, L, 0. split; [constructor; assumption|]. split; [exact HO|]. injection E as -> _.
        unfold logged_with in En. destruct (names _ _ _); [|discriminate]. destruct (writes_pool i0), (places k ms i0); inversion En; subst; exact Hts.
      * injection E as <- E. destruct (IH HO1 _ _ _ _ _ _ E) as (n2 & L2 & x2 & F & O2 & H2). exists n2, L2, (takes k ms i0 r + x2).
        split; [|split; assumption]. pose proof (fl_ix e P k _ _ _ _ _ _ _ _ _ _ _ O OM Hts Hu Hi X HH F) as G. rewrite En in G. exact G.
  - assert (HO1 : orderly ts0 L1).
    { destruct HO as (L0 & G & Hd & R0). exists L0. split; [assumption|]. split; [assumption|]. eapply run_ext; eassumption. }
    destruct (IH HO1 _ _ _ _ _ _ E) as (n2 & L2 & x2 & F & O2 & H2). exists n2, L2, x2. split; [eapply fl_ext; eassumption|split; assumption].
Qed.

(** an address is a mining of one pool only *)
Lemma same_pool now L m now1 L1 m1 k : orderly now L -> orderly now1 L1 -> mining_in e L P k m -> is_mining e L1 k m1 -> m_type (wm m1) = 2 -> mining_in e L1 P k m1.
Proof.
  intros HO HO1 [Hm Hp] Hm1 T1. split; [exact Hm1|].
  destruct (good_of HO) as (_ & _ & HM & _ & HA & _). destruct (good_of HO1) as (_ & _ & _ & _ & HA1 & _).
  destruct (typed e P HP L k m HM Hm Hp) as [T _].
  pose proof (HA k m Hm T) as C. pose proof (HA1 k m1 Hm1 T1) as C1. destruct (ei_mining e Hinj _ _ _ _ _ _ _ C C1) as (_ & E & _). congruence.
Qed.

Lemma orderly_bounds now L k m w d : orderly now L -> mining_in e L P k m -> is_pool e L P w -> p_type (wp w) = 1 -> day_start now <= d ->
  0 <= eff m d /\ eff m d <= all w d /\ all w d <= 18446744073709551615.
Proof.
  intros HO Hm Hw T Hd. destruct (good_of HO) as (_ & HL & _ & _ & _ & [HB|(w' & V & t & HA)]).
  { rewrite (bf_pool _ _ _ HB w Hw) in T. discriminate. }
  pose proof (af_pool _ _ _ _ _ _ _ _ HA) as HV. assert (w' = w) by (destruct HV as [[? ?] _], Hw; congruence). subst w'.
  pose proof (orderly_reachable e Henv Hinj Hrent P HP disciplined disciplined_donate disciplined_init (fun _ _ _ H => H) _ _ _ _ HO HV) as HR.
  apply reachable_inv in HR. pose proof (i_total _ _ _ _ _ HR) as TT. cbn [core_of c_pool] in TT. rewrite (pool_of_is e P L w Hw) in TT.
  split; [eapply eff_nonneg; apply (i_min _ _ _ _ _ HR k m); apply in_view; exact Hm|]. split.
  - pose proof (shares_cover e Henv Hinj Hrent P HP disciplined disciplined_donate disciplined_init (fun _ _ _ H => H) now L V w d [(k, m)] HO HV Hd) as C.
    cbn [map fst snd zsum] in C. unfold all. rewrite Z.add_0_r in C. apply C.
    + constructor; [intros []|constructor].
    + intros k0 m0 [E|[]]. injection E as <- <-. exact Hm.
  - pose proof (ok_pool e _ _ _ _ HL (proj1 Hw) (proj2 Hw)) as PW. assert (VV : values (fun v => 0 <= v) (wp_diffs w)) by (intros k0 v0 I0; pose proof (pw_diffs_vals _ _ PW k0 v0 I0) as U; unfold is_u64 in U; lia).
    pose proof (due_bounds d _ VV). unfold all, U64 in *. lia.
Qed.

(** what C88 and C89 ask for at the distributions *)
Lemma orderly_whenever k m0 now L now' L' b x : orderly_log e P k disciplined now L now' L' b x -> orderly now L -> mining_in e L P k m0 ->
  whenever e P k now L b (fun ts w m => 0 <= eff m (day_start ts) /\ eff m (day_start ts) <= all w (day_start ts) /\ all w (day_start ts) <= 18446744073709551615).
Proof.
  intros HF HO HM b1 ts bs l b2 now1 L1 y w m E F Hw Hm.
  destruct (orderly_log_split _ _ _ _ _ _ _ HF HO _ _ _ _ _ _ E) as (n2 & L2 & x2 & F2 & O2 & H2).
  pose proof (orderly_reached e P _ _ _ HO) as R.
  destruct (full_log_running _ _ _ _ _ _ _ _ _ F) as [(w0 & Hw0 & _) (m1 & Hm1 & _)].
  destruct (full_log_end_pool _ _ _ _ _ _ _ _ _ F2) as (v & Hv & Tv). destruct (full_log_end _ _ _ _ _ _ _ _ _ F2) as (u & Hu & Tu).
  destruct (same_full_log e e Henv Henv _ _ _ _ _ _ _ _ _ _ _ _ _ _ _ _ _ _ _ _ _ _ _ R R F2 F Hw0 Hw0 ltac:(unfold pools_alike; tauto) Hm1 Hm1 ltac:(unfold alike; tauto) Hv Hw Hu Hm) as (_ & A & B).
  assert (Hd : day_start n2 <= day_start ts) by (rewrite <- !bod_day_start; apply bod_mono; exact H2).
  pose proof (orderly_bounds n2 L2 k u v (day_start ts) O2 (same_pool _ _ _ _ _ _ _ HO O2 HM Hu Tu) Hv Tv Hd) as Q.
  rewrite (eff_alike _ _ _ B), (all_alike _ _ _ A) in Q. exact Q.
Qed.
End env.

Lemma whenever_weak e P k now L b (Q R : Z -> wpool -> wmining -> Prop) : (forall ts w m, Q ts w m -> R ts w m) -> whenever e P k now L b Q -> whenever e P k now L b R.
Proof. intros H W b1 ts bs l b2 now1 L1 y w m E F Hw Hm. apply H. eapply W; eassumption. Qed.

Lemma orderly_own e1 e2 : env_ok e1 -> env_ok e2 -> env_inj e1 -> env_inj e2 -> 0 < rent_min e1 MINING_LEN -> 0 < rent_min e2 MINING_LEN ->
  forall P1 P2 k1 k2 now1 L1 now1' L1' now2 L2 now2' L2' b c x y v w v' w' m n m' n' s, P1 <> 0 -> P2 <> 0 ->
  orderly e1 P1 disciplined now1 L1 -> orderly e2 P2 disciplined now2 L2 ->
  orderly_log e1 P1 k1 disciplined now1 L1 now1' L1' b x -> orderly_log e2 P2 k2 disciplined now2 L2 now2' L2' c y -> Forall2 staking_more b c ->
  0 <= s -> s = 18446744073709551615 \/ whenever e1 P1 k1 now1 L1 b (fun ts _ m => eff m (day_start ts) <= s) ->
  is_pool e1 L1 P1 v -> is_pool e2 L2 P2 w -> mining_in e1 L1 P1 k1 m -> mining_in e2 L2 P2 k2 n -> stakes_more (day_start now1) v w m n ->
  Z.of_nat (length (wp_diffs v)) + how_many dates_pool b <= 365 ->
  is_pool e1 L1' P1 v' -> is_pool e2 L2' P2 w' -> is_mining e1 L1' k1 m' -> is_mining e2 L2' k2 n' ->
  10000000000000000 * y + owed (wp_ci w') n' <= 10000000000000000 * x + owed (wp_ci v') m' +
    9999999999999999 * (how_many works b + how_many opens b + Z.of_nat (length (wm_diffs m))) + s * how_many distributes b /\
  forall d, eff n' d <= eff m' d.
Proof.
  intros H1 H2 J1 J2 R1 R2 P1 P2 k1 k2 now1 L1 now1' L1' now2 L2 now2' L2' b c x y v w v' w' m n m' n' s N1 N2 O1 O2 F1 F2 B Hs Q V W M N S RM V' W' M' N'.
  pose proof (orderly_whenever e1 H1 J1 R1 P1 N1 _ _ _ _ _ _ _ _ F1 O1 M) as Q1. pose proof (orderly_whenever e2 H2 J2 R2 P2 N2 _ _ _ _ _ _ _ _ F2 O2 N) as Q2.
  eapply (own_stake e1 e2 H1 H2 P1 P2 k1 k2 now1 L1 now1' L1' now2 L2 now2' L2'); try eassumption.
  - exact (orderly_reached e1 P1 _ _ _ O1).
  - exact (orderly_reached e2 P2 _ _ _ O2).
  - eapply orderly_log_full; eassumption.
  - eapply orderly_log_full; eassumption.
  - destruct Q as [->|Q].
    + eapply whenever_weak; [|exact Q1]. cbv beta. intros. lia.
    + intros b1 ts bs l b2 n1 L y0 w0 m0 E F Hw Hm. pose proof (Q1 _ _ _ _ _ _ _ _ _ _ E F Hw Hm) as X1. pose proof (Q _ _ _ _ _ _ _ _ _ _ E F Hw Hm) as X2. cbv beta in *. lia.
  - eapply whenever_weak; [|exact Q2]. cbv beta. intros. lia.
  - apply M.
  - apply N.
Qed.
Lemma orderly_own_longer e1 e2 : env_ok e1 -> env_ok e2 -> env_inj e1 -> env_inj e2 -> 0 < rent_min e1 MINING_LEN -> 0 < rent_min e2 MINING_LEN ->
  forall P1 P2 k1 k2 now1 L1 now1' L1' now2 L2 now2' L2' b c x y v w v' w' m n m' n' s, P1 <> 0 -> P2 <> 0 ->
  orderly e1 P1 disciplined now1 L1 -> orderly e2 P2 disciplined now2 L2 ->
  orderly_log e1 P1 k1 disciplined now1 L1 now1' L1' b x -> orderly_log e2 P2 k2 disciplined now2 L2 now2' L2' c y -> Forall2 staking_longer b c ->
  0 <= s -> s = 18446744073709551615 \/ whenever e1 P1 k1 now1 L1 b (fun ts _ m => eff m (day_start ts) <= s) ->
  is_pool e1 L1 P1 v -> is_pool e2 L2 P2 w -> mining_in e1 L1 P1 k1 m -> mining_in e2 L2 P2 k2 n -> holds_more (day_start now1) v w m n ->
  Z.of_nat (length (wp_diffs v)) + how_many dates_pool b <= 365 -> Z.of_nat (length (wm_diffs n)) + how_many opens c <= 50 ->
  is_pool e1 L1' P1 v' -> is_pool e2 L2' P2 w' -> is_mining e1 L1' k1 m' -> is_mining e2 L2' k2 n' ->
  10000000000000000 * y + owed (wp_ci w') n' <= 10000000000000000 * x + owed (wp_ci v') m' +
    9999999999999999 * (how_many works b + how_many opens b + Z.of_nat (length (wm_diffs m))) + s * how_many distributes b /\
  forall d, eff n' d <= eff m' d.
Proof.
  intros H1 H2 J1 J2 R1 R2 P1 P2 k1 k2 now1 L1 now1' L1' now2 L2 now2' L2' b c x y v w v' w' m n m' n' s N1 N2 O1 O2 F1 F2 B Hs Q V W M N S RM RN V' W' M' N'.
  pose proof (orderly_whenever e1 H1 J1 R1 P1 N1 _ _ _ _ _ _ _ _ F1 O1 M) as Q1. pose proof (orderly_whenever e2 H2 J2 R2 P2 N2 _ _ _ _ _ _ _ _ F2 O2 N) as Q2.
  eapply (own_longer_stake e1 e2 H1 H2 P1 P2 k1 k2 now1 L1 now1' L1' now2 L2 now2' L2'); try eassumption.
  - exact (orderly_reached e1 P1 _ _ _ O1).
  - exact (orderly_reached e2 P2 _ _ _ O2).
  - eapply orderly_log_full; eassumption.
  - eapply orderly_log_full; eassumption.
  - destruct Q as [->|Q].
    + eapply whenever_weak; [|exact Q1]. cbv beta. intros. lia.
    + intros b1 ts bs l b2 n1 L y0 w0 m0 E F Hw Hm. pose proof (Q1 _ _ _ _ _ _ _ _ _ _ E F Hw Hm) as X1. pose proof (Q _ _ _ _ _ _ _ _ _ _ E F Hw Hm) as X2. cbv beta in *. lia.
  - eapply whenever_weak; [|exact Q2]. cbv beta. intros. lia.
  - apply M.
  - apply N.
Qed.
