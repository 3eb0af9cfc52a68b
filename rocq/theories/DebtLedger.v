(** C81 for ledgers. *)
From stdpp Require Import gmap.
From Verif Require Import Base OMap State Spec MapSum AccrualLemmas EffectSpec EffectLemmas Core DustSpec Ledger Program LedgerLemmas TreeLemmas
  ResLemmas RefreshLemmas WfLemmas Changes AccessLemmas LedgerSpec CodecLemmas History HistoryLemmas HistoryThms ReachThms LedgerView LedgerCore
  LedgerCoreThms LossView LedgerDust Blocked DebtSpec Debt.

Section env.
Context (e : env) (Henv : env_ok e) (Hinj : env_inj e) (Hrent : 0 < rent_min e MINING_LEN).
Context (P : pubkey) (HP : P <> 0).
Let HDon : forall ts n c, anything ts (ODonate n) c := fun _ _ _ => I.
Let HDin : forall ts k p o b c, anything ts (OInit k p o b) c := fun _ _ _ _ _ _ => I.

(** the debt is what was added up, roundings apart *)
Definition stands (now : Z) (L : ledger) (V : pubkey) (x y : Z) : Prop :=
  tracks (pool_of L P) (minings_of e P L) /\
  exists q, 0 <= q <= y /\ debt (core_of e P V now L) = x - q.

Lemma view_wf now L w : ledger_ok e now L -> is_pool e L P w ->
  pool_wf now w /\ forall k m, minings_of e P L !! k = Some m -> mining_wf m.
Proof.
  intros HL [Ho Hd]. split; [eapply ok_pool; eassumption|].
  intros k m Hk. apply in_view in Hk as [[H1 H2] _]. eapply ok_mining; eassumption.
Qed.

Lemma stands_raised now ts L L' V x y :
  pool_of L' P = pool_of L P -> minings_of e P L' = minings_of e P L ->
  stands now L V x y -> stands ts L' V (x - 10000000000000000 * (balance L' V - balance L V)) y.
Proof.
  intros Ep Em [HT (q & Hq & E)]. split; [rewrite Ep, Em; exact HT|]. exists q. split; [exact Hq|].
  unfold debt, core_of in *. cbn [c_pool c_min c_vault] in *. rewrite Ep, Em. lia.
Qed.

(** a claim that pays into the vault changes nothing there *)
Lemma paid_back now ts ms L L' r o w V t :
  ledger_ok e now L -> is_pool e L P w -> is_token e L V t ->
  (forall m b k, cpa_vault e P m b = Some k -> owner_of L k = spl_token_id e -> k = V) ->
  exec e ts ms Claim L = Ok (L', r) -> op_of e P ms Claim = Some o ->
  core_step ts o (core_of e P V now L) = Ok (core_of e P V ts L') -> given_back V ms Claim r = 0.
Proof.
  intros HL Hw HV Honly X Ho Hs. apply exec_inv in X as [X _]. cbn [process] in X.
  destruct (process_claim e ts ms L) as [[L1 x]|] eqn:E; [|discriminate]. injection X as <- <-.
  apply claim_inv in E as (pool & mint & vault & k & owner & auth & dest & w0 & m & m1 & t0 & A & Hpow & _ & Hvo & Hko & Hdo & _ & _ & _ & _ & Hpd & _ & Hkd & _ & Hkp & Hkne & Hcv & Hr & Hx & Hcl).
  destruct A as [rest A]. unfold op_of in Ho. unfold given_back. rewrite A in *. cbn [app] in *.
  destruct (Z.eqb_spec pool P) as [E0|]; [|discriminate]. rewrite E0 in *. clear E0. injection Ho as <-.
  destruct (Z.eqb_spec dest V) as [->|]; [|reflexivity].
  assert (vault = V) by (eapply Honly; eassumption). subst vault.
  assert (w0 = w) by (destruct Hw; congruence). subst w0.
  pose proof (token_ne e Henv _ _ _ _ HV Hko) as HVk.
  assert (Hb : balance L1 V = balance L V).
  { set (m2 := WMining (mining_claim (wm m1)) (wm_diffs m1)) in *. cbv zeta in Hcl.
    assert (Hv1 : acc (put_mining L k m2) V = acc L V) by (unfold put_mining; apply acc_put_data_ne; congruence).
    destruct Hcl as [[_ ->]|[_ Ht]]; [apply balance_acc; exact Hv1|].
    apply spl_transfer_inv in Ht as (s0 & d0 & _ & _ & _ & _ & _ & _ & _ & _ & [[_ ->]|(Hnd & _)]); [apply balance_acc; exact Hv1|congruence]. }
  unfold core_step, core_of in Hs. cbn [c_pool c_min c_vault] in Hs. rewrite (pool_of_is e P L w Hw) in Hs.
  apply rbind_ok in Hs as (m' & Hk & Hs).
  assert (m' = m).
  { unfold get_min in Hk. destruct (minings_of e P L !! k) as [m''|] eqn:Em; [|discriminate]. injection Hk as ->.
    apply in_view in Em as [[_ Em] _]. congruence. }
  subst m'. rewrite Hr in Hs. cbn [rbind] in Hs. destruct (_ <=? _); [|discriminate]. cbn [ensure rbind] in Hs.
  injection Hs as _ _ Hs. lia.
Qed.

Lemma stands_exec now ts ms i L L' r w V t x y :
  0 <= now -> now <= ts -> is_u64 ts -> ix_in_range i ->
  ledger_ok e now L -> ledger_ok e ts L' -> minings_ok e L -> bumps_ok e L -> addresses_ok e L ->
  LedgerCore.after e P anything now L w V t -> orderly_ix e P anything now ts ms i L -> exec e ts ms i L = Ok (L', r) ->
  stands now L V x y -> stands ts L' V (x + ix_adds e P now ts ms i L L' r) (y + ix_slack e P now ts ms i L).
Proof.
  intros Hn Hts Hu Hr HL HL' HM HB HA HAf O X Hx. pose proof HAf as [HPV Hlam Honly Htok Hmint Howner Hcore].
  pose proof HPV as (Hw & Hty & HV).
  destruct (exec_token e Henv now ts ms i L L' r V t Hts HL X Htok) as (t' & Htok' & _).
  destruct (view_wf now L w HL Hw) as [Ww Wm].
  assert (Ew : pool_of L P = w) by (apply (pool_of_is e); exact Hw).
  unfold ix_adds, ix_slack. rewrite (vault_at_some e P _ _ _ HPV).
  destruct (pool_named e ts ms i L L' r X) as [P' HP'].
  destruct (Z.eq_dec P' P) as [->|Hne].
  - pose proof Hx as [HT (q & Hq & Eq)]. rewrite Ew in HT.
    assert (Ec : core_of e P V now L = Core w (minings_of e P L) (balance L V) now) by (unfold core_of; rewrite Ew; reflexivity).
    destruct (own_step e Henv Hinj P HP anything now ts ms i L L' r w V t Hts HL HM HB HA O X HP' Hw Hty Htok Honly)
      as [(o & Ho & Hs)|[(o & c & n & Ho & Hs & Hcn & Hnn & Hd & -> & Ha6 & ->)|[-> Hc]]].
    + rewrite Ho.
      assert (Hg : given_back V ms i r = 0) by (destruct i; try reflexivity; exact (paid_back now ts ms L L' r o w V t HL Hw Htok Honly X Ho Hs)).
      rewrite Hg. rewrite Ec in Hs.
      pose proof (debt_step now ts (balance L V) w _ Hts ltac:(lia) Ww Wm HT o _ (op_of_wf e P ms i o Hr Ho) Hs) as [HT' (q' & Hq' & Eq')].
      rewrite <- Ec in *. cbn [c_pool c_min core_of] in HT'. split; [exact HT'|].
      exists (q + q'). split; [lia|]. lia.
    + rewrite Ho, (given_back_eq _ _ _ Ha6). rewrite Ec in Hs.
      pose proof (debt_step now ts (balance L V) w _ Hts ltac:(lia) Ww Wm HT o _ (op_of_wf e P ms Claim o Hr Ho) Hs) as [HT' (q' & Hq' & Eq')].
      rewrite <- Ec in *. unfold core_step, vault_add in Hd. destruct (_ <? _); [|discriminate]. cbn [rbind] in Hd.
      assert (Hd' : core_of e P V ts L' = Core (c_pool c) (c_min c) (c_vault c + n) ts) by congruence. clear Hd.
      split. { apply (f_equal c_pool) in Hd' as E1. apply (f_equal c_min) in Hd' as E2. cbn [core_of c_pool c_min] in E1, E2. rewrite E1, E2. exact HT'. }
      exists (q + q'). split; [lia|]. rewrite Hd'. unfold debt in Eq' |- *. cbn [c_pool c_min c_vault]. unfold debt in Eq. lia.
    + assert (Hd0 : debt (core_of e P V ts L') = debt (core_of e P V now L)) by (rewrite Hc; reflexivity).
      assert (Hm0 : minings_of e P L' = minings_of e P L) by (apply (f_equal c_min) in Hc; exact Hc).
      assert (Hp0 : pool_of L' P = pool_of L P) by (apply (f_equal c_pool) in Hc; exact Hc).
      split. { rewrite Hp0, Hm0, Ew. exact HT. }
      destruct (op_of e P ms CloseMining) as [o|] eqn:Ho.
      2:{ exists q. split; [lia|]. apply (f_equal c_vault) in Hc. cbn [core_of c_vault] in Hc. lia. }
      assert (Hk : adds ts o (core_of e P V now L) = 0 /\ slack ts o (core_of e P V now L) = 0).
      { cbn [op_of] in Ho. destruct (map mt_key ms) as [|k [|? [|? [|? [|? ?]]]]] eqn:Em; try discriminate.
        destruct (_ =? _); [|discriminate]. injection Ho as <-.
        assert (Hz : minings_of e P L !! k = None).
        { rewrite <- Hm0, min_look. destruct (live e P (acc L' k)) as [m0|] eqn:El; [|reflexivity].
          apply live_some in El as [Hl1 Hl2].
          pose proof (closed_mining e ts ms L L' r k X ltac:(unfold account_at; rewrite Em; reflexivity)) as Hz.
          destruct Hl1 as [_ Hl1], Hz as [_ Hz]. rewrite Hz in Hl1. injection Hl1 as <-. cbn in Hl2. congruence. }
        unfold adds, slack, refresh_slack. cbn [core_of c_min]. unfold pubkey in *. rewrite Hz. auto. }
      destruct Hk as [-> ->]. exists q. cbn [given_back]. split; [lia|]. lia.
  - destruct (op_of e P ms i) as [o|] eqn:Ho.
    { exfalso. apply op_of_at in Ho. apply Hne. eapply at_fun; eassumption. }
    rewrite Z.add_0_r. apply (stands_raised now ts L L' V x y).
    + apply pool_of_acc. exact (other_pool e Henv P now ts ms i L L' r P' w Hts X HP' Hne Hw).
    + exact (other_minings_of e Henv Hinj P HP anything now ts ms i L L' r P' Hts HL HM HA O X HP' Hne).
    + exact Hx.
Qed.

Lemma stands_ext now ts L L' w V t x y :
  minings_ok e L -> LedgerCore.after e P anything now L w V t -> external e L L' -> orderly_ext e P L L' ->
  stands now L V x y -> stands ts L' V (x + ext_adds e P L L') y.
Proof.
  intros HM [HPV Hlam Honly Htok Hmint Howner Hcore] X O Hx.
  pose proof HPV as (Hw & Hty & HV).
  unfold ext_adds. rewrite (vault_at_some e P _ _ _ HPV).
  destruct (ext_pool e L L' P w X Hw Hlam) as [Hw' Hlam'].
  apply (stands_raised now ts L L' V x y); [| |exact Hx].
  - rewrite (pool_of_is e P _ _ Hw), (pool_of_is e P _ _ Hw'). reflexivity.
  - eapply (ext_minings_of e P HP); eassumption.
Qed.

(** minings opened before the pool is initialised *)
Lemma stands_fresh ts L w V :
  is_pool e L P w -> fresh_pool w -> balance L V = 0 ->
  (forall k m, minings_of e P L !! k = Some m -> exists o b, m = WMining (mining_initialize P o b) []) ->
  stands ts L V 0 0.
Proof.
  intros Hw (b & d1 & d2 & d3 & mt & Ef) Hb Hm. unfold stands. rewrite (pool_of_is e P L w Hw). split.
  - rewrite Ef. split; [reflexivity|]. intros k m Hk. destruct (Hm k m Hk) as (o & b0 & ->). cbn. lia.
  - exists 0. split; [lia|]. unfold debt, core_of. cbn [c_pool c_min c_vault]. rewrite (pool_of_is e P L w Hw), Hb, Ef. cbn [wp p_avail wp_ci].
    rewrite (msum_ext _ (fun _ => 0)).
    + change (fun _ : wmining => 0) with (fun m : wmining => 0 * (fun _ => 0) m). rewrite msum_scale. lia.
    + intros k m Hk. destruct (Hm k m Hk) as (o & b0 & ->). reflexivity.
Qed.

Definition balanced (now : Z) (L : ledger) (x y : Z) : Prop :=
  (LedgerCore.before e P L /\ x = 0 /\ y = 0) \/
  exists w V t, LedgerCore.after e P anything now L w V t /\ stands now L V x y.

Lemma owing_orderly now L now' L' x y : owing_run e P now L now' L' x y -> orderly_run e P anything now L now' L'.
Proof. induction 1; [constructor|eapply or_ix; eassumption|eapply or_ext; eassumption]. Qed.

Lemma owing_balanced now L now' L' x y x0 y0 :
  owing_run e P now L now' L' x y -> good e P anything now L -> balanced now L x0 y0 -> balanced now' L' (x0 + x) (y0 + y).
Proof.
  intros H. revert x0 y0.
  induction H as [|now L ts ms i L1 r now' L' x y Hts Hu Hr X O R IH|now L ts L1 now' L' x y Hts Hu X O R IH];
    intros x0 y0 HG HB; [rewrite !Z.add_0_r; assumption| |]; rewrite !Z.add_assoc; pose proof HG as (Hn & HL & HM & HBu & HA & _).
  - assert (HG1 : good e P anything ts L1).
    { eapply (run_good e Henv Hinj Hrent P HP anything HDon HDin); [|exact HG]. eapply or_ix; try eassumption. constructor. }
    pose proof HG1 as (_ & HL1 & _).
    apply IH; [assumption|]. destruct HB as [(HB & -> & ->)|(w & V & t & HB & Hx)].
    + assert (E1 : ix_adds e P now ts ms i L L1 r = 0) by (unfold ix_adds; rewrite before_no_vault by assumption; reflexivity).
      assert (E2 : ix_slack e P now ts ms i L = 0) by (unfold ix_slack; rewrite before_no_vault by assumption; reflexivity).
      rewrite E1, E2.
      destruct (before_exec e Henv Hinj P HP anything _ _ _ _ _ _ _ Hts HL HM HA HB O X) as [[(f & d & ->) Hp]|HS']; [right|left; auto].
      destruct (before_init e Henv Hinj P anything HDin _ _ _ _ _ _ _ _ Hts HL Hu HB O X Hp) as (w & V & t & HS' & Hf & Hb & Hm).
      exists w, V, t. split; [assumption|].
      eapply stands_fresh; [exact (proj1 (af_pool _ _ _ _ _ _ _ _ HS'))|exact Hf|exact Hb|exact Hm].
    + right. destruct (after_exec e Henv Hinj P HP anything HDon _ _ _ _ _ _ _ _ _ _ Hn Hts Hu Hr HL HL1 HM HBu HA HB O X)
        as (w' & t' & HS'). exists w', V, t'. split; [assumption|].
      exact (stands_exec _ _ _ _ _ _ _ _ _ _ _ _ Hn Hts Hu Hr HL HL1 HM HBu HA HB O X Hx).
  - assert (HG1 : good e P anything ts L1).
    { eapply (run_good e Henv Hinj Hrent P HP anything HDon HDin); [|exact HG]. eapply or_ext; try eassumption. constructor. }
    pose proof HG1 as (_ & HL1 & _).
    apply IH; [assumption|]. destruct HB as [(HB & -> & ->)|(w & V & t & HB & Hx)].
    + assert (E : ext_adds e P L L1 = 0) by (unfold ext_adds; rewrite before_no_vault by assumption; reflexivity).
      rewrite E. left. split; [|auto]. exact (before_ext e Henv P HP L L1 HB HM X O).
    + right. destruct (after_ext e Henv P HP anything HDon _ _ _ _ _ _ _ Hn Hts Hu HL HL1 HM HB X O) as (t' & HS').
      exists w, V, t'. split; [assumption|].
      exact (stands_ext _ _ _ _ _ _ _ _ _ HM HB X O Hx).
Qed.

Lemma owing_stands now L x y V w :
  owing e P now L x y -> pool_vault e L P V w -> good e P anything now L /\ stands now L V x y.
Proof.
  intros (L0 & HG & HD & H) HV.
  assert (H0 : good e P anything 0 L0) by (apply (genesis_good e Henv); assumption).
  assert (H1 : LedgerCore.before e P L0) by (apply (genesis_before e Henv); assumption).
  split. { eapply (run_good e Henv Hinj Hrent P HP anything HDon HDin); [eapply owing_orderly; exact H|exact H0]. }
  destruct (owing_balanced 0 L0 now L x y 0 0 H H0 (or_introl (conj H1 (conj eq_refl eq_refl)))) as [(HB & _)|(w' & V' & t & HA & HL)].
  - exfalso. pose proof (vault_at_some e P _ _ _ HV) as E. rewrite (before_no_vault e P _ HB) in E. discriminate.
  - pose proof (vault_at_some e P _ _ _ HV) as E. rewrite (vault_at_some e P _ _ _ (af_pool _ _ _ _ _ _ _ _ HA)) in E.
    injection E as <-. exact HL.
Qed.

(** ** What stakers see *)
Lemma debt_is now L x y V w l :
  owing e P now L x y -> pool_vault e L P V w -> lists_minings e L P l ->
  exists q, 0 <= q <= y /\
    10000000000000000 * p_avail (wp w) + zsum (map (fun z => owed (wp_ci w) (snd z)) l) =
    10000000000000000 * balance L V + x - q.
Proof.
  intros HO HV [Hn Hl]. destruct (owing_stands _ _ _ _ _ _ HO HV) as [_ [_ (q & Hq & E)]].
  exists q. split; [exact Hq|]. unfold debt, core_of in E. cbn [c_pool c_min c_vault] in E. rewrite (pool_of_is e P L w (proj1 HV)) in E.
  assert (Hin : forall k m, In (k, m) l <-> minings_of e P L !! k = Some m) by (intros k m; rewrite Hl; apply in_view).
  pose proof (list_msum_eq (f := owed (wp_ci w)) l (minings_of e P L) Hn Hin) as E2.
  unfold pubkey in *. lia.
Qed.

Lemma returns_refresh ts L w k m a :
  is_pool e L P w -> mining_in e L P k m -> claim_returns e ts L P k a ->
  exists m1, refresh ts (wp_ci w) m = Ok m1 /\ a = m_unclaimed (wm m1).
Proof.
  intros HV [[Ho Hd] Hp] (ms & L' & A0 & A3 & X).
  apply exec_inv in X as [X _]. cbn [process] in X. apply rbind_ok in X as ([L1 a1] & X & E). injection E as -> ->.
  apply claim_inv in X as (pool & mint' & vault & mining & owner' & auth' & dest & w0 & m0 & m1 & t0 & A & _ & _ & _ & Hmo & _ & _ & _ & _ & _ & Hpd & _ & Hmd & _ & Hmp & _ & _ & Hr & Ea & _).
  assert (E0 : pool = P) by (symmetry; eapply at_fun; [exact A0|at_]). assert (k = mining) by (eapply at_fun; [exact A3|at_]).
  rewrite E0 in *. clear E0 pool. subst mining. rewrite Hmd in Hd. injection Hd as ->.
  destruct HV as [_ Hwd]. rewrite Hwd in Hpd. injection Hpd as <-. exists m1. auto.
Qed.

Lemma claim_owed now ts L w k m a :
  ledger_ok e now L -> now <= ts -> is_pool e L P w -> mining_in e L P k m -> claim_returns e ts L P k a ->
  10000000000000000 * a <= owed (wp_ci w) m /\
  ((forall i, ~ In (ts, i) (wp_ci w)) ->
   owed (wp_ci w) m <= 10000000000000000 * a + (10000000000000000 - 1) * (1 + count_due (day_start ts) (wm_diffs m))).
Proof.
  intros HL Hts HV Hm Hc. destruct (returns_refresh _ _ _ _ _ _ HV Hm Hc) as (m1 & Hr & ->).
  pose proof HV as [Hpo Hpd]. pose proof (ok_pool e now L P w HL Hpo Hpd) as Ww.
  destruct Hm as [[Hmo Hmd] _]. pose proof (mining_wf_min _ (ok_mining e now L k m HL Hmo Hmd)) as Ho.
  pose proof (pool_wf_hist _ _ Ww) as Hh.
  assert (Hd : dates (fun k => k <= day_start ts) (wp_ci w)) by (eapply c_dates; eassumption).
  pose proof (refresh_refreshed _ _ _ _ Hh Ho Hr) as R.
  destruct (refreshed_owed _ _ Hh Hd _ _ (mo_index _ Ho) R) as (q & Hq & Eq & Ei & Ee & Hd1).
  rewrite (owed_now _ _ Hh Hd m1 Ei) in Eq.
  pose proof (late_nonneg _ _ Hh Hd) as Hlt.
  assert (He : 0 <= eff m1 (day_start ts)).
  { pose proof (refresh_ok _ _ _ _ Hh Ho Hr) as R2. cbv zeta in R2. destruct R2 as (_ & _ & _ & _ & F & _ & _ & _ & _ & _ & _ & S & _).
    unfold eff. rewrite due_nil_below by assumption. pose proof (mo_sfo _ Ho). lia. }
  split; [nia|]. intros Hno.
  assert (E0 : late ts (wp_ci w) = 0).
  { unfold late, seen. enough (visible (ts + 1) (wp_ci w) = visible ts (wp_ci w)) by lia. unfold visible. rewrite !visible_all; [reflexivity| |].
    all: intros d i Hin; pose proof (Hd d i Hin) as Hle; cbv beta in Hle; pose proof (day_le ts).
    - destruct (Z.eq_dec d ts) as [->|]; [exfalso; exact (Hno i Hin)|lia].
    - lia. }
  rewrite E0 in Eq. lia.
Qed.

Lemma debt_claims now ts L x y V w l a :
  owing e P now L x y -> pool_vault e L P V w -> lists_minings e L P l -> now <= ts ->
  (forall k m, In (k, m) l -> claim_returns e ts L P k (a k)) ->
  10000000000000000 * (p_avail (wp w) + zsum (map (fun z => a (fst z)) l)) <= 10000000000000000 * balance L V + x /\
  ((forall i, ~ In (ts, i) (wp_ci w)) ->
   10000000000000000 * balance L V + x <=
   10000000000000000 * (p_avail (wp w) + zsum (map (fun z => a (fst z)) l)) + y
   + (10000000000000000 - 1) * zsum (map (fun z => 1 + count_due (day_start ts) (wm_diffs (snd z))) l)).
Proof.
  intros HO HV Hl Hts Hc. destruct (debt_is _ _ _ _ _ _ _ HO HV Hl) as (q & Hq & E).
  destruct (owing_stands _ _ _ _ _ _ HO HV) as [(_ & HL & _) _].
  assert (Hin : forall k m, In (k, m) l -> mining_in e L P k m) by (intros; apply Hl; assumption).
  assert (H : 10000000000000000 * zsum (map (fun z => a (fst z)) l) <= zsum (map (fun z => owed (wp_ci w) (snd z)) l) /\
    ((forall i, ~ In (ts, i) (wp_ci w)) ->
     zsum (map (fun z => owed (wp_ci w) (snd z)) l) <= 10000000000000000 * zsum (map (fun z => a (fst z)) l)
       + (10000000000000000 - 1) * zsum (map (fun z => 1 + count_due (day_start ts) (wm_diffs (snd z))) l))).
  { clear E Hl. induction l as [|[k m] r IH]; cbn [map zsum fst snd]; [lia|].
    destruct IH as [I1 I2]; [intros k0 m0 H0; exact (Hc k0 m0 (or_intror H0))|intros k0 m0 H0; exact (Hin k0 m0 (or_intror H0))|].
    destruct (claim_owed now ts L w k m (a k) HL Hts (proj1 HV) (Hin _ _ (or_introl eq_refl)) (Hc _ _ (or_introl eq_refl))) as [C1 C2].
    split; [lia|]. intros Hno. specialize (I2 Hno). specialize (C2 Hno). lia. }
  destruct H as [H1 H2]. split; [lia|]. intros Hno. specialize (H2 Hno). lia.
Qed.
End env.
