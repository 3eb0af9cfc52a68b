(** One deposit made twice from the same ledger: once without a delegate, once with one. *)
From stdpp Require Import gmap.
From Verif Require Import Base OMap State Spec Ledger Program ResLemmas TreeLemmas AccrualLemmas RefreshLemmas LedgerLemmas LedgerSpec
  FrameLemmas CodecLemmas WfLemmas History HistoryLemmas Changes AccessLemmas HistoryThms ReachThms Core CoreInv LedgerView LedgerCore
  EffectSpec EffectLemmas EffectMethods EffectThms EffectMore EffectCompare SuccessSpec SuccessLemmas LedgerCoreThms Determined WorthSpec Worth DoubleSpec.

(** ** Methods *)
Lemma deposit_twice ts w m a p x wA mA dA wB mB dB :
  deposit ts w m a p None = Ok (wA, mA, dA) -> deposit ts w m a p (Some (Ok x)) = Ok (wB, mB, dB) ->
  mB = mA /\ dA = None /\ wp_diffs wB = wp_diffs wA /\ only_total wA wB /\
  p_total (wp wB) = p_total (wp wA) + a.
Proof.
  intros HA HB. unfold deposit in *. both HA HB.
  repeat match goal with q : (_ * _)%type |- _ => destruct q end.
  unfold delegate_add in *. inv. cbn [wp wp_diffs wp_ci set_total p_total].
  do 3 (split; [reflexivity|]). split; [repeat split|reflexivity].
Qed.

Lemma eff_refreshed ts ci m m' d : refreshed ts ci m m' -> day_start ts <= d -> eff m' d = eff m d.
Proof.
  intros R Hd. unfold eff. rewrite (rf_share _ _ _ _ R), (rf_sfo _ _ _ _ R), (rf_diffs _ _ _ _ R), due_after by assumption. lia.
Qed.

(** ** Histories that grow more slowly *)
(** the same dates, each index of the second history growing by no more *)
Fixpoint slower (pa pb : Z) (ca cb : sched) : Prop :=
  match ca, cb with
  | [], [] => True
  | (k, i) :: ra, (k', i') :: rb => k' = k /\ i' - pb <= i - pa /\ slower i i' ra rb
  | _, _ => False
  end.

Lemma slower_refl p c : slower p p c c.
Proof. revert p. induction c as [|[k i] r IH]; intros p; cbn [slower]; [exact I|]. split; [reflexivity|]. split; [lia|apply IH]. Qed.

Lemma slower_app pa pb ca cb k i i' : slower pa pb ca cb ->
  i' - last_from pb cb <= i - last_from pa ca -> slower pa pb (ca ++ [(k, i)]) (cb ++ [(k, i')]).
Proof.
  revert pa pb cb. induction ca as [|[ka ia] ra IH]; intros pa pb [|[kb ib] rb] H Hl; cbn [slower app last_from] in *; try contradiction.
  - auto.
  - destruct H as (E & Hi & H). split; [assumption|]. split; [assumption|]. apply IH; assumption.
Qed.

Lemma slower_keys pa pb ca cb : slower pa pb ca cb -> map fst cb = map fst ca.
Proof.
  revert pa pb cb. induction ca as [|[ka ia] ra IH]; intros pa pb [|[kb ib] rb] H; cbn [slower map fst] in *; try contradiction; [reflexivity|].
  destruct H as (-> & _ & H). f_equal. eauto.
Qed.

Lemma slower_visible pa pb ca cb d : slower pa pb ca cb -> visible_from pb d cb - pb <= visible_from pa d ca - pa.
Proof.
  revert pa pb cb. induction ca as [|[ka ia] ra IH]; intros pa pb [|[kb ib] rb] H; cbn [slower visible_from] in *; try contradiction; [lia|].
  destruct H as (-> & Hi & H). destruct (ka <? d); [|lia]. apply IH in H. lia.
Qed.

Lemma slower_later pa pb ca cb d d' : slower pa pb ca cb -> d <= d' ->
  visible_from pb d' cb - visible_from pb d cb <= visible_from pa d' ca - visible_from pa d ca.
Proof.
  intros H Hd. revert pa pb cb H. induction ca as [|[ka ia] ra IH]; intros pa pb [|[kb ib] rb] H; cbn [slower visible_from] in *; try contradiction; [lia|].
  destruct H as (-> & Hi & H). destruct (Z.ltb_spec ka d), (Z.ltb_spec ka d'); try lia.
  - apply IH. assumption.
  - pose proof (slower_visible _ _ _ _ d' H). lia.
Qed.

Lemma total_nonneg r : values (fun v => 0 <= v) r -> 0 <= total r.
Proof.
  intros Hv. induction r as [|[k u] r IH]; cbn [total]; [lia|].
  pose proof (Hv k u (or_introl eq_refl)) as H. cbv beta in H. assert (0 <= total r); [|lia]. apply IH.
  intros k' u' Hin. apply (Hv k' u'). right. assumption.
Qed.

Lemma earned_slower ca cb ts : slower 0 0 ca cb -> forall l s ja jb,
  ascending l -> values (fun v => 0 <= v) l -> dates (fun d => d <= ts) l -> total l <= s ->
  dates (fun d => visible d cb - jb <= visible d ca - ja) l -> visible ts cb - jb <= visible ts ca - ja ->
  earned cb s jb l ts <= earned ca s ja l ts.
Proof.
  intros Hc. induction l as [|[d v] r IH]; intros s ja jb Ha Hv Hd Ht Hj Hts; cbn [earned].
  - cbn [total] in Ht. apply Z.div_le_mono; [reflexivity|]. nia.
  - cbn [ascending total] in Ha, Ht. destruct Ha as [Ha1 Ha2].
    pose proof (Hv d v (or_introl eq_refl)) as Hv0. pose proof (Hd d v (or_introl eq_refl)) as Hd0.
    pose proof (Hj d v (or_introl eq_refl)) as Hj0. cbv beta in Hv0, Hd0, Hj0.
    assert (Hv' : values (fun v => 0 <= v) r) by (intros k u Hin; apply (Hv k u); right; assumption).
    assert (Hd' : dates (fun d => d <= ts) r) by (intros k u Hin; apply (Hd k u); right; assumption).
    pose proof (total_nonneg r Hv') as Hs.
    assert ((visible d cb - jb) * s / 10000000000000000 <= (visible d ca - ja) * s / 10000000000000000) by (apply Z.div_le_mono; [reflexivity|nia]).
    assert (earned cb (s - v) (visible d cb) r ts <= earned ca (s - v) (visible d ca) r ts); [|lia].
    apply IH; try assumption; [lia| |].
    + intros k u Hin. apply Ha1 in Hin. apply (slower_later 0 0 ca cb d k Hc). lia.
    + apply (slower_later 0 0 ca cb d ts Hc). assumption.
Qed.

Lemma tokens_slower ca cb ts m : slower 0 0 ca cb -> min_ok m ->
  due (day_start ts) (wm_diffs m) <= m_share (wm m) -> tokens_at ts cb m <= tokens_at ts ca m.
Proof.
  intros Hc Hm Hd. unfold tokens_at. apply Zplus_le_compat_l. apply earned_slower; try assumption.
  - apply ascending_upto. apply Hm.
  - intros d v Hin. apply in_upto in Hin as [Hin _]. exact (mo_vals _ Hm d v Hin).
  - intros d v Hin. apply in_upto in Hin as [_ Hin]. pose proof (day_start_le ts). lia.
  - rewrite total_upto. pose proof (mo_sfo _ Hm). lia.
  - intros d v _. pose proof (slower_visible 0 0 ca cb d Hc). unfold visible. lia.
  - pose proof (slower_visible 0 0 ca cb ts Hc). unfold visible. lia.
Qed.

(** ** Ledgers *)
Section env.
Context (e : env) (Henv : env_ok e).

Lemma at_four ms l n k : accounts_are ms l -> (n < length l)%nat -> account_at ms n k -> nth_error l n = Some k.
Proof. exact (account_in ms l n k). Qed.

Lemma deposits_differ now ts msA msB a p oA dA oB dB L LA LB rA rB P k D :
  reached e now L -> now <= ts -> is_u64 a ->
  exec e ts msA (DepositMining a p oA dA) L = Ok (LA, rA) -> account_at msA 0 P -> account_at msA 1 k -> account_at msA 3 k ->
  exec e ts msB (DepositMining a p oB dB) L = Ok (LB, rB) -> account_at msB 0 P -> account_at msB 1 k -> account_at msB 3 D ->
  D <> k ->
  (forall q, q <> P -> q <> D -> acc LB q = acc LA q) /\
  (exists wA wB, is_pool e LA P wA /\ is_pool e LB P wB /\ only_total wA wB /\ wp_diffs wB = wp_diffs wA /\
     p_total (wp wB) = p_total (wp wA) + a) /\
  (exists x y, is_mining e LA D x /\ is_mining e LB D y /\ same_mining x y /\
     forall d, day_start ts <= d -> eff y d = eff x d + a).
Proof.
  intros HL Hts Ha HA A0 A1 A3 HB B0 B1 B3 Hne.
  pose proof (reached_ok e Henv _ _ HL) as (O & _ & HOk).
  apply exec_inv in HA as [HA _]. apply exec_inv in HB as [HB _]. cbn [process] in HA, HB.
  apply no_ret_ok in HA as [HA _]. apply no_ret_ok in HB as [HB _].
  apply deposit_inv in HA as (P1 & k1 & au1 & D1 & w1 & m1 & wA & mA & d1 & Ms1 & C1 & _ & _ & X1 & ->).
  apply deposit_inv in HB as (P2 & k2 & au2 & D2 & w2 & m2 & wB & mB & d2 & Ms2 & C2 & Dk & Do & X2 & ->).
  apply (account_in _ _ _ _ Ms1) in A0, A1, A3; try (cbn; lia). cbn in A0, A1, A3. injection A0 as <-. injection A1 as <-. injection A3 as ->.
  apply (account_in _ _ _ _ Ms2) in B0, B1, B3; try (cbn; lia). cbn in B0, B1, B3. injection B0 as ->. injection B1 as ->. injection B3 as ->.
  assert (w2 = w1) by (pose proof (sc_pool _ _ _ _ _ _ _ _ _ C1); pose proof (sc_pool _ _ _ _ _ _ _ _ _ C2); congruence). subst w2.
  assert (m2 = m1) by (pose proof (sc_mining _ _ _ _ _ _ _ _ _ C1); pose proof (sc_mining _ _ _ _ _ _ _ _ _ C2); congruence). subst m2.
  destruct Dk as [E|(_ & HDP & _ & x & Hx & _)]; [contradiction|].
  assert (E1 : dlg_of L k1 k1 = None) by (unfold dlg_of; rewrite Z.eqb_refl; reflexivity).
  rewrite E1 in X1. rewrite (dlg_at L D k1 x Hne Hx) in X2.
  pose proof (deposit_twice _ _ _ _ _ _ _ _ _ _ _ _ X1 X2) as (-> & -> & Ed & Eo & Et).
  destruct (ok_ctx e _ _ _ _ _ _ _ _ _ O C1) as [Wp Wm].
  assert (Wx : mining_wf x) by (eapply (ok_mining e now); eassumption).
  apply (deposit_effect now) in X2 as (_ & _ & _ & _ & _ & Hd); [|assumption|assumption|exact Wx|unfold is_u64 in Ha; lia].
  destruct d2 as [y|]; [|contradiction]. destruct Hd as [_ R]. cbn [put_dlg].
  pose proof (sc_ne _ _ _ _ _ _ _ _ _ C1) as HkP. pose proof (sc_pool_owner _ _ _ _ _ _ _ _ _ C1) as OP.
  unfold put_mining, put_pool.
  split; [|split].
  - intros q HqP HqD. rewrite !acc_put. rewrite (proj2 (Z.eqb_neq D q)) by congruence. rewrite (proj2 (Z.eqb_neq P1 q)) by congruence. reflexivity.
  - exists wA, wB. unfold is_pool. rewrite !owner_put. unfold data_of. rewrite !acc_put.
    rewrite (proj2 (Z.eqb_neq D P1)) by congruence. rewrite (proj2 (Z.eqb_neq k1 P1)) by congruence. rewrite Z.eqb_refl. auto.
  - exists x, y. unfold is_mining. rewrite !owner_put. unfold data_of. rewrite !acc_put.
    rewrite (proj2 (Z.eqb_neq k1 D)) by congruence. rewrite (proj2 (Z.eqb_neq P1 D)) by congruence. rewrite Z.eqb_refl.
    split; [split; assumption|]. split; [split; [assumption|reflexivity]|].
    split; [exact (rf_same _ _ _ _ R)|].
    intros d Hd. rewrite (eff_refreshed _ _ _ _ _ R Hd). unfold eff, with_delegated. cbn [wm m_share m_sfo wm_diffs]. lia.
Qed.


(** two pools that differ by [a] in the total share, the second with a slower history *)
Record behind (a : Z) (wA wB : wpool) : Prop := {
  bh_avail : p_avail (wp wB) = p_avail (wp wA);
  bh_ends : p_ends_at (wp wB) = p_ends_at (wp wA);
  bh_type : p_type (wp wB) = p_type (wp wA);
  bh_total : p_total (wp wB) = p_total (wp wA) + a;
  bh_diffs : wp_diffs wB = wp_diffs wA;
  bh_ci : slower 0 0 (wp_ci wA) (wp_ci wB);
  bh_index : p_index (wp wB) - last_from 0 (wp_ci wB) <= p_index (wp wA) - last_from 0 (wp_ci wA) }.

Lemma dates_has (ca cb : sched) d : map fst cb = map fst ca -> has_date d cb <-> has_date d ca.
Proof.
  intros E. unfold has_date. split; intros [v Hin]; apply (in_map fst) in Hin; cbn [fst] in Hin.
  - rewrite E in Hin. apply in_map_iff in Hin as ([k u] & <- & Hin). eauto.
  - rewrite <- E in Hin. apply in_map_iff in Hin as ([k u] & <- & Hin). eauto.
Qed.

Lemma distribute_behind nowA nowB ts msA msB LA LB LA' LB' rA rB P wA wB a :
  reached e nowA LA -> nowA <= ts -> reached e nowB LB -> nowB <= ts -> is_u64 ts -> 0 <= a ->
  exec e ts msA DistributeRewards LA = Ok (LA', rA) -> account_at msA 0 P ->
  exec e ts msB DistributeRewards LB = Ok (LB', rB) -> account_at msB 0 P ->
  is_pool e LA P wA -> is_pool e LB P wB -> behind a wA wB ->
  (forall q, q <> P -> acc LA' q = acc LA q /\ acc LB' q = acc LB q) /\
  exists wA' wB', is_pool e LA' P wA' /\ is_pool e LB' P wB' /\ behind a wA' wB'.
Proof.
  intros HA HtA HB HtB Hu Ha XA PA XB PB WA WB [Ev Ee Ety Et Ed Hci Hix].
  split.
  { intros q Hq. pose proof XA as YA. pose proof XB as YB.
    apply exec_inv in YA as [YA _]. apply exec_inv in YB as [YB _]. cbn [process] in YA, YB.
    apply no_ret_ok in YA as [YA _]. apply no_ret_ok in YB as [YB _].
    apply distribute_inv in YA as (P1 & ? & ? & ? & ? & Ms1 & _ & _ & _ & _ & _ & _ & ->).
    apply distribute_inv in YB as (P2 & ? & ? & ? & ? & Ms2 & _ & _ & _ & _ & _ & _ & ->).
    apply (account_in _ _ _ _ Ms1) in PA; [|cbn; lia]. apply (account_in _ _ _ _ Ms2) in PB; [|cbn; lia].
    cbn in PA, PB. injection PA as ->. injection PB as ->. unfold put_pool.
    rewrite !acc_put_data_ne by congruence. auto. }
  destruct (reached_ok e Henv _ _ HA) as (OA & _ & NA).
  assert (HA' : reached e ts LA') by (exact (reached_exec e _ _ _ DistributeRewards _ _ _ HA HtA Hu I XA)).
  destruct (reached_ok e Henv _ _ HA') as (OA' & _ & _).
  destruct (distribute_on_ledger e Henv nowA ts msA LA LA' rA HA HtA XA) as (P1 & w1 & wA' & A1 & A2 & A3 & A4). cbv zeta in A4.
  assert (P1 = P) by (eapply at_fun; eassumption). subst P1. assert (w1 = wA) by (eapply pool_fun; eassumption). subst w1.
  destruct (distribute_on_ledger e Henv nowB ts msB LB LB' rB HB HtB XB) as (P2 & w2 & wB' & B1 & B2 & B3 & B4). cbv zeta in B4.
  assert (P2 = P) by (eapply at_fun; eassumption). subst P2. assert (w2 = wB) by (eapply pool_fun; eassumption). subst w2.
  pose proof (ok_pool e nowA LA P wA OA (proj1 WA) (proj2 WA)) as PWA.
  pose proof (ok_pool e ts LA' P wA' OA' (proj1 A3) (proj2 A3)) as PWA'.
  destruct A4 as (OdA & _ & TA & DA & RA & SA). destruct B4 as (OdB & _ & TB & DB & RB & SB).
  exists wA', wB'. split; [assumption|]. split; [assumption|].
  destruct OdA as (_ & _ & _ & _ & EeA & _ & EtA), OdB as (_ & _ & _ & _ & EeB & _ & EtB).
  pose proof (slower_keys _ _ _ _ Hci) as Hk.
  assert (Hlen : length (wp_ci wB) = length (wp_ci wA)) by (rewrite <- !(map_length fst); congruence).
  rewrite Ev, Ee, Ed, Et, Hlen in *.
  assert (Hdec : has_date (day_start ts) (wp_ci wA) \/ ~ has_date (day_start ts) (wp_ci wA)).
  { pose proof (has_date_oget (day_start ts) _ (pw_ci_asc _ _ PWA)) as H. destruct (oget (day_start ts) (wp_ci wA)) as [v|] eqn:E.
    - left. apply H. discriminate.
    - right. intros X. apply H in X. congruence. }
  pose proof (dates_has (wp_ci wA) (wp_ci wB) (day_start ts) Hk) as Hh.
  destruct Hdec as [Hd|Hd].
  - destruct (RA Hd) as (CA & IA & VA), (RB (proj2 Hh Hd)) as (CB & IB & VB).
    constructor; rewrite ?CA, ?CB, ?IA, ?IB, ?VA, ?VB, ?EeA, ?EeB, ?EtA, ?EtB, ?DA, ?DB; try assumption; try reflexivity; lia.
  - destruct (SA Hd) as (NzA & IA & VA & CA), (SB (fun X => Hd (proj1 Hh X))) as (NzB & IB & VB & CB).
    assert (HT : 0 < p_total (wp wA')) by (pose proof (pw_total _ _ PWA') as Q; unfold is_u64 in Q; lia).
    assert (ETB : p_total (wp wB') = p_total (wp wA') + a) by lia.
    set (part := daily_part (p_avail (wp wA)) (p_ends_at (wp wA)) ts) in *.
    assert (Hp : 0 <= part) by (apply daily_part_bounds; pose proof (pw_avail _ _ PWA) as Q; unfold is_u64 in Q; lia).
    assert (Hq : 10000000000000000 * part / p_total (wp wB') <= 10000000000000000 * part / p_total (wp wA')).
    { rewrite ETB. apply Z.div_le_compat_l; lia. }
    constructor; rewrite ?VA, ?VB, ?EeA, ?EeB, ?EtA, ?EtB, ?DA, ?DB; try assumption; try reflexivity.
    + rewrite CA, CB. destruct (Z.of_nat (length (wp_ci wA)) <? 1095); [|assumption].
      apply slower_app; [assumption|]. lia.
    + rewrite CA, CB. destruct (Z.of_nat (length (wp_ci wA)) <? 1095); [rewrite !last_app; lia|lia].
Qed.

Lemma distributions_behind l : forall nowA nowB LA LB LA' LB' P wA wB a,
  reached e nowA LA -> reached e nowB LB -> 0 <= a ->
  distributions e P nowA LA l LA' -> distributions e P nowB LB l LB' ->
  is_pool e LA P wA -> is_pool e LB P wB -> behind a wA wB ->
  (forall q, q <> P -> acc LA' q = acc LA q /\ acc LB' q = acc LB q) /\
  exists wA' wB', is_pool e LA' P wA' /\ is_pool e LB' P wB' /\ behind a wA' wB'.
Proof.
  induction l as [|ts l IH]; intros nowA nowB LA LB LA' LB' P wA wB a HA HB Ha XA XB WA WB Hb.
  - inversion XA; subst. inversion XB; subst. split; [auto|]. eauto.
  - inversion XA as [|? ? ? msA LA1 rA ? ? HtA Hu PA EA RA]; subst.
    inversion XB as [|? ? ? msB LB1 rB ? ? HtB _ PB EB RB]; subst.
    destruct (distribute_behind nowA nowB ts msA msB LA LB LA1 LB1 rA rB P wA wB a) as (F & wA1 & wB1 & WA1 & WB1 & Hb1); try assumption.
    assert (HA1 : reached e ts LA1) by (exact (reached_exec e _ _ _ DistributeRewards _ _ _ HA HtA Hu I EA)).
    assert (HB1 : reached e ts LB1) by (exact (reached_exec e _ _ _ DistributeRewards _ _ _ HB HtB Hu I EB)).
    destruct (IH ts ts LA1 LB1 LA' LB' P wA1 wB1 a HA1 HB1 Ha RA RB WA1 WB1 Hb1) as (F' & Q).
    split; [|exact Q]. intros q Hq. destruct (F q Hq) as [<- <-]. apply F'. assumption.
Qed.

(** nobody but the delegate stands for more *)
Lemma others_lose now ts msA msB a p oA dA oB dB L LA LB rA rB P k D l LA' LB' t j x y :
  reached e now L -> now <= ts -> is_u64 ts -> ix_in_range (DepositMining a p oA dA) -> ix_in_range (DepositMining a p oB dB) ->
  exec e ts msA (DepositMining a p oA dA) L = Ok (LA, rA) -> account_at msA 0 P -> account_at msA 1 k -> account_at msA 3 k ->
  exec e ts msB (DepositMining a p oB dB) L = Ok (LB, rB) -> account_at msB 0 P -> account_at msB 1 k -> account_at msB 3 D ->
  D <> k -> distributions e P ts LA l LA' -> distributions e P ts LB l LB' ->
  j <> D -> worth e t LA' j x -> worth e t LB' j y -> y <= x.
Proof.
  intros HL Hts Hu HrA HrB XA A0 A1 A3 XB B0 B1 B3 Hne DA DB Hj Wx Wy.
  assert (Ha : is_u64 a) by apply HrA.
  assert (HA : reached e ts LA) by (exact (reached_exec e _ _ _ _ _ _ _ HL Hts Hu HrA XA)).
  assert (HB : reached e ts LB) by (exact (reached_exec e _ _ _ _ _ _ _ HL Hts Hu HrB XB)).
  destruct (deposits_differ _ _ _ _ _ _ _ _ _ _ _ _ _ _ _ _ _ _ HL Hts Ha XA A0 A1 A3 XB B0 B1 B3 Hne)
    as (F & (wA & wB & PA & PB & Ot & Ed & Et) & _).
  assert (Hb : behind a wA wB).
  { destruct Ot as (_ & _ & _ & _ & Ei & Ee & Ev & _ & Ety & Eci). constructor; try assumption.
    - rewrite Eci. apply slower_refl.
    - rewrite Eci, Ei. lia. }
  destruct (distributions_behind l ts ts LA LB LA' LB' P wA wB a HA HB ltac:(unfold is_u64 in Ha; lia) DA DB PA PB Hb)
    as (F' & wA' & wB' & PA' & PB' & [_ _ _ _ _ Hci _]).
  destruct Wx as (w1 & m1 & M1 & T1 & Q1 & TP1 & C1 & ->). destruct Wy as (w2 & m2 & M2 & T2 & Q2 & TP2 & C2 & ->).
  assert (HjP : j <> P) by (intros ->; destruct PA' as [_ Q], M1 as [_ Q']; congruence).
  assert (Ea : acc LB' j = acc LA' j) by (destruct (F' j HjP) as [-> ->]; apply F; assumption).
  assert (m2 = m1) by (destruct M1 as [_ M1], M2 as [_ M2]; unfold data_of in M1, M2; rewrite Ea in M2; congruence). subst m2.
  assert (HA' : exists now', reached e now' LA').
  { clear -HA DA. revert HA. induction DA as [|now L ts0 ms L1 r l L' Ht Hu P0 X R IH]; intros HL; [eauto|]. apply IH.
    exact (reached_exec e _ _ _ DistributeRewards _ _ _ HL Ht Hu I X). }
  destruct HA' as [now' HA']. destruct (reached_ok e Henv _ _ HA') as (OA' & _ & _).
  pose proof (ok_mining e now' LA' j m1 OA' (proj1 M1) (proj2 M1)) as Wm.
  destruct (Z.eq_dec (m_pool (wm m1)) P) as [E|E].
  - rewrite E in Q1, Q2. assert (w1 = wA') by (eapply pool_fun; eassumption). assert (w2 = wB') by (eapply pool_fun; eassumption). subst w1 w2.
    apply tokens_slower; [assumption|apply mining_wf_min; assumption|apply C1].
  - assert (w2 = w1); [|subst; lia].
    assert (HqD : m_pool (wm m1) <> D).
    { intros E2. destruct (deposits_differ _ _ _ _ _ _ _ _ _ _ _ _ _ _ _ _ _ _ HL Hts Ha XA A0 A1 A3 XB B0 B1 B3 Hne)
        as (_ & _ & x & y & _ & [_ My] & _). destruct Q2 as [_ Q2]. unfold data_of in *. rewrite E2 in Q2.
      destruct (F' D) as [_ E3]; [congruence|]. rewrite E3 in Q2. congruence. }
    destruct Q1 as [_ Q1], Q2 as [_ Q2]. unfold data_of in Q1, Q2.
    destruct (F' _ E) as [E1 E2]. rewrite E2, F, <- E1, Q1 in Q2 by assumption. congruence.
Qed.
End env.

(** ** The part of the day's weight *)
Section pool.
Context (e : env) (Henv : env_ok e) (Hinj : env_inj e) (Hrent : 0 < rent_min e MINING_LEN).
Context (P : pubkey) (HP : P <> 0).

Lemma cover now L V w d l :
  orderly e P disciplined now L -> pool_vault e L P V w -> day_start now <= d ->
  List.NoDup (map fst l) -> (forall k m, In (k, m) l -> mining_in e L P k m) ->
  zsum (map (fun x => eff (snd x) d) l) <= weight_on w d.
Proof. exact (shares_cover e Henv Hinj Hrent P HP disciplined disciplined_donate disciplined_init (fun _ _ _ H => H) now L V w d l). Qed.

(** two minings, and a third one, together do not exceed the pool's weight; adding [a] to one of the
    two and to the total raises their part *)
Lemma part_rises now L V w d k D m x a :
  orderly e P disciplined now L -> pool_vault e L P V w -> day_start now <= d -> 0 <= a -> D <> k ->
  mining_in e L P k m -> mining_in e L P D x ->
  (eff m d + eff x d) * (weight_on w d + a) <= (eff m d + eff x d + a) * weight_on w d /\
  (0 < a -> (exists j u, j <> k /\ j <> D /\ mining_in e L P j u /\ 0 < eff u d) ->
   (eff m d + eff x d) * (weight_on w d + a) < (eff m d + eff x d + a) * weight_on w d).
Proof.
  intros HO HV Hd Ha Hne Hm Hx. split.
  - pose proof (cover now L V w d [(k, m); (D, x)] HO HV Hd) as C. cbn [map fst snd zsum fold_right] in C.
    assert (eff m d + eff x d <= weight_on w d); [|nia].
    rewrite <- (Z.add_0_r (eff x d)). apply C.
    + repeat constructor; cbn; intuition congruence.
    + intros k0 m0 [E|[E|[]]]; injection E as <- <-; assumption.
  - intros Hpos (j & u & Hjk & HjD & Hu & Hup).
    pose proof (cover now L V w d [(k, m); (D, x); (j, u)] HO HV Hd) as C. cbn [map fst snd zsum fold_right] in C.
    assert (eff m d + (eff x d + (eff u d + 0)) <= weight_on w d); [|nia]. apply C.
    + repeat constructor; cbn; intuition congruence.
    + intros k0 m0 [E|[E|[E|[]]]]; injection E as <- <-; assumption.
Qed.
End pool.

Lemma deposit_at_most : forall e, env_ok e -> forall now ts ms a p o d L L' r P w w',
  reached e now L -> now <= ts -> is_u64 a -> exec e ts ms (DepositMining a p o d) L = Ok (L', r) -> account_at ms 0 P ->
  is_pool e L P w -> is_pool e L' P w' ->
  p_total (wp w) + a <= p_total (wp w') <= p_total (wp w) + 7 * a.
Proof.
  intros e He now ts ms a p o d L L' r P w w' HL Hts Ha X HP Hw Hw'.
  destruct (deposit_on_ledger e He now ts ms a p o d L L' r HL Hts Ha X)
    as (P0 & k & D & w0 & m & m1 & w1 & m' & A1 & _ & _ & A4 & _ & A6 & _ & Hp & _ & _ & _ & _ & _ & T & _).
  assert (P0 = P) by (eapply at_fun; eassumption). subst P0.
  assert (w0 = w) by (eapply pool_fun; eassumption). subst w0.
  assert (w1 = w') by (eapply pool_fun; eassumption). subst w1.
  rewrite T. unfold if_other, is_u64 in *. destruct (D =? k), p; cbn [weight_of]; try congruence; lia.
Qed.

Lemma part_theorem : forall e, env_ok e -> env_inj e -> 0 < rent_min e MINING_LEN -> forall P, P <> 0 ->
  forall now ts msA msB a p oA dA oB dB L LA LB rA rB V wA k D m x,
  reached e now L -> now <= ts -> is_u64 a ->
  exec e ts msA (DepositMining a p oA dA) L = Ok (LA, rA) -> account_at msA 0 P -> account_at msA 1 k -> account_at msA 3 k ->
  exec e ts msB (DepositMining a p oB dB) L = Ok (LB, rB) -> account_at msB 0 P -> account_at msB 1 k -> account_at msB 3 D ->
  D <> k -> orderly e P disciplined ts LA -> pool_vault e LA P V wA -> mining_in e LA P k m -> mining_in e LA P D x ->
  exists wB y, is_pool e LB P wB /\ mining_in e LB P D y /\ mining_in e LB P k m /\
    forall d, day_start ts <= d ->
      (eff m d + eff x d) * weight_on wB d <= (eff m d + eff y d) * weight_on wA d /\
      (0 < a -> (exists j u, j <> k /\ j <> D /\ mining_in e LA P j u /\ 0 < eff u d) ->
       (eff m d + eff x d) * weight_on wB d < (eff m d + eff y d) * weight_on wA d).
Proof.
  intros e He Hi Hr P HP now ts msA msB a p oA dA oB dB L LA LB rA rB V wA k D m x HL Hts Ha XA A0 A1 A3 XB B0 B1 B3 Hne HO HV Hm Hx.
  destruct (deposits_differ e He _ _ _ _ _ _ _ _ _ _ _ _ _ _ _ _ _ _ HL Hts Ha XA A0 A1 A3 XB B0 B1 B3 Hne)
    as (F & (w1 & wB & PA & PB & _ & Ed & Et) & x0 & y & Mx & My & (Ep & _) & Ee).
  assert (w1 = wA) by (eapply pool_fun; [exact PA|apply HV]). subst w1.
  assert (x0 = x) by (destruct Mx as [_ Q], Hx as [[_ Q'] _]; congruence). subst x0.
  assert (HkP : k <> P) by (intros ->; destruct Hm as [[_ Q] _], PA as [_ Q']; congruence).
  exists wB, y. split; [assumption|]. split; [split; [assumption|rewrite Ep; apply Hx]|].
  split. { destruct Hm as [[Q1 Q2] Q3]. split; [|assumption]. unfold is_mining, owner_of, data_of in *. rewrite F by congruence. auto. }
  intros d Hd. assert (Ew : weight_on wB d = weight_on wA d + a) by (unfold weight_on; rewrite Ed, Et; lia).
  rewrite Ew, (Ee d Hd), Z.add_assoc.
  apply (part_rises e He Hi Hr P HP ts LA V wA d k D m x a); try assumption. unfold is_u64 in Ha. lia.
Qed.
