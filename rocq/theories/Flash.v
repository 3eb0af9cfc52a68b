(** Proofs of C70: stake that is there only while a distribution is made. *)
From stdpp Require Import gmap.
From Verif Require Import Base OMap State Spec EffectSpec Core Ledger Program ResLemmas TreeLemmas AccrualLemmas RefreshLemmas WfLemmas CodecLemmas
  LedgerLemmas LedgerSpec History HistoryLemmas AccessLemmas HistoryThms ReachThms Clients ClientSpec CoreInv CoreThms
  LedgerView LedgerCore LedgerCoreThms EffectLemmas EffectThms EffectMore EffectCompare SuccessSpec SuccessThms Commute Worth BackSpec TakenBack Leave EffectMethods Complete.

(** the whole of one more distribution is visible at once, except in its own second *)
Lemma visible_new ts ci i :
  dates (fun k => k < ts) ci -> day_start ts < ts -> visible ts (ci ++ [(day_start ts, i)]) = i.
Proof.
  intros Hd Hts. unfold visible. rewrite visible_all; [apply last_app|].
  intros k v Hin. apply in_app_iff in Hin as [Hin|[E|[]]]; [exact (Hd k v Hin)|]. injection E as <- <-. exact Hts.
Qed.

(** a new entry of amount 0 takes nothing away *)
Lemma scheduled_nothing cap d t t' : ascending t -> ascending t' -> scheduled cap d 0 t t' ->
  total t' = total t /\ forall b, due b t' = due b t.
Proof.
  intros A A' S.
  assert (t' = oinsert cap d (at_date d t + 0) t) as ->.
  { eapply scheduled_fun; [exact S|apply scheduled_insert; [exact A|reflexivity]|exact A'|].
    unfold oinsert. destruct (ohas d t); [apply ascending_oput; exact A|]. destruct (_ <? _); [apply ascending_oput; exact A|exact A]. }
  unfold oinsert. rewrite at_date_oget. destruct (ohas d t) eqn:E.
  - apply ohas_true in E as (v & E). rewrite E. split.
    + rewrite (total_oput_old _ _ _ _ A E). lia.
    + intros b. rewrite (due_oput_old _ _ _ _ _ A E). destruct (_ <=? _); lia.
  - apply ohas_false in E. rewrite E. destruct (_ <? _); [|auto]. split.
    + rewrite total_oput_new by exact E. lia.
    + intros b. rewrite due_oput_new by exact E. destruct (_ <=? _); lia.
Qed.

(** part * S / N, up to rounding *)
Lemma split_bounds part S N x : 0 <= part -> 0 <= S -> 0 < N -> x = (10000000000000000 * part / N) * S / 10000000000000000 ->
  N * x <= part * S < N * (x + 2 + S / 10000000000000000).
Proof.
  intros Hp HS HN ->. set (Q := 10000000000000000). set (i := Q * part / N).
  assert (HQ : 0 < Q) by (unfold Q; lia).
  pose proof (Z.mul_div_le (Q * part) N HN) as A1. pose proof (Z.mul_succ_div_gt (Q * part) N HN) as A2. fold i in A1, A2.
  pose proof (Z.mul_div_le (i * S) Q HQ) as B1. pose proof (Z.mul_succ_div_gt (i * S) Q HQ) as B2.
  pose proof (Z.mul_succ_div_gt S Q HQ) as C2. clearbody Q. set (x := i * S / Q) in *. set (s := S / Q) in *.
  clearbody x s i. split.
  - apply (Z.mul_le_mono_pos_l _ _ Q HQ). nia.
  - apply (Z.mul_lt_mono_pos_l Q _ _ HQ).
    assert (Q * (part * S) <= N * (i + 1) * S) by nia.
    assert (N * (i * S) < N * (Q * (x + 1))) by nia.
    assert (N * S < N * (Q * (s + 1))) by nia. nia.
Qed.

Section env.
Context (e : env) (Henv : env_ok e) (Hinj : env_inj e) (Hrent : 0 < rent_min e MINING_LEN).
Context (P : pubkey) (HP : P <> 0).

(** the ledger after the deposit and the distribution *)
Lemma flash_in now ts ms ms' a o d L L1 L2 r1 r2 V w k m :
  orderly e P disciplined now L -> pool_vault e L P V w -> mining_in e L P k m -> now <= ts -> is_u64 ts ->
  ix_in_range (DepositMining a LFlex o d) ->
  exec e ts ms (DepositMining a LFlex o d) L = Ok (L1, r1) ->
  account_at ms 0 P -> account_at ms 1 k -> account_at ms 3 k ->
  exec e ts ms' DistributeRewards L1 = Ok (L2, r2) -> account_at ms' 0 P ->
  day_start ts < ts -> ~ has_date (day_start ts) (wp_ci w) -> Z.of_nat (length (wp_ci w)) < 1095 ->
  let part := daily_part (p_avail (wp w)) (p_ends_at (wp w)) ts in
  let N := p_total (wp w) - due (day_start ts) (wp_diffs w) + a in
  let S := share_at ts m + m_sfo (wm m) + a in
  exists w2 m2,
    pool_vault e L2 P V w2 /\ mining_in e L2 P k m2 /\
    p_deposit_auth (wp w2) = p_deposit_auth (wp w) /\ p_mint (wp w2) = p_mint (wp w) /\
    m_owner (wm m2) = m_owner (wm m) /\
    0 < N /\ 0 <= part /\ 0 <= S /\ 0 <= tokens_at ts (wp_ci w) m /\ a <= unlocked m2 /\
    p_total (wp w2) = N /\ (forall b, day_start ts <= b -> due b (wp_diffs w2) = due b (wp_diffs w) - due (day_start ts) (wp_diffs w)) /\
    p_avail (wp w2) = p_avail (wp w) - part /\
    m_share (wm m2) = share_at ts m + a /\ m_sfo (wm m2) = m_sfo (wm m) /\
    same_amounts (Spec.after (day_start ts) (wm_diffs m)) (wm_diffs m2) /\ dates (fun x => day_start ts < x) (wm_diffs m2) /\
    tokens_at ts (wp_ci w2) m2 =
      tokens_at ts (wp_ci w) m + (10000000000000000 * part / N) * S / 10000000000000000.
Proof.
  intros HO HV Hm Hts Hu Hi X1 AP Ak AD X2 AP' Hmid Hno Hlen part N S.
  pose proof (orderly_reached e P _ _ _ HO) as HR.
  pose proof (reached_exec e now ts ms _ L L1 r1 HR Hts Hu Hi X1) as HR1.
  assert (Ha : is_u64 a) by apply Hi.
  destruct (deposit_on_ledger e Henv _ _ _ _ _ _ _ _ _ _ HR Hts Ha X1)
    as (P0 & k0 & D0 & w0 & m0 & m1 & w1 & m' & BP & Bk & BD & Pw & Mk & Pw1 & Mk1 & _ & R & OS & Sh & SM & OT & HT & SP & _).
  rewrite (same_place _ _ _ _ BP AP), (same_place _ _ _ _ Bk Ak), (same_place _ _ _ _ BD AD) in *. clear BP Bk BD.
  assert (w0 = w) as -> by (eapply same_pool; [exact Pw|apply HV]).
  assert (m0 = m) as -> by (eapply same_min; [exact Mk|apply Hm]).
  destruct (distribute_on_ledger e Henv _ _ _ _ _ _ HR1 (Z.le_refl _) X2) as (P1 & w1b & w2 & BP & Pw1b & Pw2 & OD & _ & T2 & D2 & _ & F2).
  rewrite (same_place _ _ _ _ BP AP') in *. clear BP.
  rewrite (same_pool _ _ _ _ _ Pw1b Pw1) in *. clear Pw1b.
  pose proof (fun o => ok_pool e now L P w o (proj1 Pw) (proj2 Pw)) as HP0. destruct (reached_ok e Henv _ _ HR) as (LO & _). specialize (HP0 LO).
  destruct (reached_ok e Henv _ _ HR1) as (LO1 & _).
  pose proof (ok_pool e ts L1 P w1 LO1 (proj1 Pw1) (proj2 Pw1)) as HP1.
  pose proof (ok_mining e ts L1 k m' LO1 (proj1 Mk1) (proj2 Mk1)) as HM1.
  assert (Ec : wp_ci w1 = wp_ci w) by apply OT. rewrite Ec in *.
  change (weight_of LFlex) with 1 in *. change (1 - 1) with 0 in *. rewrite Z.mul_0_r, Z.mul_1_r in *.
  assert (Hif : if_other k k a = 0) by (unfold if_other; rewrite Z.eqb_refl; reflexivity). rewrite Hif, Z.add_0_r in HT.
  pose proof (expiry_later LFlex ts ltac:(discriminate)) as Hex.
  specialize (F2 Hno) as (HN0 & I2 & V2 & C2). rewrite (proj2 (Z.ltb_lt _ _) Hlen) in C2.
  assert (Ea : p_avail (wp w1) = p_avail (wp w)) by apply OT.
  assert (Ee : p_ends_at (wp w1) = p_ends_at (wp w)) by apply OT.
  assert (Ei : p_index (wp w1) = p_index (wp w)) by apply OT.
  rewrite Ea, Ee, Ei in *. fold part in I2, V2.
  assert (Edue : due (day_start ts) (wp_diffs w1) = due (day_start ts) (wp_diffs w)).
  { eapply scheduled_due; [apply HP0|apply HP1|exact Hex|exact SP]. }
  assert (EN : p_total (wp w2) = N) by (rewrite T2, HT, Edue; unfold N; lia).
  rewrite EN in *.
  assert (HR2 : reached e ts L2) by exact (reached_exec e ts ts ms' DistributeRewards L1 L2 r2 HR1 (Z.le_refl _) Hu I X2).
  destruct (reached_ok e Henv _ _ HR2) as (LO2 & _).
  pose proof (ok_pool e ts L2 P w2 LO2 (proj1 Pw2) (proj2 Pw2)) as HP2.
  assert (HkP : k <> P) by (intros ->; destruct Mk as [_ E1], Pw as [_ E2]; congruence).
  assert (Ek : acc L2 k = acc L1 k).
  { destruct (decide (acc L2 k = acc L1 k)) as [E|NE]; [exact E|exfalso].
    destruct (changed_named e _ _ _ _ _ _ _ X2 NE) as [(n & Hin & Hat) _]. cbn [may_change In] in Hin.
    destruct Hin as [<-|[]]. apply HkP. eapply same_place; eassumption. }
  assert (Hlast : p_index (wp w) = last_from 0 (wp_ci w)).
  { pose proof (orderly_reachable e Henv Hinj Hrent P HP disciplined disciplined_donate disciplined_init (fun _ _ _ H => H) _ _ _ _ HO HV) as HC.
    apply reachable_inv in HC. unfold cinv in HC. cbn [core_of c_pool] in HC. rewrite (pool_of_is e P L w Pw) in HC.
    apply (i_last _ _ _ _ _ HC). exact Hlen. }
  assert (Hda : day_start now <= day_start ts) by (rewrite <- !bod_day_start; apply bod_mono; assumption).
  assert (Hci : dates (fun x => x < ts) (wp_ci w)).
  { intros x v Hin. pose proof (pw_ci_dates _ _ HP0 x v Hin). cbv beta in *. lia. }
  assert (Hv0 : visible ts (wp_ci w) = p_index (wp w)) by (rewrite Hlast; unfold visible; apply visible_all; exact Hci).
  assert (Hv2 : visible ts (wp_ci w2) = p_index (wp w2)) by (rewrite C2; apply visible_new; assumption).
  destruct OS as (S1 & S2 & S3 & S4).
  assert (Hds : dates (fun x => day_start ts < x) (wm_diffs m')).
  { eapply scheduled_dates; [exact SM| |exact Hex]. rewrite (rf_diffs _ _ _ _ R). apply dates_after. }
  exists w2, m'.
  split. { split; [exact Pw2|]. destruct OD as (_ & _ & _ & -> & _ & -> & ->), OT as (_ & _ & _ & -> & _ & _ & _ & -> & -> & _). apply HV. }
  split. { split; [unfold is_mining, owner_of, data_of in *; rewrite Ek; exact Mk1|].
    destruct S1 as (-> & _), R as [(-> & _) _ _ _ _ _ _ _ _]. apply Hm. }
  split; [destruct OD as (-> & _), OT as (-> & _); reflexivity|].
  split; [destruct OD as (_ & _ & _ & -> & _), OT as (_ & _ & _ & -> & _); reflexivity|].
  split; [destruct S1 as (_ & -> & _), R as [(_ & -> & _) _ _ _ _ _ _ _ _]; reflexivity|].
  pose proof (pw_total _ _ HP2) as Ht2. rewrite EN in Ht2.
  assert (HNp : 0 < N) by (destruct Ht2; lia).
  split; [exact HNp|].
  assert (Hpart : 0 <= part).
  { pose proof (pw_avail _ _ HP0) as [A _]. unfold part, daily_part. destruct (Z.eqb_spec (Z.max 0 (p_ends_at (wp w) - ts) / 86400) 0); [exact A|].
    assert (0 <= Z.max 0 (p_ends_at (wp w) - ts) / 86400) by (apply Z.div_pos; lia). apply Z.div_pos; lia. }
  split; [exact Hpart|].
  assert (Esh : m_share (wm m') = share_at ts m + a) by (rewrite Sh, (rf_share _ _ _ _ R); reflexivity).
  assert (Esf : m_sfo (wm m') = m_sfo (wm m)) by (rewrite S4; apply R).
  assert (ES : S = m_share (wm m') + m_sfo (wm m')) by (unfold S; lia).
  split; [pose proof (mw_share _ HM1) as [? _]; pose proof (mw_sfo _ HM1) as [? _]; lia|].
  assert (Am : ascending (wm_diffs m1)) by (rewrite (rf_diffs _ _ _ _ R); apply ascending_after; eapply ok_mining; [exact LO|apply Mk|apply Mk]).
  destruct (scheduled_nothing _ _ _ _ Am (mw_asc _ HM1) SM) as [Etot _].
  destruct (scheduled_nothing _ _ _ _ (pw_diffs_asc _ _ HP0) (pw_diffs_asc _ _ HP1) SP) as [_ Edues].
  split; [pose proof (mw_unclaimed _ HM1) as [U _]; rewrite S3, (rf_unclaimed _ _ _ _ R) in U; exact U|].
  split.
  { unfold unlocked. rewrite Etot, (rf_diffs _ _ _ _ R), Esh, total_after. unfold share_at.
    pose proof (orderly_reachable e Henv Hinj Hrent P HP disciplined disciplined_donate disciplined_init (fun _ _ _ H => H) _ _ _ _ HO HV) as HC.
    apply reachable_inv in HC. unfold cinv in HC. cbn [core_of c_pool c_min] in HC.
    pose proof (mi_diffs _ _ _ (i_min _ _ _ _ _ HC k m (proj1 (in_view e P L k m) Hm))). lia. }
  split; [exact EN|].
  split; [intros b Hb; rewrite D2, due_after by exact Hb; rewrite !Edues; reflexivity|].
  split; [exact V2|]. split; [exact Esh|]. split; [exact Esf|].
  split; [intros x; rewrite (scheduled_zero _ _ _ _ SM), (rf_diffs _ _ _ _ R); reflexivity|].
  split; [exact Hds|].
  unfold tokens_at at 1. rewrite (upto_none _ _ Hds). cbn [earned]. rewrite S3, S2, (rf_index _ _ _ _ R), Hv0, Hv2, I2, <- ES.
  rewrite (rf_unclaimed _ _ _ _ R). f_equal. f_equal. f_equal. lia.
Qed.

Lemma flash now ts ms ms' a o d L L1 L2 r1 r2 V w k m T dl :
  orderly e P disciplined now L -> pool_vault e L P V w -> mining_in e L P k m -> now <= ts -> is_u64 ts ->
  ix_in_range (DepositMining a LFlex o d) ->
  exec e ts ms (DepositMining a LFlex o d) L = Ok (L1, r1) ->
  account_at ms 0 P -> account_at ms 1 k -> account_at ms 3 k ->
  exec e ts ms' DistributeRewards L1 = Ok (L2, r2) -> account_at ms' 0 P ->
  day_start ts < ts -> ~ has_date (day_start ts) (wp_ci w) -> Z.of_nat (length (wp_ci w)) < 1095 ->
  orderly e P disciplined ts L2 -> owner_of L2 (p_mint (wp w)) = spl_token_id e -> p_deposit_auth (wp w) <> system_id ->
  m_owner (wm m) <> system_id -> is_key (m_owner (wm m)) -> is_key dl -> payable e L2 w V m T ->
  let part := daily_part (p_avail (wp w)) (p_ends_at (wp w)) ts in
  let N := p_total (wp w) - due (day_start ts) (wp_diffs w) + a in
  let S := share_at ts m + m_sfo (wm m) + a in
  exists L3 L4 x w4 m4,
    exec e ts (fst (b_claim e P (p_mint (wp w)) V k (m_owner (wm m)) (p_deposit_auth (wp w)) T)) Claim L2
      = Ok (L3, Some (tokens_at ts (wp_ci w) m + x)) /\
    exec e ts (fst (b_withdraw P k (p_deposit_auth (wp w)) k a (m_owner (wm m)) dl)) (WithdrawMining a (m_owner (wm m)) dl) L3
      = Ok (L4, None) /\
    0 < N /\ x = (10000000000000000 * part / N) * S / 10000000000000000 /\
    N * x <= part * S < N * (x + 2 + S / 10000000000000000) /\
    balance L4 T = balance L2 T + (tokens_at ts (wp_ci w) m + x) /\
    balance L4 V = balance L2 V - (tokens_at ts (wp_ci w) m + x) /\
    is_pool e L4 P w4 /\ is_mining e L4 k m4 /\
    p_total (wp w4) = p_total (wp w) - due (day_start ts) (wp_diffs w) /\ p_avail (wp w4) = p_avail (wp w) - part /\
    m_share (wm m4) = share_at ts m /\ m_sfo (wm m4) = m_sfo (wm m) /\ m_unclaimed (wm m4) = 0 /\
    same_amounts (Spec.after (day_start ts) (wm_diffs m)) (wm_diffs m4).
Proof.
  intros HO0 HV0 Hm0 Hts0 Hu Hi X1 AP Ak AD X2 AP' Hmid Hno Hlen HO Hmint Hauth Hown Hko Hkd Hpay part N S.
  destruct (flash_in now ts ms ms' a o d L L1 L2 r1 r2 V w k m HO0 HV0 Hm0 Hts0 Hu Hi X1 AP Ak AD X2 AP' Hmid Hno Hlen)
    as (w2 & m2 & HV & Hm & Eau & Emi & Eow & HN & Hp & HS & Htk & Hun & EN & Edue & Eav & Esh & Esf & Esa & Hds & Etok).
  fold part N S in HN, Hp, HS, EN, Eav, Etok.
  rewrite <- Emi in Hmint. rewrite <- Eau in Hauth. rewrite <- Eow in Hown, Hko.
  assert (Hpay2 : payable e L2 w2 V m2 T) by (destruct Hpay as (t & Q1 & Q2 & Q3 & Q4); exists t; rewrite Emi, Eow; auto). clear Hpay.
  rewrite <- Emi, <- Eau, <- Eow. rename Hpay2 into Hpay.
  pose proof (orderly_reached e P _ _ _ HO) as HR.
  pose proof (eo_tok _ Henv) as Ntok.
  assert (HTV : T <> V) by (destruct Hpay as (? & _ & _ & _ & ? & _); assumption).
  destruct (claim_exec e Henv Hinj Hrent P HP disciplined disciplined_donate disciplined_init ts ts L2 V w2 (p_mint (wp w2)) k m2 T
    (orderly_reachable e Henv Hinj Hrent P HP disciplined disciplined_donate disciplined_init (fun _ _ _ H => H) _ _ _ _ HO HV)
    HO HV (Z.le_refl _) eq_refl Hmint Hm Hpay) as (L3 & r & X3 & _).
  pose proof (claim_orderly e P disciplined _ _ _ _ _ _ _ _ _ _ _ disciplined_claim HO HV (Z.le_refl _) Hu Hown Hauth X3) as HO3.
  destruct (claim_post e Henv Hinj Hrent P HP disciplined disciplined_donate disciplined_init _ _ _ _ _ _ _ _ _ _ _ _ HO HV (Z.le_refl _) Hu HTV X3)
    as (Q1 & HV3 & _ & Q4 & Q5).
  destruct (claim_pays e Henv _ _ _ _ _ _ P k V T HR (Z.le_refl _) X3) as (w0 & m0 & m1 & m3 & t & C1 & C2 & C3 & C4 & C5 & C6 & C7 & C8 & C9 & C10);
    [reflexivity..|].
  assert (w0 = w2) as -> by (eapply same_pool; [exact C1|apply HV]).
  assert (m0 = m2) as -> by (eapply same_min; [exact C2|apply Hm]).
  injection C6 as ->.
  assert (Er : m_unclaimed (wm m1) = tokens_at ts (wp_ci w2) m2) by (rewrite (rf_unclaimed _ _ _ _ C3); reflexivity).
  pose proof (reached_exec e ts ts _ Claim L2 L3 _ HR (Z.le_refl _) Hu I X3) as HR3.
  assert (Hm3 : mining_in e L3 P k m3).
  { split; [exact C4|]. destruct C5 as [(E & _) _], C3 as [(E' & _) _ _ _ _ _ _ _ _]. rewrite E, E'. apply Hm. }
  assert (Eo : m_owner (wm m3) = m_owner (wm m2)).
  { destruct C5 as [(_ & E & _) _], C3 as [(_ & E' & _) _ _ _ _ _ _ _ _]. congruence. }
  assert (Eaf : Spec.after (day_start ts) (wm_diffs m2) = wm_diffs m2).
  { unfold Spec.after. clear -Hds. induction (wm_diffs m2) as [|[x v] l IH]; [reflexivity|]. cbn [List.filter fst].
    rewrite (proj2 (Z.ltb_lt _ _) (Hds x v (or_introl eq_refl))). f_equal. apply IH. intros y u Hin. apply (Hds y u). right. exact Hin. }
  assert (Ed3 : wm_diffs m3 = wm_diffs m2).
  { destruct C5 as (_ & _ & _ & _ & E & _). rewrite E, (rf_diffs _ _ _ _ C3). exact Eaf. }
  assert (Edu : due (day_start ts) (wm_diffs m2) = 0) by (apply due_nil_below; exact Hds).
  assert (Es3 : m_share (wm m3) = m_share (wm m2)).
  { destruct C5 as (_ & E & _). rewrite E, (rf_share _ _ _ _ C3), Edu. lia. }
  assert (Ha : is_u64 a) by apply Hi.
  destruct (withdraw_exec e Henv Hinj Hrent P HP disciplined disciplined_donate disciplined_init (fun _ _ _ H => H)
    ts ts L3 V w2 k m3 a k m3 dl HO3 HV3 (Z.le_refl _) Hm3) as (L4 & X4).
  { split; [apply Ha|]. unfold unlocked in *. rewrite Ed3, Es3. exact Hun. } { left; reflexivity. }
  rewrite Eo in X4.
  destruct (withdraw_on_ledger e Henv _ _ _ _ _ _ _ _ _ HR3 (Z.le_refl _) Ha X4)
    as (P0 & k0 & D0 & w3 & m3' & m3a & w4 & m4 & A0 & A1 & A3 & W1 & W2 & W3 & W4 & W5 & W6 & W7 & W8 & W9 & W10 & W11 & W12 & _ & W14).
  cbn in A0, A1, A3. injection A0 as <-. injection A1 as <-. injection A3 as <-.
  assert (w3 = w2) as -> by (eapply same_pool; [exact W1|apply HV3]).
  assert (m3' = m3) as -> by (eapply same_min; [exact W2|apply Hm3]).
  assert (Hif : if_other k k a = 0) by (unfold if_other; rewrite Z.eqb_refl; reflexivity).
  assert (Eagain : m3a = m3).
  { eapply again_same; [| |exact W5].
    - destruct C5 as (_ & _ & _ & E & _). rewrite E. apply C3.
    - rewrite Ed3. exact Hds. }
  subst m3a.
  exists L3, L4, ((10000000000000000 * part / N) * S / 10000000000000000), w4, m4.
  rewrite <- Etok, <- Er.
  split; [exact X3|]. split; [exact X4|]. split; [exact HN|]. split; [reflexivity|].
  split; [apply split_bounds; auto|].
  assert (Vt : exists tv, is_token e L3 V tv).
  { destruct (orderly_core e Henv Hinj Hrent P HP disciplined disciplined_donate disciplined_init _ _ _ _ HO3 HV3) as [tv HA].
    exists tv. apply HA. }
  split.
  { assert (HT3 : exists t3, data_of L3 T = DToken t3 /\ t_amount t3 = balance L2 T + m_unclaimed (wm m1)).
    { unfold balance. rewrite C7. destruct (Z_lt_le_dec 0 (m_unclaimed (wm m1))) as [Hpos|Hz].
      - destruct (C8 Hpos (not_eq_sym HTV)) as (v & _ & _ & _ & E). rewrite E. eexists. split; reflexivity.
      - assert (E : m_unclaimed (wm m1) = 0).
        { assert (0 <= tokens_at ts (wp_ci w2) m2); [|lia]. rewrite Etok. 
          apply Z.add_nonneg_nonneg; [exact Htk|]. apply Z.div_pos; [|lia]. apply Z.mul_nonneg_nonneg; [apply Z.div_pos; lia|exact HS]. }
        exists t. rewrite (C9 (or_introl E) T), C7; [split; [reflexivity|lia]|].
        intros ->. destruct Hpay as (t0 & [To _] & _). destruct Hm as [[Ho _] _]. congruence. }
    destruct HT3 as (t3 & E3 & <-). unfold balance. rewrite (W14 _ _ E3). reflexivity. }
  split.
  { rewrite <- Q4. destruct Vt as (tv & [_ Ev]). unfold balance. rewrite (W14 _ _ Ev), Ev. reflexivity. }
  split; [exact W3|]. split; [exact W4|].
  split; [rewrite W11, Hif, EN, Edue by lia; unfold N; lia|].
  split; [destruct W10 as (_ & _ & _ & _ & _ & _ & -> & _); exact Eav|].
  split; [rewrite W8, Es3, Esh; lia|].
  destruct W6 as (_ & _ & U1 & U2), C5 as (_ & _ & U3 & _ & _ & U4).
  split; [rewrite U2, U3, (rf_sfo _ _ _ _ C3); exact Esf|].
  split; [rewrite U1; exact U4|].
  rewrite W9, Ed3. exact Esa.
Qed.
End env.
