(** What stakers of a pool with an orderly history can count on, at the level of
    instructions and accounts. *)
From stdpp Require Import gmap.
From Verif Require Import Base OMap State Spec Core MapSum Ledger Program ResLemmas AccrualLemmas RefreshLemmas FrameLemmas CodecLemmas
  WfLemmas LedgerLemmas LedgerSpec History HistoryLemmas Changes AccessLemmas HistoryThms ReachThms
  CoreInv CoreThms CoreLive CoreMore Clients ClientSpec ClientLemmas CoreRun LedgerView LedgerCore.

(** ** Sums over lists and maps *)
Lemma list_msum_le {f : wmining -> Z} : forall l M,
  List.NoDup (map fst l) -> (forall k m, In (k, m) l -> M !! k = Some m) ->
  (forall k m, M !! k = Some m -> 0 <= f m) ->
  zsum (map (fun x : Z * wmining => f (snd x)) l) <= msum f M.
Proof.
  induction l as [|[k m] l IH]; intros M Hn Hl Hf; cbn [map zsum fst snd] in *.
  - apply msum_nonneg. assumption.
  - apply List.NoDup_cons_iff in Hn as [Hk Hn].
    rewrite (msum_delete f M k m) by (apply Hl; left; reflexivity).
    assert (zsum (map (fun x => f (snd x)) l) <= msum f (delete k M)); [|unfold pubkey in *; lia].
    apply IH; [assumption| |].
    + intros k' m' H. rewrite lookup_delete_ne; [apply Hl; right; assumption|].
      intros ->. apply Hk. apply (in_map fst) in H. exact H.
    + intros k' m' H. apply lookup_delete_Some in H as [_ H]. eauto.
Qed.
Lemma list_msum_eq {f : wmining -> Z} : forall l M,
  List.NoDup (map fst l) -> (forall k m, In (k, m) l <-> M !! k = Some m) ->
  zsum (map (fun x : Z * wmining => f (snd x)) l) = msum f M.
Proof.
  induction l as [|[k m] l IH]; intros M Hn Hl; cbn [map zsum fst snd] in *.
  - assert (M = ∅) as ->; [|rewrite msum_empty; reflexivity].
    apply map_eq. intros k. rewrite lookup_empty. destruct (M !! k) as [m|] eqn:E; [|reflexivity].
    apply Hl in E as [].
  - apply List.NoDup_cons_iff in Hn as [Hk Hn].
    rewrite (msum_delete f M k m) by (apply Hl; left; reflexivity).
    rewrite (IH (delete k M)); [reflexivity|assumption|].
    intros k' m'. rewrite lookup_delete_Some, <- Hl. cbn. split.
    + intros H. split; [|right; assumption]. intros ->. apply Hk. apply (in_map fst) in H. exact H.
    + intros [Hne [E|H]]; [|assumption]. injection E as -> ->. contradiction.
Qed.

(** ** Running an instruction *)

(** every account writable *)
Definition open_metas (ms : list meta) : list meta :=
  map (fun m => Meta (mt_key m) (mt_signer m) true) ms.
Lemma open_keys ms : map mt_key (open_metas ms) = map mt_key ms.
Proof. unfold open_metas. rewrite map_map. reflexivity. Qed.

Lemma exec_intro e ts ms i L x :
  process e ts ms i L = Ok x -> flags_suffice i ms -> exec e ts ms i L = Ok x.
Proof.
  intros H Hf. destruct x as [L' r].
  assert (Hs : forall k, signed ms k -> signed (open_metas ms) k).
  { intros k (m & Hm & E1 & E2). exists (Meta (mt_key m) (mt_signer m) true). split; [|auto].
    apply (in_map (fun m => Meta (mt_key m) (mt_signer m) true)) in Hm. exact Hm. }
  assert (Hw : forall n k, account_at ms n k -> writable (open_metas ms) k).
  { intros n k A. unfold account_at in A. apply nth_error_In in A. apply in_map_iff in A as (m & E & Hm).
    exists (Meta (mt_key m) (mt_signer m) true). split; [|auto].
    apply (in_map (fun m => Meta (mt_key m) (mt_signer m) true)) in Hm. exact Hm. }
  assert (Hf' : flags_suffice i (open_metas ms)).
  { destruct Hf as [F1 F2]. split; intros n k I A; unfold account_at in A; rewrite open_keys in A; eauto. }
  assert (X : exec e ts (open_metas ms) i L = Ok (L', r)).
  { unfold exec. rewrite (process_flags e ts ms (open_metas ms) i L (L', r)); [| |assumption|assumption].
    - cbn [rbind]. replace (readonly_ok (open_metas ms) L L') with true; [reflexivity|].
      symmetry. apply forallb_forall. intros m Hm.
      assert (E : is_writable (open_metas ms) (mt_key m) = true); [|rewrite E; reflexivity].
      apply is_writable_ok. apply in_map_iff in Hm as (m0 & <- & Hm). cbn [mt_key].
      apply (in_map mt_key) in Hm. apply In_nth_error in Hm as [n Hn]. exact (Hw n _ Hn).
    - intros n k _ A. unfold account_at in *. rewrite open_keys. assumption. }
  eapply exec_flags; [|exact Hf|exact X].
  intros n k _ A. unfold account_at in *. rewrite open_keys in A. assumption.
Qed.

Section env.
Context (e : env) (Henv : env_ok e) (Hinj : env_inj e) (Hrent : 0 < rent_min e MINING_LEN).
Context (P : pubkey) (HP : P <> 0) (D : Z -> op -> core -> Prop)
        (HDonate : forall ts n c, D ts (ODonate n) c)
        (HDinit : forall ts k p o b c, D ts (OInit k p o b) c).

Lemma in_view L k m : mining_in e L P k m <-> minings_of e P L !! k = Some m.
Proof. rewrite min_look, live_some. reflexivity. Qed.

(** a mining passes the checks of [assert_and_get] *)
Lemma get_intro now L V w k m :
  orderly e P D now L -> pool_vault e L P V w -> mining_in e L P k m ->
  k <> P /\ cpa_mining e (m_owner (wm m)) P (m_bump (wm m)) = Some k /\
  assert_and_get e L (m_owner (wm m)) k P (p_deposit_auth (wp w)) = Ok (w, m).
Proof.
  intros HO (Hw & _) [Hm Hp].
  destruct (orderly_good e Henv Hinj Hrent P HP D HDonate HDinit _ _ HO) as (_ & _ & HM & _ & HA & _).
  destruct (typed e P HP L k m HM Hm Hp) as [Ht _]. pose proof (HA k m Hm Ht) as Hc. rewrite Hp in Hc.
  destruct Hw as [Hwo Hwd], Hm as [Hmo Hmd].
  split. { intros ->. congruence. } split; [assumption|].
  unfold assert_and_get, data_of in *. rewrite Hmd, Hwd. cbn [load_mining load_pool rbind]. rewrite Hc. cbn [pda rbind].
  unfold assert_account_key. rewrite Hp, !Z.eqb_refl. reflexivity.
Qed.

Lemma verify_intro now L V w k x mx d :
  orderly e P D now L -> pool_vault e L P V w ->
  x = k \/ mining_in e L P x mx /\ d = m_owner (wm mx) ->
  verify_opt e L x k d P = Ok tt.
Proof.
  intros HO HV H. unfold verify_opt. destruct (Z.eqb_spec k x) as [|Hne]; [reflexivity|].
  destruct H as [|[Hx ->]]; [congruence|]. destruct (get_intro _ _ _ _ _ _ HO HV Hx) as (Hxp & Hc & _).
  unfold verify_delegate, distinct. rewrite (proj2 (Z.eqb_neq x P)) by assumption. cbn [negb ensure rbind].
  destruct Hx as [[_ Hd] _]. unfold data_of in Hd. rewrite Hd. cbn [load_mining rbind]. rewrite Hc, Z.eqb_refl. reflexivity.
Qed.

(** ** Claims *)
Lemma claim_exec now ts L V w mint k m T :
  reachable disciplined (core_of e P V now L) ->
  orderly e P D now L -> pool_vault e L P V w -> now <= ts ->
  mint = p_mint (wp w) -> owner_of L mint = spl_token_id e ->
  mining_in e L P k m -> payable e L w V m T ->
  exists L' a, exec e ts (fst (b_claim e P mint V k (m_owner (wm m)) (p_deposit_auth (wp w)) T)) Claim L
    = Ok (L', Some a) /\ a = claimable ts (core_of e P V now L) m.
Proof.
  intros HR HO HV Hts Em Hmint Hm (t & [To Td] & Ht & Htm & HTV & Hfit).
  destruct (orderly_core e Henv Hinj Hrent P HP D HDonate HDinit _ _ _ _ HO HV) as [tv HA].
  destruct (get_intro _ _ _ _ _ _ HO HV Hm) as (Hkp & _ & _).
  destruct (claim_succeeds (core_of e P V now L) ts k m HR Hts) as [c' Hc].
  { apply in_view. assumption. }
  cbn [core_step core_of c_pool c_min c_vault] in Hc.
  destruct Hm as [Hm Hmp]. rewrite (get_min_view e P L k m Hm Hmp) in Hc. cbn [rbind] in Hc.
  destruct HV as (Hw & Hty & HVk). rewrite (pool_of_is e P L w Hw) in Hc.
  apply rbind_ok in Hc as (m1 & Hr & Hc). apply rbind_ok in Hc as ([] & Hv & _).
  apply ensure_ok, Z.leb_le in Hv.
  destruct HA as [_ _ _ [Hvo Hvd] Hvm Hvow _]. destruct Hw as [Hwo Hwd], Hm as [Hmo Hmd].
  assert (HkV : k <> V) by (intros ->; pose proof (eo_tok _ Henv); congruence).
  assert (HkT : k <> T) by (intros ->; pose proof (eo_tok _ Henv); congruence).
  set (ms := fst (b_claim e P mint V k (m_owner (wm m)) (p_deposit_auth (wp w)) T)).
  set (a := m_unclaimed (wm m1)) in *.
  assert (Hp : exists L', process e ts ms Claim L = Ok (L', Some a)).
  { cbn [process]. unfold process_claim, ms, b_claim. cbn [fst].
    unfold owner_of, data_of in *.
    set (ms0 := [mr P false; mr mint false; mw V false; mw k false; mr (m_owner (wm m)) true;
                 mr (p_deposit_auth (wp w)) true; mw T false; mr (spl_token_id e) false]).
    assert (S1 : is_signer ms0 (m_owner (wm m)) = true) by (apply is_signer_ok; eexists; split; [unfold ms0; cbn; do 4 right; left; reflexivity|split; reflexivity]).
    assert (S2 : is_signer ms0 (p_deposit_auth (wp w)) = true) by (apply is_signer_ok; eexists; split; [unfold ms0; cbn; do 5 right; left; reflexivity|split; reflexivity]).
    assert (W1 : is_writable ms0 V = true) by (apply is_writable_ok; eexists; split; [unfold ms0; cbn; do 2 right; left; reflexivity|split; reflexivity]).
    assert (W2 : is_writable ms0 T = true) by (apply is_writable_ok; eexists; split; [unfold ms0; cbn; do 6 right; left; reflexivity|split; reflexivity]).
    unfold ms0 at 1. cbn [next_with_owner next_signer next_with_key mr mw mt_key].
    rewrite Hwo, Z.eqb_refl. cbn [rbind next_with_owner mr mw mt_key].
    rewrite Hmint, Z.eqb_refl. cbn [rbind next_with_owner mr mw mt_key].
    rewrite Hvo, Z.eqb_refl. cbn [rbind next_with_owner mr mw mt_key].
    rewrite Hmo, Z.eqb_refl. cbn [rbind next_signer mr mw mt_key].
    rewrite S1. cbn [rbind next_signer mr mw mt_key].
    rewrite S2. cbn [rbind next_with_owner mr mw mt_key].
    rewrite To, Z.eqb_refl. cbn [rbind next_with_key mr mw mt_key].
    rewrite Z.eqb_refl. cbn [rbind]. rewrite Td. cbn [load_token rbind].
    unfold assert_account_key, distinct. rewrite Ht, Z.eqb_refl. cbn [ensure rbind].
    rewrite Hwd. cbn [load_pool rbind]. rewrite Z.eqb_refl. cbn [ensure rbind].
    rewrite (proj2 (Z.eqb_neq k P)) by assumption. cbn [negb ensure rbind].
    rewrite Hmd. cbn [load_mining rbind]. rewrite Hmp, !Z.eqb_refl. cbn [ensure rbind].
    rewrite Em, HVk. cbn [pda rbind]. rewrite Z.eqb_refl. cbn [ensure rbind].
    rewrite Hr. cbn [rbind]. fold a.
    destruct (0 <? a) eqn:Ea; [|eauto].
    unfold spl_transfer. rewrite W1, W2, S2. cbn [andb ensure rbind]. unfold put_mining.
    rewrite !acc_put. rewrite (proj2 (Z.eqb_neq V k)), (proj2 (Z.eqb_neq T k)) by congruence.
    rewrite Hvd, Td. cbn [load_token rbind].
    unfold balance, data_of in Hv, Hfit. rewrite Hvd in Hv, Hfit.
    rewrite (proj2 (Z.leb_le _ _)) by assumption. cbn [ensure rbind].
    rewrite Hvm, Htm, Hvow, !Z.eqb_refl. cbn [ensure rbind].
    rewrite (proj2 (Z.eqb_neq V T)) by congruence.
    rewrite (proj2 (Z.ltb_lt _ _)) by lia. cbn [ensure rbind]. eauto. }
  destruct Hp as [L' Hp]. exists L', a. split.
  - apply exec_intro; [exact Hp|]. apply (built_flags e). constructor.
  - unfold claimable. cbn [core_of c_pool]. rewrite (pool_of_is e P L w (conj Hwo Hwd)), Hr. reflexivity.
Qed.

Lemma run_snoc now L now1 L1 ts ms i L2 r :
  orderly_run e P D now L now1 L1 -> now1 <= ts -> is_u64 ts -> ix_in_range i ->
  exec e ts ms i L1 = Ok (L2, r) -> orderly_ix e P D now1 ts ms i L1 -> orderly_run e P D now L ts L2.
Proof.
  induction 1 as [|now L ts0 ms0 i0 L0 r0 now1 L1 Hts0 Hu0 Hr0 X0 O0 R IH|now L ts0 L0 now1 L1 Hts0 Hu0 X0 O0 R IH];
    intros Hts Hu Hr X O.
  - exact (or_ix _ _ _ _ _ _ _ _ _ _ _ _ Hts Hu Hr X O (or_nil _ _ _ _ _)).
  - exact (or_ix _ _ _ _ _ _ _ _ _ _ _ _ Hts0 Hu0 Hr0 X0 O0 (IH Hts Hu Hr X O)).
  - exact (or_ext _ _ _ _ _ _ _ _ _ Hts0 Hu0 X0 O0 (IH Hts Hu Hr X O)).
Qed.
Lemma orderly_snoc now L ts ms i L1 r :
  orderly e P D now L -> now <= ts -> is_u64 ts -> ix_in_range i ->
  exec e ts ms i L = Ok (L1, r) -> orderly_ix e P D now ts ms i L -> orderly e P D ts L1.
Proof.
  intros (L0 & G & Hd & R) Hts Hu Hr X O. exists L0. repeat (split; [assumption|]).
  eapply run_snoc; eassumption.
Qed.

Lemma orderly_time now L : orderly e P D now L -> 0 <= now.
Proof. intros HO. apply (orderly_good e Henv Hinj Hrent P HP D HDonate HDinit) in HO. apply HO. Qed.

Lemma claim_orderly now ts L V w mint k m T L' r :
  (forall ts k c, D ts (OClaim k) c) ->
  orderly e P D now L -> pool_vault e L P V w -> now <= ts -> is_u64 ts ->
  m_owner (wm m) <> system_id -> p_deposit_auth (wp w) <> system_id ->
  exec e ts (fst (b_claim e P mint V k (m_owner (wm m)) (p_deposit_auth (wp w)) T)) Claim L = Ok (L', r) ->
  orderly e P D ts L'.
Proof.
  intros HDc HO HV Hts Hu N1 N2 X. eapply orderly_snoc; try eassumption; [exact I|]. constructor; try discriminate.
  - intros (x & Hin & E1 & E2). cbn in Hin. decompose [or] Hin; subst; cbn in *; try discriminate; try contradiction; congruence.
  - intros V0 w0 o _ Ho. cbn in Ho. rewrite Z.eqb_refl in Ho. injection Ho as <-. apply HDc.
Qed.

(** what a claim leaves behind *)
Lemma claim_post now ts L V w mint k owner auth T L' a :
  orderly e P D now L -> pool_vault e L P V w -> now <= ts -> is_u64 ts -> T <> V ->
  exec e ts (fst (b_claim e P mint V k owner auth T)) Claim L = Ok (L', Some a) ->
  (forall x, owner_of L' x = owner_of L x) /\ pool_vault e L' P V w /\
  (forall x m, mining_in e L P x m -> exists m', mining_in e L' P x m' /\ m_owner (wm m') = m_owner (wm m)) /\
  balance L' V = balance L V - a /\
  (forall x t, x <> V -> is_token e L x t -> exists t', is_token e L' x t' /\ t_owner t' = t_owner t /\
     t_mint t' = t_mint t /\ t_amount t' + balance L' V <= t_amount t + balance L V).
Proof.
  intros HO HV Hts Hu HTV X.
  destruct (orderly_core e Henv Hinj Hrent P HP D HDonate HDinit _ _ _ _ HO HV) as [tv HA].
  pose proof HA as [_ _ _ [Hvo Hvd] _ _ _].
  destruct (orderly_good e Henv Hinj Hrent P HP D HDonate HDinit _ _ HO) as (Hn & HL & _).
  apply exec_inv in X as [X _]. cbn [process] in X. apply rbind_ok in X as ([L1 a1] & X & E).
  injection E as -> ->.
  apply claim_inv in X as (pool & mint' & vault & mining & owner' & auth' & dest & w0 & m0 & m1 & t0 & A & Hpo & _ & Hvo' & Hmo & Hdo & _ & _ & Hdd & Hdow & Hpd & _ & Hmd & _ & Hmp & Hne & _ & Hr & Ea & Hcase).
  cbv zeta in Hcase. destruct A as [rest A]. cbn in A. injection A as <- <- <- <- <- <- <- <-.
  destruct HV as ([Hwo Hwd] & Hty & HVk). rewrite Hwd in Hpd. injection Hpd as <-.
  assert (Hkt : k <> V /\ k <> T /\ P <> V /\ P <> T) by (pose proof (eo_tok _ Henv); repeat split; intros ->; congruence).
  destruct Hkt as (H1 & H2 & H3 & H4).
  set (mc := WMining (mining_claim (wm m1)) (wm_diffs m1)) in *.
  assert (Hmc : m_pool (wm mc) = m_pool (wm m0) /\ m_owner (wm mc) = m_owner (wm m0)).
  { pose proof (refresh_id _ _ _ _ Hr) as [HF _]. unfold same_id in HF. unfold mc. destruct m1 as [[] ?]; cbn in *. intuition congruence. }
  assert (Ha0 : 0 <= a).
  { destruct (HL P) as [_ Hpw]. destruct (HL k) as [_ Hmw]. unfold owner_of, data_of in *.
    specialize (Hpw Hwo). specialize (Hmw Hmo). rewrite Hwd in Hpw. rewrite Hmd in Hmw.
    subst a. pose proof (refresh_wf _ _ _ _ _ Hpw Hmw Hr) as HW. apply HW. }
  assert (HB : exists Lx, L' = Lx /\ (forall x, owner_of Lx x = owner_of L x) /\
    (forall x, x <> k -> x <> V -> x <> T -> acc Lx x = acc L x) /\ data_of Lx k = DMining mc /\
    data_of Lx V = DToken (Token (t_mint tv) (t_owner tv) (t_amount tv - a)) /\
    data_of Lx T = DToken (Token (t_mint t0) (t_owner t0) (t_amount t0 + a))).
  { exists L'. split; [reflexivity|]. destruct Hcase as [[Hle ->]|[Hpos Htr]].
    - assert (a = 0) by lia. unfold put_mining. split; [intros x; apply owner_put|].
      split; [intros x Hx _ _; apply acc_put_data_ne; congruence|]. split; [apply data_put|].
      unfold data_of in *. rewrite !acc_put_data_ne by congruence. rewrite Hvd, Hdd.
      destruct tv, t0; cbn. split; do 2 f_equal; lia.
    - apply spl_transfer_inv in Htr as (s & d & Hs & Hd & _ & _ & _ & _ & _ & _ & [[? _]|(Hvt & _ & ->)]); [congruence|].
      unfold put_mining, data_of in Hs, Hd. rewrite acc_put_data_ne in Hs, Hd by congruence. unfold data_of in Hvd, Hdd.
      rewrite Hvd in Hs. rewrite Hdd in Hd. injection Hs as <-. injection Hd as <-.
      unfold put_mining. split; [intros x; rewrite !owner_put; reflexivity|].
      split; [intros x ? ? ?; rewrite !acc_put_data_ne by congruence; reflexivity|].
      split; [unfold data_of; rewrite 2 acc_put_data_ne by congruence; apply data_put|].
      split; [unfold data_of; rewrite acc_put_data_ne by congruence; apply data_put|apply data_put]. }
  destruct HB as (? & <- & Ho & Hx & Dk & DV & DT).
  split; [assumption|]. split.
  { split; [|auto]. unfold is_pool, data_of. rewrite Ho, Hx by congruence. auto. }
  split.
  { intros x m [[Hxo Hxd] Hxp]. destruct (Z.eq_dec x k) as [->|Hk].
    - exists mc. rewrite Hmd in Hxd. injection Hxd as <-. destruct Hmc as [Hmc1 Hmc2].
      split; [split; [split; [rewrite Ho|]|]|]; congruence.
    - exists m. split; [|reflexivity]. split; [|assumption]. unfold is_mining, data_of in *. rewrite Ho.
      rewrite Hx; [auto|assumption| |]; intros ->; pose proof (eo_tok _ Henv); congruence. }
  assert (HbV : balance L V = t_amount tv) by (unfold balance; rewrite Hvd; reflexivity).
  assert (HbV' : balance L' V = t_amount tv - a) by (unfold balance; rewrite DV; reflexivity).
  split; [lia|]. intros x t HxV [Hxo Hxd]. destruct (Z.eq_dec x T) as [->|HxT].
  - eexists. split; [split; [rewrite Ho; assumption|exact DT]|]. rewrite Hdd in Hxd. injection Hxd as <-. cbn.
    repeat (split; [reflexivity|]). lia.
  - exists t. split; [|repeat (split; [reflexivity|]); lia]. unfold is_token, data_of in *. rewrite Ho.
    rewrite Hx; [auto| |assumption|assumption]. intros ->. pose proof (eo_tok _ Henv). congruence.
Qed.

Lemma reachable_mono (Q Q' : Z -> op -> core -> Prop) c :
  (forall ts o c, Q ts o c -> Q' ts o c) -> reachable Q c -> reachable Q' c.
Proof.
  intros H (w & v & t & ? & ? & ? & HH). exists w, v, t. repeat (split; [assumption|]).
  induction HH; [constructor|]. econstructor; eauto.
Qed.

Context (HDis : forall ts o c, D ts o c -> disciplined ts o c).

Lemma orderly_reachable now L V w :
  orderly e P D now L -> pool_vault e L P V w -> reachable disciplined (core_of e P V now L).
Proof.
  intros HO HV. destruct (orderly_core e Henv Hinj Hrent P HP D HDonate HDinit _ _ _ _ HO HV) as [t HA].
  eapply reachable_mono; [exact HDis|apply HA].
Qed.

Lemma claims_exec (HDc : forall ts k c, D ts (OClaim k) c) : forall l now ts L V w mint,
  orderly e P D now L -> pool_vault e L P V w -> now <= ts -> is_u64 ts ->
  mint = p_mint (wp w) -> owner_of L mint = spl_token_id e -> p_deposit_auth (wp w) <> system_id ->
  (forall k o T, In (k, o, T) l -> exists m, mining_in e L P k m /\ o = m_owner (wm m) /\ o <> system_id /\
     payable e L w V m T) ->
  exists L' xs, claims e ts P mint V (p_deposit_auth (wp w)) l L = Ok (L', xs) /\
    length xs = length l /\ balance L' V = balance L V - zsum xs /\ pool_vault e L' P V w /\
    (l <> [] -> orderly e P D ts L').
Proof.
  induction l as [|[[k o] T] l IH]; intros now ts L V w mint HO HV Hts Hu Em Hmint Hauth Hl.
  - exists L, []. cbn. repeat split; try lia; try apply HV. congruence.
  - destruct (Hl k o T (or_introl eq_refl)) as (m & Hm & -> & Ho0 & Hpay).
    assert (HTV : T <> V) by (destruct Hpay as (? & _ & _ & _ & ? & _); assumption).
    destruct (claim_exec now ts L V w mint k m T (orderly_reachable _ _ _ _ HO HV) HO HV Hts Em Hmint Hm Hpay)
      as (L1 & a & X & _).
    pose proof (claim_orderly _ _ _ _ _ _ _ _ _ _ _ HDc HO HV Hts Hu Ho0 Hauth X) as HO1.
    destruct (claim_post _ _ _ _ _ _ _ _ _ _ _ _ HO HV Hts Hu HTV X) as (Q1 & Q2 & Q3 & Q4 & Q5).
    destruct (IH ts ts L1 V w mint HO1 Q2 (Z.le_refl _) Hu Em) as (L' & xs & E & E1 & E2 & E3 & E4).
    { rewrite Q1. assumption. } { assumption. }
    { intros k' o' T' Hin. destruct (Hl k' o' T' (or_intror Hin)) as (m' & Hm' & -> & Ho' & (t & Ht & F1 & F2 & F3 & F4)).
      destruct (Q3 _ _ Hm') as (m2 & Hm2 & Eo). exists m2. split; [assumption|]. split; [congruence|]. split; [assumption|].
      destruct (Q5 T' t F3 Ht) as (t2 & Ht2 & G1 & G2 & G3). exists t2. repeat (split; [congruence || assumption|]). lia. }
    exists L', (a :: xs). cbn [claims]. rewrite X. cbn [rbind]. rewrite E. cbn [rbind length zsum].
    split; [reflexivity|]. split; [lia|]. split; [lia|]. split; [assumption|]. intros _.
    destruct l; [cbn in E; injection E as <- <-; assumption|apply E4; discriminate].
Qed.

(** ** Sums *)
Lemma shares_cover now L V w d l :
  orderly e P D now L -> pool_vault e L P V w -> day_start now <= d ->
  List.NoDup (map fst l) -> (forall k m, In (k, m) l -> mining_in e L P k m) ->
  zsum (map (fun x => eff (snd x) d) l) <= p_total (wp w) - due d (wp_diffs w).
Proof.
  intros HO HV Hd Hn Hl. pose proof (orderly_reachable _ _ _ _ HO HV) as HR.
  pose proof (total_share_covers _ d HR Hd) as Hc. unfold core_of in Hc. cbn [c_pool c_min] in Hc.
  rewrite (pool_of_is e P L w (proj1 HV)) in Hc.
  etransitivity; [|exact Hc]. apply (list_msum_le (f := fun m => eff m d)); [assumption| |].
  - intros k m H. apply in_view. auto.
  - intros k m H. apply reachable_inv in HR. eapply eff_nonneg. exact (i_min _ _ _ _ _ HR k m H).
Qed.

Lemma solvent_returns now ts L V w l :
  orderly e P D now L -> pool_vault e L P V w -> now <= ts ->
  List.NoDup (map fst l) -> (forall k a, In (k, a) l -> claim_returns e ts L P k a) ->
  p_avail (wp w) + zsum (map snd l) <= balance L V.
Proof.
  intros HO HV Hts Hn Hl. pose proof (orderly_reachable _ _ _ _ HO HV) as HR.
  pose proof (solvent_claims _ ts HR Hts) as Hs. unfold core_of at 1 3 4 in Hs. cbn [c_pool c_min c_vault] in Hs.
  rewrite (pool_of_is e P L w (proj1 HV)) in Hs.
  set (c := core_of e P V now L) in *.
  set (mk := fun x : pubkey * Z => (fst x, match data_of L (fst x) with DMining m => m | _ => zero_wmining end)).
  assert (H1 : forall k a, In (k, a) l -> exists m, mk (k, a) = (k, m) /\ mining_in e L P k m /\ a = claimable ts c m).
  { intros k a Hin. destruct (Hl k a Hin) as (ms & L' & A0 & A3 & X).
    apply exec_inv in X as [X _]. cbn [process] in X. apply rbind_ok in X as ([L1 a1] & X & E). injection E as -> ->.
    apply claim_inv in X as (pool & mint' & vault & mining & owner' & auth' & dest & w0 & m0 & m1 & t0 & A & _ & _ & _ & Hmo & _ & _ & _ & _ & _ & Hpd & _ & Hmd & _ & Hmp & _ & _ & Hr & Ea & _).
    assert (E0 : pool = P) by (symmetry; eapply at_fun; [exact A0|at_]). assert (k = mining) by (eapply at_fun; [exact A3|at_]).
    rewrite E0 in *. clear E0 pool. subst mining. exists m0. unfold mk. cbn [fst]. rewrite Hmd. split; [reflexivity|].
    split; [split; [split; assumption|assumption]|]. unfold claimable, c, core_of. cbn [c_pool].
    rewrite (pool_of_is e P L w (proj1 HV)). destruct HV as [[_ Hwd] _]. rewrite Hwd in Hpd. injection Hpd as <-.
    rewrite Hr. assumption. }
  assert (H2 : zsum (map snd l) = zsum (map (fun x => claimable ts c (snd x)) (map mk l))).
  { clear -H1. induction l as [|[k a] l IH]; [reflexivity|]. cbn [map zsum snd].
    destruct (H1 k a (or_introl eq_refl)) as (m & -> & _ & ->). cbn [snd]. f_equal. apply IH. intros; apply H1; right; assumption. }
  rewrite H2. etransitivity; [|exact Hs]. apply Z.add_le_mono_l.
  apply (list_msum_le (f := claimable ts c)).
  - rewrite map_map. exact Hn.
  - intros k m H. apply in_map_iff in H as ([k0 a0] & E & Hin).
    destruct (H1 k0 a0 Hin) as (m' & E' & Hm & _). rewrite E' in E. injection E as <- <-. apply in_view. assumption.
  - intros k m H. pose proof HR as HI. apply reachable_inv in HI. unfold cinv in HI.
    apply (inv_time _ _ _ _ _ ts) in HI; [|exact Hts].
    destruct (inv_refresh_succeeds _ _ _ _ _ _ _ HI H) as [m' Hr]. unfold claimable. rewrite Hr.
    pose proof (inv_refresh _ _ _ _ _ _ _ _ HI H Hr) as HI1.
    pose proof (i_min _ _ _ _ _ HI1 k m' (lookup_insert _ _ _)) as Hm1. apply (mo_unclaimed _ (mi_ok _ _ _ Hm1)).
Qed.

(** ** Withdrawals, deposits, distributions *)
Lemma built_sig (k : pubkey) (w1 : bool) (l : list meta) : In (Meta k true w1) l -> is_signer l k = true.
Proof. intros H. apply is_signer_ok. eexists. split; [exact H|split; reflexivity]. Qed.

Lemma withdraw_exec now ts L V w k m a x mx d :
  orderly e P D now L -> pool_vault e L P V w -> now <= ts ->
  mining_in e L P k m -> 0 <= a <= unlocked m ->
  x = k \/ mining_in e L P x mx /\ d = m_owner (wm mx) /\ a <= m_sfo (wm mx) ->
  exists L', exec e ts (fst (b_withdraw P k (p_deposit_auth (wp w)) x a (m_owner (wm m)) d))
    (WithdrawMining a (m_owner (wm m)) d) L = Ok (L', None).
Proof.
  intros HO HV Hts Hm Ha Hx. pose proof (orderly_reachable _ _ _ _ HO HV) as HR.
  destruct (get_intro _ _ _ _ _ _ HO HV Hm) as (Hkp & _ & Hget).
  assert (Hxl : x = k \/ exists y, is_mining e L x y /\ m_pool (wm y) = P).
  { destruct Hx as [|[Hx _]]; [auto|right; exists mx; exact Hx]. }
  assert (Hv : verify_opt e L x k d P = Ok tt).
  { eapply verify_intro; [eassumption..|]. destruct Hx as [|(? & ? & _)]; [left; assumption|right; split; eassumption]. }
  assert (Hc : exists c', core_step ts (OWithdraw k a (other x k)) (core_of e P V now L) = Ok c').
  { unfold other. destruct (Z.eqb_spec x k) as [E|Hne].
    - eapply withdraw_succeeds; [exact HR|exact Hts|apply in_view; eassumption|assumption].
    - destruct Hx as [|(Hx & _ & Hs)]; [contradiction|].
      eapply withdraw_delegated_succeeds; [exact HR|exact Hts|apply in_view; eassumption|apply in_view; eassumption|assumption..]. }
  destruct Hc as [c' Hc]. cbn [core_step core_of c_pool c_min c_vault] in Hc.
  rewrite (get_min_view e P L k m (proj1 Hm) (proj2 Hm)) in Hc. cbn [rbind] in Hc.
  rewrite (get_dlg_view e P L k x Hxl) in Hc. cbn [rbind] in Hc.
  rewrite (pool_of_is e P L w (proj1 HV)) in Hc.
  apply rbind_ok in Hc as ([[w' m'] d'] & Hw & _).
  assert (Hxo : owner_of L x = program_id e) by (destruct Hxl as [->|(y & [Hy _] & _)]; [apply Hm|assumption]).
  eexists. apply exec_intro; [|apply (built_flags e); constructor].
  cbn [process]. unfold process_withdraw, b_withdraw. cbn [fst].
  destruct HV as ([Hwo _] & _). destruct Hm as ([Hmo _] & _). unfold owner_of in *.
  cbn [next_with_owner mw mr mt_key]. rewrite Hwo, Z.eqb_refl. cbn [rbind next_with_owner mw mr mt_key].
  rewrite Hmo, Z.eqb_refl. cbn [rbind next_signer mw mr mt_key].
  rewrite (built_sig _ false) by (cbn; tauto). cbn [rbind next_with_owner mw mr mt_key].
  rewrite Hxo, Z.eqb_refl. cbn [rbind]. unfold distinct. rewrite (proj2 (Z.eqb_neq k P)) by assumption. cbn [negb ensure rbind].
  rewrite Hget. cbn [rbind]. rewrite Hv. cbn [rbind]. rewrite Hw. cbn [rbind no_ret]. reflexivity.
Qed.

Lemma deposit_exec now ts L V w k m a p x mx d :
  orderly e P D now L -> pool_vault e L P V w -> now <= ts -> ts + 366 * 86400 < U64 ->
  mining_in e L P k m -> p <> LNone -> 0 <= a ->
  disciplined ts (ODeposit k a p (other x k)) (core_of e P V now L) ->
  p_total (wp w) + a * weight_of p + (if x =? k then 0 else a) < U64 ->
  x = k \/ mining_in e L P x mx /\ d = m_owner (wm mx) /\ m_share (wm mx) + m_sfo (wm mx) + a < U64 ->
  exists L', exec e ts (fst (b_deposit P k (p_deposit_auth (wp w)) x a p (m_owner (wm m)) d))
    (DepositMining a p (m_owner (wm m)) d) L = Ok (L', None).
Proof.
  intros HO HV Hts Hfar Hm Hp Ha Hdis Hfit Hx. pose proof (orderly_reachable _ _ _ _ HO HV) as HR.
  destruct (get_intro _ _ _ _ _ _ HO HV Hm) as (Hkp & _ & Hget).
  assert (Hxl : x = k \/ exists y, is_mining e L x y /\ m_pool (wm y) = P).
  { destruct Hx as [|[Hx _]]; [auto|right; exists mx; exact Hx]. }
  assert (Hv : verify_opt e L x k d P = Ok tt).
  { eapply verify_intro; [eassumption..|]. destruct Hx as [|(? & ? & _)]; [left; assumption|right; split; eassumption]. }
  assert (Hc : exists c', core_step ts (ODeposit k a p (other x k)) (core_of e P V now L) = Ok c').
  { eapply deposit_succeeds; [exact HR|exact Hts|assumption|assumption|apply in_view; eassumption|assumption|assumption| |].
    - unfold core_of. cbn [c_pool]. rewrite (pool_of_is e P L w (proj1 HV)). unfold other. destruct (x =? k); assumption.
    - unfold other. destruct (Z.eqb_spec x k) as [E|Hne]; [discriminate|]. intros y E. injection E as <-.
      destruct Hx as [|(Hx & _ & Hs)]; [contradiction|]. split; [assumption|]. exists mx.
      split; [apply in_view; assumption|assumption]. }
  destruct Hc as [c' Hc]. cbn [core_step core_of c_pool c_min c_vault] in Hc.
  rewrite (get_min_view e P L k m (proj1 Hm) (proj2 Hm)) in Hc. cbn [rbind] in Hc.
  rewrite (get_dlg_view e P L k x Hxl) in Hc. cbn [rbind] in Hc.
  rewrite (pool_of_is e P L w (proj1 HV)) in Hc.
  apply rbind_ok in Hc as ([[w' m'] d'] & Hw & _).
  assert (Hxo : owner_of L x = program_id e) by (destruct Hxl as [->|(y & [Hy _] & _)]; [apply Hm|assumption]).
  eexists. apply exec_intro; [|apply (built_flags e); constructor].
  cbn [process]. unfold process_deposit, b_deposit. cbn [fst].
  destruct HV as ([Hwo _] & _). destruct Hm as ([Hmo _] & _). unfold owner_of in *.
  cbn [next_with_owner mw mr mt_key]. rewrite Hwo, Z.eqb_refl. cbn [rbind next_with_owner mw mr mt_key].
  rewrite Hmo, Z.eqb_refl. cbn [rbind next_signer mw mr mt_key].
  rewrite (built_sig _ false) by (cbn; tauto). cbn [rbind next_with_owner mw mr mt_key].
  rewrite Hxo, Z.eqb_refl. cbn [rbind]. unfold distinct. rewrite (proj2 (Z.eqb_neq k P)) by assumption. cbn [negb ensure rbind].
  rewrite Hget. cbn [rbind]. rewrite Hv. cbn [rbind]. rewrite Hw. cbn [rbind no_ret]. reflexivity.
Qed.

Lemma distribute_exec now ts L V w :
  orderly e P D now L -> pool_vault e L P V w -> now <= ts ->
  Z.of_nat (length (wp_ci w)) < 1095 -> due (day_start ts) (wp_diffs w) < p_total (wp w) ->
  exists L', exec e ts (fst (b_distribute P (p_distribute_auth (wp w)))) DistributeRewards L = Ok (L', None).
Proof.
  intros HO HV Hts Hlen Hnet. pose proof (orderly_reachable _ _ _ _ HO HV) as HR.
  assert (Ew : c_pool (core_of e P V now L) = w) by exact (pool_of_is e P L w (proj1 HV)).
  destruct (distribute_succeeds _ ts HR Hts) as [c' Hc]; [rewrite Ew; assumption..|].
  cbn [core_step] in Hc. rewrite Ew in Hc.
  apply rbind_ok in Hc as (r & Hr & Hc). apply rbind_ok in Hc as (w' & Hw & _).
  eexists. apply exec_intro; [|apply (built_flags e); constructor].
  cbn [process]. unfold process_distribute, b_distribute. cbn [fst].
  destruct HV as ([Hwo Hwd] & _). unfold owner_of, data_of in *.
  cbn [next_with_owner mw mr mt_key]. rewrite Hwo, Z.eqb_refl. cbn [rbind next_signer mw mr mt_key].
  rewrite (built_sig _ false) by (cbn; tauto). cbn [rbind]. rewrite Hwd. cbn [load_pool rbind].
  rewrite Hr. cbn [rbind]. unfold assert_account_key. rewrite Z.eqb_refl. cbn [ensure rbind]. rewrite Hw. cbn [rbind no_ret]. reflexivity.
Qed.
End env.

Section exact.
Context (e : env) (Henv : env_ok e) (Hinj : env_inj e) (Hrent : 0 < rent_min e MINING_LEN).

Lemma disciplined_donate ts n c : disciplined ts (ODonate n) c. Proof. intros []; exact I. Qed.
Lemma disciplined_init ts k p o b c : disciplined ts (OInit k p o b) c. Proof. intros []; exact I. Qed.
Lemma disciplined_claim ts k c : disciplined ts (OClaim k) c. Proof. intros []; exact I. Qed.
Lemma exact_donate ts n c : exact_disciplined ts (ODonate n) c.
Proof. split; [apply disciplined_donate|exact I]. Qed.
Lemma exact_init ts k p o b c : exact_disciplined ts (OInit k p o b) c.
Proof. split; [apply disciplined_init|exact I]. Qed.

Lemma shares_exact P now L V w d l :
  P <> 0 -> orderly e P exact_disciplined now L -> pool_vault e L P V w -> day_start now <= d ->
  lists_minings e L P l ->
  zsum (map (fun x => eff (snd x) d) l) = p_total (wp w) - due d (wp_diffs w).
Proof.
  intros HP HO HV Hd [Hn Hl].
  destruct (orderly_core e Henv Hinj Hrent P HP _ exact_donate exact_init _ _ _ _ HO HV) as [t HA].
  pose proof (total_share_exact _ d (af_core _ _ _ _ _ _ _ _ HA) Hd) as Hc.
  unfold core_of in Hc. cbn [c_pool c_min] in Hc.
  rewrite (pool_of_is e P L w (proj1 HV)) in Hc. rewrite Hc.
  apply (list_msum_eq (f := fun m => eff m d)); [assumption|].
  intros k m. rewrite Hl. apply in_view.
Qed.
End exact.
