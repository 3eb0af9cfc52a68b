(** C56 for ledgers. *)
From stdpp Require Import gmap.
From Verif Require Import Base OMap State Spec MapSum Core CoreInv CoreThms DustSpec Dust FairSpec Fair Ledger Program Clients LedgerLemmas
  ResLemmas WfLemmas Changes AccessLemmas LedgerSpec CodecLemmas History HistoryLemmas HistoryThms ReachThms LedgerView LedgerCore LedgerCoreThms
  LossView LedgerDust FairView.

Section env.
Context (e : env) (Henv : env_ok e) (Hinj : env_inj e) (Hrent : 0 < rent_min e MINING_LEN).
Context (P : pubkey) (HP : P <> 0) (D : Z -> op -> core -> Prop)
  (HDonate : forall ts n c, D ts (ODonate n) c) (HDinit : forall ts k p o b c, D ts (OInit k p o b) c).

Definition same_tally (y x : tally) : Prop :=
  t_paid y = t_paid x /\ t_fair y = t_fair x /\ t_lost y <= t_lost x.

(** the tallies are those of a history of Core.v *)
Definition earned (now : Z) (L : ledger) (V : pubkey) (x : pubkey -> tally) : Prop :=
  exists w0 t0 y, fresh_pool w0 /\ 0 <= t0 /\ tallied D (fresh_core w0 0 t0) (core_of e P V now L) y /\
    forall k, same_tally (y k) (x k).

Lemma earned_step now L V x c ts o x' :
  earned now L V x -> now <= ts -> is_u64 ts -> op_wf o -> D ts o (core_of e P V now L) ->
  core_step ts o (core_of e P V now L) = Ok c ->
  (forall k, same_tally (add_tally ts o (core_of e P V now L) c k (x k)) (x' k)) ->
  exists w0 t0 y, fresh_pool w0 /\ 0 <= t0 /\ tallied D (fresh_core w0 0 t0) c y /\ forall k, same_tally (y k) (x' k).
Proof.
  intros (w0 & t0 & y & Hw & Ht & Hl & Hy) Hts Hu Ho HD Hs Hx.
  exists w0, t0, (fun k => add_tally ts o (core_of e P V now L) c k (y k)). repeat (split; [assumption|]).
  split; [econstructor; eassumption|].
  intros k. specialize (Hx k). destruct (Hy k) as (Y1 & Y2 & Y3).
  unfold same_tally, add_tally in *. cbn [t_paid t_fair t_lost] in *. lia.
Qed.

Lemma earned_raised now ts L L' V t t' x :
  now <= ts -> is_u64 ts -> ledger_ok e now L -> ledger_ok e ts L' ->
  is_token e L V t -> is_token e L' V t' -> t_amount t <= t_amount t' ->
  pool_of L' P = pool_of L P -> minings_of e P L' = minings_of e P L ->
  earned now L V x -> earned ts L' V x.
Proof.
  intros Hts Hu HL HL' HV HV' Hle Ep Em H.
  pose proof (token_u64 e _ _ _ _ HL HV) as U1. pose proof (token_u64 e _ _ _ _ HL' HV') as U2. unfold is_u64 in U1, U2.
  pose proof (token_balance e _ _ _ HV) as B1. pose proof (token_balance e _ _ _ HV') as B2.
  unfold earned.
  assert (E : core_of e P V ts L' = Core (pool_of L P) (minings_of e P L) (balance L V + (balance L' V - balance L V)) ts).
  { unfold core_of. rewrite Ep, Em. f_equal. lia. }
  rewrite E. apply (earned_step now L V x _ ts (ODonate (balance L' V - balance L V)) x H Hts Hu); [cbn; unfold is_u64; lia|apply HDonate| |].
  - apply donate_ok. cbn [core_of c_vault]. lia.
  - intros k. unfold same_tally, add_tally. cbn [t_paid t_fair t_lost paid_out fair_share rounding]. lia.
Qed.

(** what a claim returns is what the vault pays *)
Lemma claimed_paid now ts ms i L L' r V o c k :
  exec e ts ms i L = Ok (L', r) -> op_of e P ms i = Some o -> core_step ts o (core_of e P V now L) = Ok c ->
  claimed ms i r k = paid_out o (core_of e P V now L) c k.
Proof.
  intros X Ho Hs. unfold op_of in Ho.
  destruct i; repeat match type of Ho with
    | match ?l with [] => _ | _ :: _ => _ end = _ => destruct l eqn:?; try discriminate
    | (if ?b then _ else _) = _ => destruct b eqn:?; [|discriminate]
    end; try discriminate; injection Ho as <-; cbn [claimed paid_out]; try reflexivity.
  unfold claimed.
  match goal with E : map mt_key ms = _ |- _ => rename E into Em; rewrite Em end.
  apply exec_inv in X as [X _]. cbn [process] in X. apply rbind_ok in X as ([L1 a1] & X & E). injection E as -> <-.
  apply claim_inv in X as (pool & mint' & vault & mining & owner' & auth' & dest & w0 & m0 & m1 & t0 & A & Hpow & _ & _ & Hmo & _ & _ & _ & _ & _ & Hpd & _ & Hmd & _ & Hmp & _ & _ & Hr & Ea & _).
  destruct A as [rest A]. rewrite Em in A. injection A as -> -> -> -> ->.
  match goal with E : (pool =? P) = true |- _ => apply Z.eqb_eq in E; rename E into Heqb end. subst pool.
  assert (Hin : minings_of e P L !! mining = Some m0) by (apply in_view; repeat split; assumption).
  unfold core_step, core_of, get_min in Hs. cbn [c_pool c_min c_vault] in Hs. unfold pubkey in *. rewrite Hin in Hs. cbn [rbind] in Hs.
  rewrite Heqb in Hpow, Hpd. rewrite (pool_of_is e P L w0 (conj Hpow Hpd)), Hr in Hs. cbn [rbind] in Hs.
  destruct (_ <=? _); [|discriminate]. cbn [ensure rbind] in Hs. injection Hs as <-. cbn [c_vault core_of].
  destruct (_ =? _); lia.
Qed.

Lemma rounding_close ms o ts c k : op_of e P ms CloseMining = Some o ->
  0 <= rounding ts o c k /\ forall c', fair_share ts o c c' k = 0.
Proof.
  intros Ho. cbn [op_of] in Ho. destruct (map mt_key ms) as [|? [|? [|? [|? [|? ?]]]]]; try discriminate.
  destruct (_ =? _); [|discriminate]. injection Ho as <-. cbn [rounding fair_share]. split; [|reflexivity].
  pose proof (refresh_dust_nonneg ts c k). destruct (_ =? _); lia.
Qed.

Lemma earned_exec now ts ms i L L' r w V t x :
  0 <= now -> now <= ts -> is_u64 ts -> ix_in_range i ->
  ledger_ok e now L -> ledger_ok e ts L' -> minings_ok e L -> bumps_ok e L -> addresses_ok e L ->
  after e P D now L w V t -> orderly_ix e P D now ts ms i L -> exec e ts ms i L = Ok (L', r) ->
  earned now L V x -> earned ts L' V (fun k => ix_tally e P now ts ms i L L' r k (x k)).
Proof.
  intros Hn Hts Hu Hr HL HL' HM HB HA HAf O X Hx. pose proof HAf as [HPV Hlam Honly Htok Hmint Howner Hcore].
  pose proof HPV as (Hw & Hty & HV).
  destruct (exec_token e Henv now ts ms i L L' r V t Hts HL X Htok) as (t' & Htok' & _).
  assert (Et : forall k, ix_tally e P now ts ms i L L' r k (x k) =
    match op_of e P ms i with
    | Some o => Tally (t_paid (x k) + claimed ms i r k)
            (t_fair (x k) + fair_share ts o (core_of e P V now L) (core_of e P V ts L') k)
            (t_lost (x k) + rounding ts o (core_of e P V now L) k)
    | None => x k
    end) by (intros k; unfold ix_tally; rewrite (vault_at_some _ _ _ _ _ HPV); reflexivity).
  destruct (pool_named e ts ms i L L' r X) as [P' HP'].
  destruct (Z.eq_dec P' P) as [->|Hne].
  - destruct (own_step e Henv Hinj P HP D now ts ms i L L' r w V t Hts HL HM HB HA O X HP' Hw Hty Htok Honly)
      as [(o & Ho & Hs)|[(o & c & n & Ho & Hs & Hcn & Hnn & Hd & Ei & Ha6 & Er)|[Ei Hc]]].
    + assert (HD : D ts o (core_of e P V now L)) by (apply (oi_event _ _ _ _ _ _ _ _ O V w); assumption).
      apply (earned_step now L V x _ ts o _ Hx Hts Hu (op_of_wf e P ms i o Hr Ho) HD Hs).
      intros k. rewrite Et, Ho. unfold same_tally, add_tally. cbn [t_paid t_fair t_lost].
      rewrite (claimed_paid now ts ms i L L' r V o _ k X Ho Hs). lia.
    + assert (HD : D ts o (core_of e P V now L)) by (apply (oi_event _ _ _ _ _ _ _ _ O V w); assumption).
      assert (Ec : exists j, o = OClaim j).
      { subst i. cbn [op_of] in Ho. destruct (map mt_key ms) as [|? [|? [|? [|? ?]]]]; try discriminate.
        destruct (_ =? _); [|discriminate]. injection Ho as <-. eauto. }
      destruct Ec as [j ->].
      destruct (earned_step now L V x _ ts (OClaim j) (fun k => ix_tally e P now ts ms i L L' r k (x k)) Hx Hts Hu
        (op_of_wf e P ms _ _ Hr Ho) HD Hs) as (w0 & t0 & y & Hw0 & Ht0 & Hl & Hy).
      { intros k. rewrite Et, Ho. unfold same_tally, add_tally. cbn [t_paid t_fair t_lost fair_share].
        rewrite (claimed_paid now ts ms i L L' r V _ _ k X Ho Hs). lia. }
      exists w0, t0, (fun k => add_tally ts (ODonate n) c (core_of e P V ts L') k (y k)).
      repeat (split; [assumption|]). split.
      * apply (ta_step _ _ c _ ts (ODonate n)); try assumption; [lia| |apply HDonate].
        pose proof (token_u64 e _ _ _ _ HL Htok) as U1. rewrite (token_balance e _ _ _ Htok) in Hnn.
        cbn. unfold is_u64 in *. lia.
      * intros k. specialize (Hy k). unfold same_tally, add_tally in *. cbn [t_paid t_fair t_lost fair_share paid_out rounding] in *. lia.
    + pose proof (token_u64 e _ _ _ _ HL Htok) as U1. unfold is_u64 in U1.
      pose proof (token_balance e _ _ _ Htok) as B1.
      unfold earned. rewrite Hc. replace (balance L V) with (balance L V + 0) by lia.
      apply (earned_step now L V x _ ts (ODonate 0) _ Hx Hts Hu); [cbn; unfold is_u64; lia|apply HDonate| |].
      { apply (donate_ok (core_of e P V now L)). cbn [core_of c_vault]. lia. }
      intros k. rewrite Et. subst i. unfold same_tally, add_tally. cbn [t_paid t_fair t_lost fair_share paid_out rounding claimed].
      destruct (op_of e P ms CloseMining) as [o|] eqn:Ho; [|lia].
      destruct (rounding_close ms o ts (core_of e P V now L) k Ho) as [R1 R2]. cbn [t_paid t_fair t_lost]. rewrite R2. lia.
  - assert (Ho : op_of e P ms i = None).
    { destruct (op_of e P ms i) as [o|] eqn:Ho; [|reflexivity].
      exfalso. apply op_of_at in Ho. apply Hne. eapply at_fun; eassumption. }
    assert (H : earned ts L' V x).
    { eapply earned_raised; try eassumption.
      + rewrite <- (token_balance e _ _ _ Htok), <- (token_balance e _ _ _ Htok').
        exact (other_vault e Henv Hinj P D now ts ms i L L' r P' _ _ V t Hts HL O X HP' Hne HV Htok).
      + apply pool_of_acc. exact (other_pool e Henv P now ts ms i L L' r P' w Hts X HP' Hne Hw).
      + exact (other_minings_of e Henv Hinj P HP D now ts ms i L L' r P' Hts HL HM HA O X HP' Hne). }
    destruct H as (w0 & t0 & y & ? & ? & ? & Hy). exists w0, t0, y. repeat (split; [assumption|]).
    intros k. rewrite Et, Ho. apply Hy.
Qed.

Lemma earned_ext now ts L L' w V t x :
  now <= ts -> is_u64 ts -> ledger_ok e now L -> ledger_ok e ts L' -> minings_ok e L ->
  after e P D now L w V t -> external e L L' -> orderly_ext e P L L' ->
  earned now L V x -> earned ts L' V x.
Proof.
  intros Hts Hu HL HL' HM [HPV Hlam Honly Htok Hmint Howner Hcore] X O Hx.
  pose proof HPV as (Hw & Hty & HV).
  destruct (ext_pool e L L' P w X Hw Hlam) as [Hw' Hlam'].
  destruct (oe_vault _ _ _ _ O _ _ _ _ HV Htok) as (t' & Htok' & Hm & Ho & Hle).
  eapply earned_raised; try eassumption.
  - rewrite (pool_of_is e P _ _ Hw), (pool_of_is e P _ _ Hw'). reflexivity.
  - eapply (ext_minings_of e P HP); eassumption.
Qed.

(** minings opened before the pool is initialised *)
Lemma earned_fresh w v ts (M : gmap Z wmining) :
  is_u64 ts ->
  (forall k m, M !! k = Some m -> exists o b, m = WMining (mining_initialize P o b) []) ->
  exists y, tallied D (fresh_core w v ts) (Core w M v ts) y /\ forall k, y k = no_tally.
Proof.
  intros Hts. induction M as [|k m M Hk IH] using map_ind; intros H.
  { exists (fun _ => no_tally). split; [constructor|reflexivity]. }
  destruct (H k m) as (o & b & ->); [apply lookup_insert|].
  destruct IH as (y & Hy & Hy0).
  { intros k' m' Hm'. apply (H k' m'). rewrite lookup_insert_ne; [assumption|congruence]. }
  exists (fun j => add_tally ts (OInit k P o b) (Core w M v ts) (Core w (<[k := WMining (mining_initialize P o b) []]> M) v ts) j (y j)).
  split.
  - apply (ta_step D (fresh_core w v ts) (Core w M v ts) _ ts (OInit k P o b) y); [assumption|cbn; lia|assumption|exact I|apply HDinit|].
    unfold core_step. cbn [c_min c_pool c_vault]. unfold pubkey in *. rewrite Hk. reflexivity.
  - intros j. unfold add_tally. rewrite Hy0. reflexivity.
Qed.

Definition tally_ok (now : Z) (L : ledger) (x : pubkey -> tally) : Prop :=
  (before e P L /\ forall k, x k = no_tally) \/ exists w V t, after e P D now L w V t /\ earned now L V x.

Lemma earning_orderly now L x now' L' x' : earning_run e P D now L x now' L' x' -> orderly_run e P D now L now' L'.
Proof. induction 1; [constructor|eapply or_ix; eassumption|eapply or_ext; eassumption]. Qed.

Lemma earning_ok now L x now' L' x' :
  earning_run e P D now L x now' L' x' -> good e P D now L -> tally_ok now L x -> tally_ok now' L' x'.
Proof.
  induction 1 as [|now L x ts ms i L1 r now' L' x' Hts Hu Hr X O R IH|now L x ts L1 now' L' x' Hts Hu X O R IH];
    intros HG HB; [assumption| |]; pose proof HG as (Hn & HL & HM & HBu & HA & _).
  - assert (HG1 : good e P D ts L1).
    { eapply (run_good e Henv Hinj Hrent P HP D HDonate HDinit); [|exact HG]. eapply or_ix; try eassumption. constructor. }
    pose proof HG1 as (_ & HL1 & _).
    apply IH; [assumption|]. destruct HB as [[HB Hy]|(w & V & t & HB & Hx)].
    + assert (E : forall k, ix_tally e P now ts ms i L L1 r k (x k) = no_tally)
        by (intros k; unfold ix_tally; rewrite before_no_vault by assumption; apply Hy).
      destruct (before_exec e Henv Hinj P HP D _ _ _ _ _ _ _ Hts HL HM HA HB O X) as [[(f & d & ->) Hp]|HS']; [right|left; auto].
      destruct (before_init e Henv Hinj P D HDinit _ _ _ _ _ _ _ _ Hts HL Hu HB O X Hp) as (w & V & t & HS' & Hf & Hb & Hm).
      exists w, V, t. split; [assumption|].
      destruct (earned_fresh w 0 ts (minings_of e P L1) Hu Hm) as (y & Hy1 & Hy2).
      exists w, ts, y. split; [assumption|]. split; [unfold is_u64 in Hu; lia|]. split.
      * unfold core_of. rewrite Hb, (pool_of_is e P L1 w (proj1 (af_pool _ _ _ _ _ _ _ _ HS'))). assumption.
      * intros k. rewrite Hy2, E. unfold same_tally. cbn. lia.
    + right. destruct (after_exec e Henv Hinj P HP D HDonate _ _ _ _ _ _ _ _ _ _ Hn Hts Hu Hr HL HL1 HM HBu HA HB O X)
        as (w' & t' & HS'). exists w', V, t'. split; [assumption|].
      exact (earned_exec _ _ _ _ _ _ _ _ _ _ _ Hn Hts Hu Hr HL HL1 HM HBu HA HB O X Hx).
  - assert (HG1 : good e P D ts L1).
    { eapply (run_good e Henv Hinj Hrent P HP D HDonate HDinit); [|exact HG]. eapply or_ext; try eassumption. constructor. }
    pose proof HG1 as (_ & HL1 & _).
    apply IH; [assumption|]. destruct HB as [[HB Hy]|(w & V & t & HB & Hx)].
    + left. split; [|assumption]. exact (before_ext e Henv P HP L L1 HB HM X O).
    + right. destruct (after_ext e Henv P HP D HDonate _ _ _ _ _ _ _ Hn Hts Hu HL HL1 HM HB X O) as (t' & HS').
      exists w, V, t'. split; [assumption|].
      exact (earned_ext _ _ _ _ _ _ _ _ Hts Hu HL HL1 HM HB X O Hx).
Qed.

Lemma earning_earned now L x V w :
  earning e P D now L x -> pool_vault e L P V w -> earned now L V x.
Proof.
  intros (L0 & HG & HD & H) HV.
  assert (H0 : good e P D 0 L0 /\ before e P L0).
  { split; [apply (genesis_good e Henv)|apply (genesis_before e Henv)]; assumption. }
  destruct H0 as [H0 H1].
  destruct (earning_ok 0 L0 _ now L x H H0 (or_introl (conj H1 (fun _ => eq_refl)))) as [[HB _]|(w' & V' & t & HA & HL)].
  - exfalso. pose proof (vault_at_some e P _ _ _ HV) as E.
    rewrite (before_no_vault e P _ HB) in E. discriminate.
  - pose proof (vault_at_some e P _ _ _ HV) as E. rewrite (vault_at_some e P _ _ _ (af_pool _ _ _ _ _ _ _ _ HA)) in E.
    injection E as <-. exact HL.
Qed.
End env.

Lemma core_claim e P V now L k m ts a w :
  pool_vault e L P V w -> mining_in e L P k m -> claim_returns e ts L P k a -> can_claim ts (core_of e P V now L) k = a.
Proof.
  intros HV Hm Ha. rewrite (returns_claimable e P ts now L V w k m a HV Hm Ha).
  apply in_view in Hm. unfold can_claim, core_of. cbn [c_min]. unfold pubkey in *. rewrite Hm. reflexivity.
Qed.


Lemma coming_nonneg s c k : cinv s c -> 0 <= coming c k.
Proof.
  intros HI. unfold coming. destruct (c_min c !! k) as [m|] eqn:Hk; [|lia].
  pose proof (i_min _ _ _ _ _ HI k m Hk) as Hm.
  pose proof (owed_nonneg _ _ _ (i_hist _ _ _ _ _ HI) Hm). pose proof (mi_ok _ _ _ Hm) as Hok.
  assert (0 <= m_unclaimed (wm m)) by apply Hok. unfold PRECISION in *. lia.
Qed.
Lemma coming_none e P V now L k : (forall m, ~ mining_in e L P k m) -> coming (core_of e P V now L) k = 0.
Proof.
  intros H. unfold coming, core_of. cbn [c_min]. unfold pubkey in *. destruct (minings_of e P L !! k) as [m|] eqn:E; [|reflexivity].
  apply in_view in E. destruct (H m E).
Qed.

Lemma ledger_paid_at_most e P now L x V w k :
  env_ok e -> env_inj e -> 0 < rent_min e MINING_LEN -> P <> 0 ->
  earning e P disciplined now L x -> pool_vault e L P V w ->
  10000000000000000 * t_paid (x k) <= t_fair (x k).
Proof.
  intros Henv Hinj Hrent HP HE HV.
  destruct (earning_earned e Henv Hinj Hrent P HP disciplined disciplined_donate disciplined_init _ _ _ _ _ HE HV)
    as (w0 & t0 & y & Hw0 & Ht0 & Hy & Hx).
  destruct (Hx k) as (E1 & E2 & _). rewrite <- E1, <- E2.
  pose proof (never_more w0 0 t0 _ y k Hw0 (conj (Z.le_refl 0) eq_refl) Ht0 Hy) as H.
  assert (HI : cinv False (core_of e P V now L)).
  { apply reachable_inv. exists w0, 0, t0. split; [assumption|]. split; [exact (conj (Z.le_refl 0) eq_refl)|]. split; [assumption|]. eapply tallied_history; eassumption. }
  pose proof (coming_nonneg _ _ k HI). unfold PRECISION in *. lia.
Qed.

Lemma ledger_never_more e P now ts L x V w k m a :
  env_ok e -> env_inj e -> 0 < rent_min e MINING_LEN -> P <> 0 ->
  earning e P disciplined now L x -> pool_vault e L P V w -> mining_in e L P k m ->
  now <= ts -> claim_returns e ts L P k a ->
  10000000000000000 * (t_paid (x k) + a) <= t_fair (x k).
Proof.
  intros Henv Hinj Hrent HP HE HV Hm Hts Ha.
  destruct (earning_earned e Henv Hinj Hrent P HP disciplined disciplined_donate disciplined_init _ _ _ _ _ HE HV)
    as (w0 & t0 & y & Hw0 & Ht0 & Hy & Hx).
  destruct (Hx k) as (E1 & E2 & _). rewrite <- E1, <- E2.
  pose proof (claims_at_most w0 0 t0 _ y k ts Hw0 (conj (Z.le_refl 0) eq_refl) Ht0 Hy Hts) as H.
  rewrite (core_claim e P V now L k m ts a w HV Hm Ha) in H. exact H.
Qed.

Lemma ledger_hardly_less e P now ts L x V w k m a :
  env_ok e -> env_inj e -> 0 < rent_min e MINING_LEN -> P <> 0 ->
  earning e P careful now L x -> pool_vault e L P V w -> mining_in e L P k m ->
  now <= ts -> (forall i, ~ In (ts, i) (wp_ci w)) -> claim_returns e ts L P k a ->
  t_fair (x k) <= 10000000000000000 * (t_paid (x k) + a) + t_lost (x k)
    + 10000000000000000 * (1 + count_due (day_start ts) (wm_diffs m)).
Proof.
  intros Henv Hinj Hrent HP HE HV Hm Hts Hmid Ha.
  destruct (earning_earned e Henv Hinj Hrent P HP careful careful_donate careful_init _ _ _ _ _ HE HV)
    as (w0 & t0 & y & Hw0 & Ht0 & Hy & Hx).
  destruct (Hx k) as (E1 & E2 & E3). rewrite <- E1, <- E2.
  assert (Hpo : pool_of L P = w) by (apply (pool_of_is e P L w (proj1 HV))).
  assert (Hn : no_midnight ts (core_of e P V now L)) by (unfold no_midnight, core_of; cbn [c_pool]; rewrite Hpo; exact Hmid).
  pose proof (claims_at_least w0 0 t0 _ y k ts Hw0 (conj (Z.le_refl 0) eq_refl) Ht0 Hy Hts Hn) as H.
  rewrite (core_claim e P V now L k m ts a w HV Hm Ha) in H.
  apply in_view in Hm. unfold refresh_dust, core_of in H. cbn [c_min] in H. unfold pubkey in *. rewrite Hm in H.
  unfold PRECISION in *. lia.
Qed.

(** who has left was paid all *)
Lemma ledger_all_paid e P now L x V w k :
  env_ok e -> env_inj e -> 0 < rent_min e MINING_LEN -> P <> 0 ->
  earning e P careful now L x -> pool_vault e L P V w -> (forall m, ~ mining_in e L P k m) ->
  t_fair (x k) <= 10000000000000000 * t_paid (x k) + t_lost (x k).
Proof.
  intros Henv Hinj Hrent HP HE HV Hm.
  destruct (earning_earned e Henv Hinj Hrent P HP careful careful_donate careful_init _ _ _ _ _ HE HV)
    as (w0 & t0 & y & Hw0 & Ht0 & Hy & Hx).
  destruct (Hx k) as (E1 & E2 & E3). rewrite <- E1, <- E2.
  pose proof (hardly_less w0 0 t0 _ y k Hw0 (conj (Z.le_refl 0) eq_refl) Ht0 Hy) as H.
  rewrite (coming_none e P V now L k Hm) in H. unfold PRECISION in *. lia.
Qed.

Lemma ledger_not_less_than e P now ts L x V w j k mj mk a b :
  env_ok e -> env_inj e -> 0 < rent_min e MINING_LEN -> P <> 0 ->
  earning e P (fun ts o c => careful ts o c /\ smaller_stake j k ts o c) now L x -> pool_vault e L P V w ->
  mining_in e L P j mj -> mining_in e L P k mk ->
  now <= ts -> (forall i, ~ In (ts, i) (wp_ci w)) -> claim_returns e ts L P j a -> claim_returns e ts L P k b ->
  10000000000000000 * (t_paid (x j) + a) <= 10000000000000000 * (t_paid (x k) + b) + t_lost (x k)
    + 10000000000000000 * (1 + count_due (day_start ts) (wm_diffs mk)).
Proof.
  intros Henv Hinj Hrent HP HE HV Hj Hk Hts Hmid Ha Hb.
  assert (H1 : forall ts n c, careful ts (ODonate n) c /\ smaller_stake j k ts (ODonate n) c)
    by (intros; split; [apply careful_donate|discriminate]).
  assert (H2 : forall ts z p o b c, careful ts (OInit z p o b) c /\ smaller_stake j k ts (OInit z p o b) c)
    by (intros; split; [apply careful_init|discriminate]).
  destruct (earning_earned e Henv Hinj Hrent P HP _ H1 H2 _ _ _ _ _ HE HV) as (w0 & t0 & y & Hw0 & Ht0 & Hy & Hx).
  destruct (Hx k) as (E1 & E2 & E3). destruct (Hx j) as (F1 & F2 & F3). rewrite <- E1, <- F1.
  assert (Hpo : pool_of L P = w) by (apply (pool_of_is e P L w (proj1 HV))).
  assert (Hn : no_midnight ts (core_of e P V now L)) by (unfold no_midnight, core_of; cbn [c_pool]; rewrite Hpo; exact Hmid).
  pose proof (not_less_than w0 0 t0 _ y j k ts Hw0 (conj (Z.le_refl 0) eq_refl) Ht0 Hy Hts Hn) as H.
  rewrite (core_claim e P V now L k mk ts b w HV Hk Hb), (core_claim e P V now L j mj ts a w HV Hj Ha) in H.
  apply in_view in Hk. unfold refresh_dust, core_of in H. cbn [c_min] in H. unfold pubkey in *. rewrite Hk in H.
  unfold PRECISION in *. lia.
Qed.
