(** C49 for ledgers. *)
From stdpp Require Import gmap.
From Verif Require Import Base OMap State Spec MapSum Core CoreInv CoreThms DustSpec Dust Ledger Program Clients LedgerLemmas
  ResLemmas WfLemmas Changes AccessLemmas LedgerSpec CodecLemmas History HistoryLemmas HistoryThms ReachThms LedgerView LedgerCore LedgerCoreThms LossView.

Section env.
Context (e : env) (Henv : env_ok e) (Hinj : env_inj e) (Hrent : 0 < rent_min e MINING_LEN).
Context (P : pubkey) (HP : P <> 0) (D : Z -> op -> core -> Prop)
  (HDonate : forall ts n c, D ts (ODonate n) c) (HDinit : forall ts k p o b c, D ts (OInit k p o b) c).

Lemma vault_at_some L V w : pool_vault e L P V w -> vault_at e L P = Some V.
Proof.
  intros ((Ho & Hd) & Ht & Hc). unfold vault_at. rewrite Hd, Ho, Ht, Z.eqb_refl. exact Hc.
Qed.
Lemma before_no_vault L : before e P L -> vault_at e L P = None.
Proof.
  intros B. unfold vault_at. destruct (data_of L P) as [| |w| | | |] eqn:Hd; try reflexivity.
  destruct (Z.eqb_spec (owner_of L P) (program_id e)) as [Ho|]; [|reflexivity].
  rewrite (bf_pool _ _ _ B w (conj Ho Hd)). reflexivity.
Qed.

Lemma op_of_at ms i o : op_of e P ms i = Some o -> account_at ms (pool_position i) P.
Proof.
  unfold op_of, account_at. intros Ho.
  destruct i; cbn [pool_position]; 
    repeat match type of Ho with
    | match ?l with [] => _ | _ :: _ => _ end = _ => destruct l; try discriminate
    | (if ?b then _ else _) = _ => destruct b eqn:?; [|discriminate]
    end; try discriminate; cbn; f_equal; lia.
Qed.

Lemma refresh_dust_nonneg ts c k : 0 <= refresh_dust ts c k.
Proof. unfold refresh_dust, count_due. destruct (c_min c !! k); lia. Qed.

(** the loss is an upper bound for the dust of a history of Core.v *)
Definition lost (now : Z) (L : ledger) (V : pubkey) (x : Z) : Prop :=
  exists w0 t0 y, fresh_pool w0 /\ 0 <= t0 /\ leaky D (fresh_core w0 0 t0) (core_of e P V now L) y /\ y <= x.

Lemma lost_step now L V x c ts o : 
  lost now L V x -> now <= ts -> is_u64 ts -> op_wf o -> D ts o (core_of e P V now L) ->
  core_step ts o (core_of e P V now L) = Ok c ->
  exists w0 t0 y, fresh_pool w0 /\ 0 <= t0 /\ leaky D (fresh_core w0 0 t0) c y /\ y <= x + dust ts o (core_of e P V now L).
Proof.
  intros (w0 & t0 & y & Hw & Ht & Hl & Hy) Hts Hu Ho HD Hs.
  exists w0, t0, (y + dust ts o (core_of e P V now L)). repeat (split; [assumption|]). split; [|lia].
  econstructor; eassumption.
Qed.

Lemma donate_ok c ts n :
  c_vault c + n < U64 -> core_step ts (ODonate n) c = Ok (Core (c_pool c) (c_min c) (c_vault c + n) ts).
Proof. intros H. unfold core_step, vault_add. rewrite (proj2 (Z.ltb_lt _ _)) by assumption. reflexivity. Qed.

Lemma lost_raised now ts L L' V t t' x :
  now <= ts -> is_u64 ts -> ledger_ok e now L -> ledger_ok e ts L' ->
  is_token e L V t -> is_token e L' V t' -> t_amount t <= t_amount t' ->
  pool_of L' P = pool_of L P -> minings_of e P L' = minings_of e P L ->
  lost now L V x -> lost ts L' V (x + 10000000000000000 * (balance L' V - balance L V)).
Proof.
  intros Hts Hu HL HL' HV HV' Hle Ep Em H.
  pose proof (token_u64 e _ _ _ _ HL HV) as U1. pose proof (token_u64 e _ _ _ _ HL' HV') as U2. unfold is_u64 in U1, U2.
  pose proof (token_balance e _ _ _ HV) as B1. pose proof (token_balance e _ _ _ HV') as B2.
  unfold lost.
  assert (E : core_of e P V ts L' = Core (pool_of L P) (minings_of e P L) (balance L V + (balance L' V - balance L V)) ts).
  { unfold core_of. rewrite Ep, Em. f_equal. lia. }
  rewrite E. apply (lost_step now L V x _ ts (ODonate (balance L' V - balance L V)) H Hts Hu); [cbn; unfold is_u64; lia|apply HDonate|].
  apply (donate_ok (core_of e P V now L)). cbn [core_of c_vault]. lia.
Qed.

Lemma claim_nonneg now ts ms L L' a :
  now <= ts -> ledger_ok e now L -> exec e ts ms Claim L = Ok (L', Some a) -> 0 <= a.
Proof.
  intros Hts HL X. apply exec_inv in X as [H _]. cbn [process] in H.
  destruct (process_claim e ts ms L) as [[L1 x]|] eqn:E; [|discriminate]. injection H as <- <-.
  apply claim_inv in E as (pool & mint & vault & k & owner & auth & dest & w0 & m & m1 & t0 & A & Hpow & _ & Hvo & Hko & Hdo & _ & _ & _ & _ & Hpd & _ & Hkd & _ & Hkp & Hkne & Hcv & Hr & Hx & _).
  pose proof (HL k) as [_ Hk]. unfold owner_of in Hko. specialize (Hk Hko). unfold data_of in Hkd. rewrite Hkd in Hk.
  pose proof (HL pool) as [_ Hpw]. unfold owner_of in Hpow. specialize (Hpw Hpow). unfold data_of in Hpd. rewrite Hpd in Hpw.
  pose proof (refresh_wf now w0 ts m m1) as Hwf. rewrite Hx. apply Hwf; assumption.
Qed.
Lemma given_back_nonneg now ts ms i L L' r V :
  now <= ts -> ledger_ok e now L -> exec e ts ms i L = Ok (L', r) -> 0 <= given_back V ms i r.
Proof.
  intros Hts HL X. unfold given_back. destruct i; try reflexivity.
  destruct (map mt_key ms) as [|? [|? [|? [|? [|? [|? [|? ?]]]]]]]; try reflexivity.
  destruct r as [a|]; [|reflexivity]. destruct (_ =? _); [|reflexivity]. exact (claim_nonneg _ _ _ _ _ _ Hts HL X).
Qed.
Lemma given_back_eq ms V n : account_at ms 6 V -> given_back V ms Claim (Some n) = n.
Proof.
  unfold account_at, given_back. destruct (map mt_key ms) as [|? [|? [|? [|? [|? [|? [|? ?]]]]]]]; try discriminate.
  injection 1 as ->. rewrite Z.eqb_refl. reflexivity.
Qed.

Lemma lost_exec now ts ms i L L' r w V t x :
  0 <= now -> now <= ts -> is_u64 ts -> ix_in_range i ->
  ledger_ok e now L -> ledger_ok e ts L' -> minings_ok e L -> bumps_ok e L -> addresses_ok e L ->
  after e P D now L w V t -> orderly_ix e P D now ts ms i L -> exec e ts ms i L = Ok (L', r) ->
  lost now L V x -> lost ts L' V (x + ix_loss e P now ts ms i L L' r).
Proof.
  intros Hn Hts Hu Hr HL HL' HM HB HA HAf O X Hx. pose proof HAf as [HPV Hlam Honly Htok Hmint Howner Hcore].
  pose proof HPV as (Hw & Hty & HV).
  destruct (exec_token e Henv now ts ms i L L' r V t Hts HL X Htok) as (t' & Htok' & _).
  unfold ix_loss. rewrite (vault_at_some _ _ _ HPV).
  destruct (pool_named e ts ms i L L' r X) as [P' HP'].
  destruct (Z.eq_dec P' P) as [->|Hne].
  - destruct (own_step e Henv Hinj P HP D now ts ms i L L' r w V t Hts HL HM HB HA O X HP' Hw Hty Htok Honly)
      as [(o & Ho & Hs)|[(o & c & n & Ho & Hs & Hcn & Hnn & Hd & -> & Ha6 & ->)|[-> Hc]]].
    + rewrite Ho.
      assert (HD : D ts o (core_of e P V now L)) by (apply (oi_event _ _ _ _ _ _ _ _ O V w); assumption).
      destruct (lost_step now L V x _ ts o Hx Hts Hu (op_of_wf e P ms i o Hr Ho) HD Hs) as (w0 & t0 & y & Hw0 & Ht0 & Hl & Hy).
      exists w0, t0, y. repeat (split; [assumption|]).
      pose proof (given_back_nonneg _ _ _ _ _ _ _ V Hts HL X). lia.
    + rewrite Ho, (given_back_eq _ _ _ Ha6).
      assert (HD : D ts o (core_of e P V now L)) by (apply (oi_event _ _ _ _ _ _ _ _ O V w); assumption).
      destruct (lost_step now L V x _ ts o Hx Hts Hu (op_of_wf e P ms _ o Hr Ho) HD Hs) as (w0 & t0 & y & Hw0 & Ht0 & Hl & Hy).
      exists w0, t0, (y + dust ts (ODonate n) c). repeat (split; [assumption|]). split.
      * apply (l_step _ _ c _ ts (ODonate n)); try assumption; [lia| |apply HDonate].
        pose proof (token_u64 e _ _ _ _ HL Htok) as U1. rewrite (token_balance e _ _ _ Htok) in Hnn.
        cbn. unfold is_u64 in *. lia.
      * cbn [dust]. lia.
    + pose proof (token_u64 e _ _ _ _ HL Htok) as U1. unfold is_u64 in U1.
      pose proof (token_balance e _ _ _ Htok) as B1.
      assert (H0 : lost ts L' V x).
      { unfold lost. rewrite Hc. replace (balance L V) with (balance L V + 0) by lia. replace x with (x + 10000000000000000 * 0) by lia.
        apply (lost_step now L V x _ ts (ODonate 0) Hx Hts Hu); [cbn; unfold is_u64; lia|apply HDonate|].
        apply (donate_ok (core_of e P V now L)). cbn [core_of c_vault]. lia. }
      destruct H0 as (w0 & t0 & y & ? & ? & ? & Hy). exists w0, t0, y. repeat (split; [assumption|]).
      assert (Hb : balance L' V = balance L V) by (apply (f_equal c_vault) in Hc; exact Hc).
      destruct (op_of e P ms CloseMining) as [o|] eqn:Ho; [|lia].
      assert (0 <= dust ts o (core_of e P V now L)).
      { cbn [op_of] in Ho. destruct (map mt_key ms) as [|? [|? [|? [|? [|? ?]]]]]; try discriminate.
        destruct (_ =? _); [|discriminate]. injection Ho as <-. cbn [dust]. apply refresh_dust_nonneg. }
      cbn [given_back]. lia.
  - destruct (op_of e P ms i) as [o|] eqn:Ho.
    { exfalso. apply op_of_at in Ho. apply Hne. eapply at_fun; eassumption. }
    eapply lost_raised; try eassumption.
    + rewrite <- (token_balance e _ _ _ Htok), <- (token_balance e _ _ _ Htok').
      exact (other_vault e Henv Hinj P D now ts ms i L L' r P' _ _ V t Hts HL O X HP' Hne HV Htok).
    + apply pool_of_acc. exact (other_pool e Henv P now ts ms i L L' r P' w Hts X HP' Hne Hw).
    + exact (other_minings_of e Henv Hinj P HP D now ts ms i L L' r P' Hts HL HM HA O X HP' Hne).
Qed.

Lemma lost_ext now ts L L' w V t x :
  now <= ts -> is_u64 ts -> ledger_ok e now L -> ledger_ok e ts L' -> minings_ok e L ->
  after e P D now L w V t -> external e L L' -> orderly_ext e P L L' ->
  lost now L V x -> lost ts L' V (x + ext_loss e P L L').
Proof.
  intros Hts Hu HL HL' HM [HPV Hlam Honly Htok Hmint Howner Hcore] X O Hx.
  pose proof HPV as (Hw & Hty & HV).
  unfold ext_loss. rewrite (vault_at_some _ _ _ HPV).
  destruct (ext_pool e L L' P w X Hw Hlam) as [Hw' Hlam'].
  destruct (oe_vault _ _ _ _ O _ _ _ _ HV Htok) as (t' & Htok' & Hm & Ho & Hle).
  eapply lost_raised; try eassumption.
  - rewrite (pool_of_is e P _ _ Hw), (pool_of_is e P _ _ Hw'). reflexivity.
  - eapply (ext_minings_of e P HP); eassumption.
Qed.

(** minings opened before the pool is initialised *)
Lemma lost_fresh w v ts (M : gmap Z wmining) :
  is_u64 ts ->
  (forall k m, M !! k = Some m -> exists o b, m = WMining (mining_initialize P o b) []) ->
  leaky D (fresh_core w v ts) (Core w M v ts) 0.
Proof.
  intros Hts. induction M as [|k m M Hk IH] using map_ind; intros H; [constructor|].
  destruct (H k m) as (o & b & ->); [apply lookup_insert|].
  apply (l_step D (fresh_core w v ts) (Core w M v ts) _ ts (OInit k P o b) 0);
    [|cbn; lia|assumption|exact I|apply HDinit|].
  + apply IH. intros k' m' Hm'. apply (H k' m'). rewrite lookup_insert_ne; [assumption|congruence].
  + unfold core_step. cbn [c_min c_pool c_vault]. unfold pubkey in *. rewrite Hk. reflexivity.
Qed.

Definition bounded (now : Z) (L : ledger) (x : Z) : Prop :=
  (before e P L /\ 0 <= x) \/ exists w V t, after e P D now L w V t /\ lost now L V x.

Lemma losing_orderly now L now' L' x : losing_run e P D now L now' L' x -> orderly_run e P D now L now' L'.
Proof. induction 1; [constructor|eapply or_ix; eassumption|eapply or_ext; eassumption]. Qed.

Lemma losing_bounded now L now' L' x y :
  losing_run e P D now L now' L' x -> good e P D now L -> bounded now L y -> bounded now' L' (y + x).
Proof.
  intros H. revert y.
  induction H as [|now L ts ms i L1 r now' L' x Hts Hu Hr X O R IH|now L ts L1 now' L' x Hts Hu X O R IH];
    intros y HG HB; [rewrite Z.add_0_r; assumption| |]; rewrite Z.add_assoc; pose proof HG as (Hn & HL & HM & HBu & HA & _).
  - assert (HG1 : good e P D ts L1).
    { eapply (run_good e Henv Hinj Hrent P HP D HDonate HDinit); [|exact HG]. eapply or_ix; try eassumption. constructor. }
    pose proof HG1 as (_ & HL1 & _).
    apply IH; [assumption|]. destruct HB as [[HB Hy]|(w & V & t & HB & Hx)].
    + assert (E : ix_loss e P now ts ms i L L1 r = 0) by (unfold ix_loss; rewrite before_no_vault by assumption; reflexivity).
      rewrite E, Z.add_0_r.
      destruct (before_exec e Henv Hinj P HP D _ _ _ _ _ _ _ Hts HL HM HA HB O X) as [[(f & d & ->) Hp]|HS']; [right|left; auto].
      destruct (before_init e Henv Hinj P D HDinit _ _ _ _ _ _ _ _ Hts HL Hu HB O X Hp) as (w & V & t & HS' & Hf & Hb & Hm).
      exists w, V, t. split; [assumption|]. exists w, ts, 0. split; [assumption|]. split; [unfold is_u64 in Hu; lia|].
      split; [|assumption]. unfold core_of. rewrite Hb, (pool_of_is e P L1 w (proj1 (af_pool _ _ _ _ _ _ _ _ HS'))).
      apply lost_fresh; assumption.
    + right. destruct (after_exec e Henv Hinj P HP D HDonate _ _ _ _ _ _ _ _ _ _ Hn Hts Hu Hr HL HL1 HM HBu HA HB O X)
        as (w' & t' & HS'). exists w', V, t'. split; [assumption|].
      exact (lost_exec _ _ _ _ _ _ _ _ _ _ _ Hn Hts Hu Hr HL HL1 HM HBu HA HB O X Hx).
  - assert (HG1 : good e P D ts L1).
    { eapply (run_good e Henv Hinj Hrent P HP D HDonate HDinit); [|exact HG]. eapply or_ext; try eassumption. constructor. }
    pose proof HG1 as (_ & HL1 & _).
    apply IH; [assumption|]. destruct HB as [[HB Hy]|(w & V & t & HB & Hx)].
    + assert (E : ext_loss e P L L1 = 0) by (unfold ext_loss; rewrite before_no_vault by assumption; reflexivity).
      rewrite E, Z.add_0_r. left. split; [|assumption]. exact (before_ext e Henv P HP L L1 HB HM X O).
    + right. destruct (after_ext e Henv P HP D HDonate _ _ _ _ _ _ _ Hn Hts Hu HL HL1 HM HB X O) as (t' & HS').
      exists w, V, t'. split; [assumption|].
      exact (lost_ext _ _ _ _ _ _ _ _ Hts Hu HL HL1 HM HB X O Hx).
Qed.

Lemma losing_lost now L x V w :
  losing e P D now L x -> pool_vault e L P V w -> orderly e P D now L /\ lost now L V x.
Proof.
  intros (L0 & HG & HD & H) HV. split. { exists L0. eauto using losing_orderly. }
  assert (H0 : good e P D 0 L0 /\ before e P L0).
  { split; [apply (genesis_good e Henv)|apply (genesis_before e Henv)]; assumption. }
  destruct H0 as [H0 H1].
  destruct (losing_bounded 0 L0 now L x 0 H H0 (or_introl (conj H1 (Z.le_refl 0)))) as [[HB _]|(w' & V' & t & HA & HL)].
  - exfalso. pose proof (vault_at_some _ _ _ HV) as E.
    rewrite (before_no_vault _ HB) in E. discriminate.
  - pose proof (vault_at_some _ _ _ HV) as E. rewrite (vault_at_some _ _ _ (af_pool _ _ _ _ _ _ _ _ HA)) in E.
    injection E as <-. exact HL.
Qed.

(** what a claim that succeeds returns *)
Lemma returns_claimable ts now L V w k m a :
  pool_vault e L P V w -> mining_in e L P k m -> claim_returns e ts L P k a ->
  a = claimable ts (core_of e P V now L) m.
Proof.
  intros HV [[Ho Hd] Hp] (ms & L' & A0 & A3 & X).
  apply exec_inv in X as [X _]. cbn [process] in X. apply rbind_ok in X as ([L1 a1] & X & E). injection E as -> ->.
  apply claim_inv in X as (pool & mint' & vault & mining & owner' & auth' & dest & w0 & m0 & m1 & t0 & A & _ & _ & _ & Hmo & _ & _ & _ & _ & _ & Hpd & _ & Hmd & _ & Hmp & _ & _ & Hr & Ea & _).
  assert (E0 : pool = P) by (symmetry; eapply at_fun; [exact A0|at_]). assert (k = mining) by (eapply at_fun; [exact A3|at_]).
  rewrite E0 in *. clear E0 pool. subst mining. rewrite Hmd in Hd. injection Hd as ->.
  unfold claimable, core_of. cbn [c_pool]. rewrite (pool_of_is e P L w (proj1 HV)).
  destruct HV as [[_ Hwd] _]. rewrite Hwd in Hpd. injection Hpd as <-. rewrite Hr. assumption.
Qed.
End env.

Lemma careful_donate ts n c : careful ts (ODonate n) c.
Proof. split; [split|]; cbn; auto. all: intros []; exact I. Qed.
Lemma careful_init ts k p o b c : careful ts (OInit k p o b) c.
Proof. split; [split|]; cbn; auto. all: intros []; exact I. Qed.

Lemma ledger_nothing_lost e P now L x V w l :
  env_ok e -> env_inj e -> 0 < rent_min e MINING_LEN -> P <> 0 ->
  losing e P careful now L x -> pool_vault e L P V w -> lists_minings e L P l ->
  10000000000000000 * balance L V <=
  10000000000000000 * p_avail (wp w) + zsum (map (fun y => owed (wp_ci w) (snd y)) l) + x.
Proof.
  intros Henv Hinj Hrent HP HLo HV [Hn Hl].
  destruct (losing_lost e Henv Hinj Hrent P HP careful careful_donate careful_init _ _ _ _ _ HLo HV)
    as (_ & w0 & t0 & y & Hw0 & Ht0 & Hly & Hy).
  pose proof (nothing_but_dust_lost w0 0 t0 _ y Hw0 (conj (Z.le_refl 0) eq_refl) Ht0 Hly) as H.
  unfold core_of in H. cbn [c_pool c_min c_vault] in H. rewrite (pool_of_is e P L w (proj1 HV)) in H.
  assert (Hin : forall k m, In (k, m) l <-> minings_of e P L !! k = Some m) by (intros k m; rewrite Hl; apply in_view).
  pose proof (list_msum_eq (f := owed (wp_ci w)) l (minings_of e P L) Hn Hin) as E.
  unfold PRECISION, pubkey in *. lia.
Qed.

Lemma ledger_all_claimable e P now ts L x V w l a :
  env_ok e -> env_inj e -> 0 < rent_min e MINING_LEN -> P <> 0 ->
  losing e P careful now L x -> pool_vault e L P V w -> lists_minings e L P l ->
  now <= ts -> (forall i, ~ In (ts, i) (wp_ci w)) ->
  (forall k m, In (k, m) l -> claim_returns e ts L P k (a k)) ->
  10000000000000000 * balance L V <=
  10000000000000000 * p_avail (wp w) + 10000000000000000 * zsum (map (fun y => a (fst y)) l)
  + 10000000000000000 * zsum (map (fun y => 1 + count_due (day_start ts) (wm_diffs (snd y))) l) + x.
Proof.
  intros Henv Hinj Hrent HP HLo HV [Hn Hl] Hts Hmid Ha.
  destruct (losing_lost e Henv Hinj Hrent P HP careful careful_donate careful_init _ _ _ _ _ HLo HV)
    as (_ & w0 & t0 & y & Hw0 & Ht0 & Hly & Hy).
  pose proof (vault_all_claimable w0 0 t0 _ y ts Hw0 (conj (Z.le_refl 0) eq_refl) Ht0 Hly Hts) as H.
  assert (Hpo : pool_of L P = w) by (apply (pool_of_is e P L w (proj1 HV))).
  assert (Hin : forall k m, In (k, m) l <-> minings_of e P L !! k = Some m) by (intros k m; rewrite Hl; apply in_view).
  assert (E : map (fun y => a (fst y)) l = map (fun y => claimable ts (core_of e P V now L) (snd y)) l).
  { apply map_ext_in. intros [k m] Hk. cbn [fst snd]. apply (returns_claimable e P ts now L V w k m); [assumption|apply Hl; assumption|eauto]. }
  rewrite E. clear E.
  pose proof (list_msum_eq (f := claimable ts (core_of e P V now L)) l (minings_of e P L) Hn Hin) as E1.
  pose proof (list_msum_eq (f := fun m => 1 + count_due (day_start ts) (wm_diffs m)) l (minings_of e P L) Hn Hin) as E2.
  assert (Hm : no_midnight ts (core_of e P V now L)) by (unfold no_midnight, core_of; cbn [c_pool]; rewrite Hpo; exact Hmid).
  specialize (H Hm). set (f := claimable ts (core_of e P V now L)) in *. clearbody f.
  unfold core_of in H. cbn [c_pool c_min c_vault] in H. rewrite Hpo in H.
  unfold PRECISION, pubkey in *. lia.
Qed.

(** the list of a pool's minings *)
Lemma minings_listed e L P : lists_minings e L P (map_to_list (minings_of e P L)).
Proof.
  split.
  - apply NoDup_ListNoDup. exact (NoDup_fst_map_to_list (minings_of e P L)).
  - intros k m. rewrite in_view, <- elem_of_list_In. apply elem_of_map_to_list.
Qed.
