(** Stakers leave one after the other, delegates after those who delegate to them. *)
From stdpp Require Import gmap.
From Verif Require Import Base OMap State Spec EffectSpec Core Ledger Program ResLemmas TreeLemmas RefreshLemmas WfLemmas CodecLemmas
  LedgerLemmas LedgerSpec History HistoryLemmas AccessLemmas HistoryThms ReachThms Clients ClientSpec
  LedgerView LedgerCore LedgerCoreThms EffectLemmas EffectThms EffectMore EffectCompare SuccessSpec SuccessThms Leave WindUpSpec WindUp PartingSpec.

Section env.
Context (e : env) (Henv : env_ok e) (Hinj : env_inj e) (Hrent : 0 < rent_min e MINING_LEN).
Context (P : pubkey) (HP : P <> 0).

(** once up to date, a mining has nothing more to come at that time, whatever is delegated to it *)
Lemma again ts ci m m' z : refreshed ts ci m m' -> tokens_at ts ci (with_delegated m' z) = tokens_at ts ci m.
Proof.
  intros R. unfold tokens_at. cbn [with_delegated wm m_unclaimed m_share m_sfo m_index wm_diffs].
  rewrite (rf_unclaimed _ _ _ _ R), (rf_diffs _ _ _ _ R), (rf_index _ _ _ _ R), upto_after. cbn [earned]. rewrite Z.sub_diag, Z.mul_0_l, Z.div_0_l by lia. lia.
Qed.

Lemma part_all : forall l now ts L V w,
  orderly e P disciplined now L -> pool_vault e L P V w -> now <= ts -> is_u64 ts ->
  owner_of L (p_mint (wp w)) = spl_token_id e -> p_deposit_auth (wp w) <> system_id ->
  List.NoDup (map d_mining l) -> List.NoDup (map d_to l) ->
  (forall before d after, l = before ++ d :: after -> may_part e L P V w l before d) ->
  exists L' xs w', departures e ts P (p_mint (wp w)) V (p_deposit_auth (wp w)) l L = Ok (L', xs) /\
    Forall2 (has_parted e ts P w L L' l) l xs /\
    balance L' V = balance L V - zsum xs /\
    (forall t, In t (map d_target l) -> lamports_of L' t = lamports_of L t + refund L t l) /\
    pool_vault e L' P V w' /\ only_total w w' /\
    (forall d, day_start ts <= d -> p_total (wp w') - due d (wp_diffs w') = p_total (wp w) - due d (wp_diffs w) - leaving l) /\
    (forall q, q <> P -> q <> V -> ~ In q (map d_to l) -> ~ In q (map d_mining l) -> ~ In q (map d_dm l) ->
       ~ In q (map d_target l) -> acc L' q = acc L q) /\
    (forall q m, mining_in e L' P q m -> ~ In q (map d_mining l) /\ exists m0, mining_in e L P q m0) /\
    (l <> [] -> orderly e P disciplined ts L').
Proof.
  induction l as [|d l IH]; intros now ts L V w HO HV Hts Hu Hmint Hauth Hnd Hnt Hl.
  { exists L, [], w. cbn. split; [reflexivity|]. split; [constructor|]. split; [lia|]. split; [intros ? []|].
    split; [exact HV|]. split; [repeat split|]. split; [intros; lia|]. split; [reflexivity|].
    split; [intros q m H; split; [intros []|exists m; exact H]|congruence]. }
  destruct d as [k o T x dl a target]. cbn [map d_mining d_to] in Hnd, Hnt. apply List.NoDup_cons_iff in Hnd as [Nk Hnd].
  apply List.NoDup_cons_iff in Hnt as [NT Hnt].
  pose proof (orderly_reached _ _ _ _ _ HO) as HR.
  pose proof (eo_tok _ Henv) as Ntok. pose proof (eo_sys _ Henv) as Nsys. pose proof (eo_toksys _ Henv) as Nts.
  assert (Hlam : forall q, 0 <= lamports_of L q) by (intros q; apply (stored_in_range e Henv _ _ q HR)).
  assert (Hl' : forall d, In d l -> exists b1 b2, l = b1 ++ d :: b2 /\ may_part e L P V w (Departure k o T x dl a target :: l) (Departure k o T x dl a target :: b1) d).
  { intros d Hd. apply in_split in Hd as (b1 & b2 & ->). exists b1, b2. split; [reflexivity|]. apply (Hl _ d b2). reflexivity. }
  assert (Hst : forall d, In d l -> 0 <= d_stake d).
  { intros d Hd. destruct (Hl' d Hd) as (_ & _ & _ & ? & _ & _ & _ & _ & _ & _ & _ & H & _). apply H. }
  destruct (Hl [] _ l eq_refl) as (m & Hm & Eo & Ho0 & Ko & Kd & Hpay & Hsfo & Ha & Hx & Htg & Hfit).
  cbn [d_mining d_owner d_to d_dm d_delegate d_stake d_target] in *. subst o.
  change (m_sfo (wm m) = 0) in Hsfo.
  assert (Htk : forall y, 0 <= back y l).
  { intros y. apply zsum_nonneg. intros d Hd. specialize (Hst d Hd). destruct (from_delegate _ _); lia. }
  assert (Hrf : forall t, 0 <= refund L t l).
  { intros y. apply zsum_nonneg. intros d Hd. specialize (Hlam (d_mining d)). destruct (_ =? _); lia. }
  assert (Hfit1 : lamports_of L target + lamports_of L k < U64).
  { unfold refund in Hfit. cbn [map zsum d_target d_mining] in Hfit. rewrite Z.eqb_refl in Hfit. specialize (Hrf target). unfold refund in Hrf. lia. }
  assert (HX : exists mx, x = k \/ x <> k /\ mining_in e L P x mx /\ dl = m_owner (wm mx) /\ a <= m_sfo (wm mx)).
  { destruct Hx as [->|(Nk0 & _ & mx & H1 & H2 & H3)]; [exists m; left; reflexivity|]. exists mx. right.
    split; [exact Nk0|]. split; [exact H1|]. split; [exact H2|]. specialize (Htk x).
    unfold back in H3. cbn [map zsum] in H3. fold (back x l) in H3. unfold from_delegate in H3. cbn [d_dm d_mining d_stake] in H3.
    rewrite Z.eqb_refl in H3. destruct (Z.eqb_spec k x); [congruence|]. cbn [andb negb] in H3. lia. }
  destruct HX as [mx HX].
  destruct (departs e Henv Hinj Hrent P HP now ts L V w k m T x mx dl a target HO HV Hts Hu Hmint Hauth Hm Ho0 Hpay Hsfo Ha Ko Kd HX Htg Hfit1)
    as (L1 & L2 & L3 & r & w1 & X1 & X2 & X3 & Er & R0 & BT & BV & LT & OT & AK & HV3 & OW & Tot & HO3 & OT3 & MX & Frame).
  assert (Vt : exists tv, is_token e L V tv).
  { destruct (orderly_core e Henv Hinj Hrent P HP disciplined disciplined_donate disciplined_init _ _ _ _ HO HV) as [tv HA].
    exists tv. apply HA. }
  destruct Vt as [tv Vt].
  destruct Hpay as (t0 & Ht0 & Hpo & Hpm & HTV & Hpf).
  destruct HV as [HVp HVr]. pose proof (conj HVp HVr : pool_vault e L P V w) as HV.
  assert (Ek : owner_of L k = program_id e) by apply Hm.
  assert (Ex : owner_of L x = program_id e).
  { destruct HX as [->|(_ & [[E _] _] & _)]; [apply Hm|exact E]. }
  assert (EP : owner_of L P = program_id e) by apply HVp.
  assert (ET : owner_of L T = spl_token_id e) by apply Ht0.
  assert (EV : owner_of L V = spl_token_id e) by apply Vt.
  destruct OW as (W1 & W2 & W3 & W4 & W5 & W6 & W7 & W8 & W9 & W10).
  (* the other minings, token accounts and targets are as they were *)
  assert (Fm : forall q mq, mining_in e L P q mq -> q <> k -> q <> x -> acc L3 q = acc L q).
  { intros q mq [[E E'] _] N1 N2. apply Frame; try assumption; try congruence.
    intros ->. destruct HVp as [_ HVp]. congruence. }
  assert (Ft : forall q tq, is_token e L q tq -> q <> V -> q <> T -> acc L3 q = acc L q).
  { intros q tq [E _] N1 N2. apply Frame; congruence. }
  assert (Fs : forall q, owner_of L q = system_id -> q <> target -> acc L3 q = acc L q).
  { intros q E N1. apply Frame; congruence. }
  (* accounts of the others *)
  assert (Hk : forall d, In d l -> d_mining d <> k) by (intros d Hd E; apply Nk; rewrite <- E; apply in_map; exact Hd).
  assert (HT : forall d, In d l -> d_to d <> T) by (intros d Hd E; apply NT; rewrite <- E; apply in_map; exact Hd).
  assert (El : forall d, In d l -> lamports_of L3 (d_mining d) = lamports_of L (d_mining d)).
  { intros d Hd. destruct (Z.eq_dec (d_mining d) x) as [E|Hxk].
    - rewrite E. destruct (MX ltac:(rewrite <- E; exact (Hk d Hd))) as (_ & _ & _ & _ & _ & EL). exact EL.
    - destruct (Hl' d Hd) as (_ & _ & _ & md & Hmd & _). unfold lamports_of. rewrite (Fm _ _ Hmd (Hk d Hd) Hxk). reflexivity. }
  assert (Erf : forall t, refund L3 t l = refund L t l).
  { intros t. unfold refund. f_equal. apply List.map_ext_in. intros d Hd. rewrite (El d Hd). reflexivity. }
  assert (BC : forall y b, y <> k -> back y (Departure k (m_owner (wm m)) T x dl a target :: b) = (if x =? y then a else 0) + back y b).
  { intros y b Ny. unfold back. cbn [map zsum]. unfold from_delegate at 1. cbn [d_dm d_mining d_stake].
    destruct (Z.eqb_spec k y); [congruence|]. rewrite andb_true_r. reflexivity. }
  assert (Em : owner_of L3 (p_mint (wp w1)) = spl_token_id e).
  { rewrite W4. set (q := p_mint (wp w)) in *.
    destruct (Z.eq_dec q V) as [->|N1]; [|destruct (Z.eq_dec q T) as [->|N2]].
    - destruct (orderly_core e Henv Hinj Hrent P HP disciplined disciplined_donate disciplined_init _ _ _ _ HO3 HV3) as [tv3 HA].
      destruct HA as [_ _ _ [E _] _ _ _]. exact E.
    - rewrite OT3. exact ET.
    - unfold owner_of. rewrite Frame; try assumption; congruence. }
  destruct (IH ts ts L3 V w1 HO3 HV3 (Z.le_refl _) Hu Em) as (L' & xs & w' & E1 & E2 & E3 & E4 & E5 & E6 & E7 & E8 & E10 & E9); try assumption; [congruence| |].
  { intros b1 d b2 El1. assert (Hd : In d l) by (rewrite El1; apply in_elt).
    assert (HL : may_part e L P V w (Departure k (m_owner (wm m)) T x dl a target :: l) (Departure k (m_owner (wm m)) T x dl a target :: b1) d).
    { apply (Hl _ d b2). rewrite El1. reflexivity. }
    destruct HL as (md & Hmd & F1 & F2 & F3 & F4 & (td & Htd & F5 & F6 & F7 & F8) & F9 & F10 & F11 & F12 & F13).
    pose proof (Ft _ _ Htd F7 (HT d Hd)) as At. rewrite (BC (d_mining d) b1 (Hk d Hd)) in F9.
    assert (MD : exists m3, mining_in e L3 P (d_mining d) m3 /\ m_owner (wm m3) = m_owner (wm md) /\ unlocked_stake m3 = unlocked_stake md /\
      m_sfo (wm m3) = m_sfo (wm md) - if x =? d_mining d then a else 0).
    { destruct (Z.eqb_spec x (d_mining d)) as [Exd|Ne].
      - rewrite <- Exd in *. destruct (MX ltac:(rewrite Exd; exact (Hk d Hd))) as (mx' & K1 & K2 & K3 & K4 & _).
        destruct HX as [?|(_ & [[_ HX1] _] & _)]; [exfalso; apply (Hk d Hd); congruence|].
        assert (mx = md) by (destruct Hmd as [[_ ?] _]; congruence). subst md.
        exists mx'. split; [exact K1|]. split; [exact K2|]. split; [|exact K3].
        destruct K4 as [_ _ Rd Rs _ _ _ _ _]. unfold unlocked_stake. rewrite Rd, Rs, total_after. cbn [with_delegated wm wm_diffs m_share]. lia.
      - exists md. pose proof (Fm _ _ Hmd (Hk d Hd) (not_eq_sym Ne)) as Am.
        split; [split; [|apply Hmd]; unfold is_mining, owner_of, data_of; rewrite Am; apply Hmd|]. split; [reflexivity|]. split; [reflexivity|]. lia. }
    destruct MD as (m3 & M1 & M2 & M3 & M4).
    exists m3. split; [exact M1|]. split; [congruence|]. do 3 (split; [assumption|]). split.
    { exists td. split; [unfold is_token, owner_of, data_of; rewrite At; apply Htd|]. split; [congruence|]. split; [congruence|]. split; [assumption|]. lia. }
    split; [lia|]. split; [lia|]. split.
    { destruct F11 as [F11|(Nd & Nx & my & G1 & G2 & G3)]; [left; exact F11|right]. split; [exact Nd|]. cbn [map d_mining] in Nx.
      assert (Ny : d_dm d <> k /\ ~ In (d_dm d) (map d_mining b1)) by (split; intros H; apply Nx; [left; congruence|right; exact H]).
      destruct Ny as [Ny1 Ny2]. split; [exact Ny2|]. rewrite (BC (d_dm d) l Ny1) in G3.
      destruct (Z.eqb_spec x (d_dm d)) as [Exd|Ne].
      - rewrite <- Exd in *. destruct (MX Ny1) as (mx' & K1 & K2 & K3 & _). exists mx'. split; [exact K1|].
        destruct HX as [?|(_ & [[_ HX1] _] & _)]; [congruence|]. assert (mx = my) by (destruct G1 as [[_ ?] _]; congruence). subst my.
        split; [congruence|]. rewrite K3. lia.
      - exists my. pose proof (Fm _ _ G1 Ny1 (not_eq_sym Ne)) as Ay.
        split; [split; [|apply G1]; unfold is_mining, owner_of, data_of; rewrite Ay; apply G1|]. split; [exact G2|]. lia. }
    destruct (Z.eq_dec (d_target d) target) as [Et|Nt].
    - rewrite Et in *. split; [exact OT|]. rewrite LT, Erf. unfold refund in F13. cbn [map zsum d_target d_mining] in F13. rewrite Z.eqb_refl in F13.
      fold (refund L target l) in F13. lia.
    - pose proof (Fs _ F12 Nt) as At'. unfold owner_of, lamports_of. rewrite At'. split; [exact F12|]. rewrite Erf.
      unfold refund in F13. cbn [map zsum d_target d_mining] in F13. destruct (Z.eqb_spec target (d_target d)); [congruence|]. 
      fold (refund L (d_target d) l) in F13. unfold lamports_of in F13. lia. }
  exists L', (r :: xs), w'. cbn [departures d_mining d_owner d_to d_dm d_delegate d_stake d_target].
  split.
  { rewrite X1. cbn [rbind]. rewrite X2. cbn [rbind]. rewrite X3. cbn [rbind]. rewrite <- W4, <- W1, E1. reflexivity. }
  (* the accounts of this staker are not touched by the others *)
  assert (ndm : forall q, owner_of L q <> program_id e \/ q = k -> ~ In q (map d_dm l)).
  { intros q Hq Hin. apply in_map_iff in Hin as (d & <- & Hd).
    destruct (Hl' d Hd) as (b1 & _ & _ & md & Hmd & _ & _ & _ & _ & _ & _ & _ & F11 & _).
    destruct Hq as [Hq|Hq].
    - apply Hq. destruct F11 as [->|(_ & _ & my & G1 & _)]; [apply Hmd|apply G1].
    - destruct F11 as [F11|(_ & Nx & _)]; [apply (Hk d Hd); congruence|]. apply Nx. left. cbn. congruence. }
  assert (nmn : forall q, owner_of L q <> program_id e -> ~ In q (map d_mining l)).
  { intros q Hq Hin. apply in_map_iff in Hin as (d & <- & Hd). destruct (Hl' d Hd) as (_ & _ & _ & md & Hmd & _). apply Hq, Hmd. }
  assert (nto : forall q, owner_of L q <> spl_token_id e -> ~ In q (map d_to l)).
  { intros q Hq Hin. apply in_map_iff in Hin as (d & <- & Hd).
    destruct (Hl' d Hd) as (_ & _ & _ & md & _ & _ & _ & _ & _ & (td & Htd & _) & _). apply Hq, Htd. }
  assert (ntg : forall q, owner_of L q <> system_id -> ~ In q (map d_target l)).
  { intros q Hq Hin. apply in_map_iff in Hin as (d & <- & Hd).
    destruct (Hl' d Hd) as (_ & _ & _ & md & _ & _ & _ & _ & _ & _ & _ & _ & _ & F12 & _). apply Hq, F12. }
  split.
  { constructor.
    - exists m. split; [exact Hm|]. cbn [d_to d_mining]. split.
      { rewrite Er. unfold first_back. destruct (List.find _ _) as [d|] eqn:Fd; [exfalso|].
        - apply List.find_some in Fd as [Hin Hf]. unfold from_delegate in Hf. apply andb_true_iff in Hf as [Hf1 Hf2]. apply Z.eqb_eq in Hf1. 
          destruct Hin as [<-|Hin]; [cbn in Hf2; rewrite Z.eqb_refl in Hf2; discriminate|].
          exact (ndm k (or_intror eq_refl) (eq_ind _ (fun z => In z (map d_dm l)) (in_map d_dm l d Hin) _ Hf1)).
        - unfold tokens_at. cbn [with_delegated wm m_unclaimed m_share m_sfo m_index wm_diffs]. rewrite Z.sub_0_r. reflexivity. }
      split.
      + rewrite <- BT. unfold balance, data_of. rewrite E8; [reflexivity| | | | | |]; try congruence.
        * apply nmn. congruence. * apply ndm. left. congruence. * apply ntg. congruence.
      + rewrite E8; [exact AK| | | | | |]; try congruence.
        * intros ->. destruct HVp as [_ Ev], Hm as [[_ Ed] _]. congruence.
        * apply nto. congruence.
        * apply ndm. right. reflexivity.
        * apply ntg. congruence.
    - apply (Forall2_in (has_parted e ts P w1 L3 L' l)); [|exact E2]. intros d y Hd (md & Hmd & K1 & K2 & K3).
      destruct (Hl' d Hd) as (_ & _ & _ & mo & Hmo & _ & _ & _ & _ & (td & Htd & _ & _ & F7 & _) & _).
      pose proof (Ft _ _ Htd F7 (HT d Hd)) as At. exists mo. split; [exact Hmo|]. split.
      + unfold first_back at 1. cbn [List.find]. unfold from_delegate at 1. cbn [d_dm d_mining].
        destruct (Z.eqb_spec k (d_mining d)) as [E|_]; [exfalso; exact (Hk d Hd (eq_sym E))|]. rewrite andb_true_r.
        destruct (Z.eqb_spec x (d_mining d)) as [Exd|Ne]; cbn [d_stake].
        * destruct (MX ltac:(rewrite Exd; exact (Hk d Hd))) as (mx' & M1 & _ & _ & M4 & _).
          destruct HX as [?|(_ & [[_ HX1] _] & _)]; [exfalso; apply (Hk d Hd); congruence|].
          assert (mx = mo) by (destruct Hmo as [[_ ?] _]; congruence). subst mo.
          assert (mx' = md) by (destruct M1 as [[_ ?] _], Hmd as [[_ ?] _]; congruence). subst md.
          rewrite K1, W10. apply again. exact M4.
        * pose proof (Fm _ _ Hmo (Hk d Hd) (not_eq_sym Ne)) as Am.
          assert (md = mo) by (destruct Hmo as [[_ ?] _], Hmd as [[_ D3] _]; unfold data_of in *; rewrite Am in D3; congruence). subst md.
          rewrite K1, W10. reflexivity.
      + split; [|exact K3]. rewrite K2. unfold balance, data_of. rewrite At. reflexivity. }
  split; [cbn [zsum]; rewrite E3, BV; lia|]. split.
  { intros t Ht. unfold refund. cbn [map zsum d_target d_mining]. fold (refund L t l).
    assert (Ot : owner_of L t = system_id).
    { destruct Ht as [<-|Ht]; [exact Htg|]. apply in_map_iff in Ht as (d & <- & Hd).
      destruct (Hl' d Hd) as (_ & _ & _ & md & _ & _ & _ & _ & _ & _ & _ & _ & _ & F12 & _). exact F12. }
    assert (A : lamports_of L3 t = lamports_of L t + if target =? t then lamports_of L k else 0).
    { destruct (Z.eqb_spec target t) as [<-|Ne]; [exact LT|]. unfold lamports_of. rewrite Fs by congruence. lia. }
    destruct (in_dec Z.eq_dec t (map d_target l)) as [Hi|Hi].
    - rewrite (E4 t Hi), A, Erf. lia.
    - rewrite (refund_none L t l Hi). unfold lamports_of at 1. rewrite E8; try assumption; try congruence.
      + fold (lamports_of L3 t). rewrite A. lia.
      + apply nto. congruence. + apply nmn. congruence. + apply ndm. left. congruence. }
  split; [exact E5|]. split.
  { destruct E6 as (V1 & V2 & V3 & V4 & V5 & V6 & V7 & V8 & V9 & V10).
    split; [congruence|]. split; [congruence|]. split; [congruence|]. split; [congruence|]. split; [congruence|]. split; [congruence|].
    split; [congruence|]. split; [congruence|]. split; congruence. }
  split.
  { intros d Hd. rewrite E7, Tot by assumption. unfold leaving. cbn [map zsum d_stake d_dm d_mining]. lia. }
  split.
  { intros q N1 N2 N3 N4 N5 N6. cbn [map In d_to d_mining d_dm d_target] in N3, N4, N5, N6.
    rewrite E8 by tauto. apply Frame; try assumption; intros ->; tauto. }
  split.
  { intros q mq Hq. destruct (E10 q mq Hq) as [Nq (m3 & Hq3)].
    assert (Nqk : q <> k).
    { intros ->. destruct Hq3 as [[_ D3] P3]. unfold data_of in D3. rewrite AK in D3. cbn in D3. injection D3 as <-. cbn in P3. congruence. }
    split; [intros [H|H]; [apply Nqk; symmetry; exact H|exact (Nq H)]|].
    destruct (Z.eq_dec q x) as [->|Nqx]; [destruct HX as [?|(_ & H & _)]; [congruence|exists mx; exact H]|].
    exists m3. destruct Hq3 as [[O3 D3] P3]. split; [|exact P3]. unfold is_mining, owner_of, data_of in *.
    rewrite <- Frame; [auto|..]; try assumption.
    - intros ->. destruct HV3 as [[_ D4] _]. unfold data_of in D4. congruence.
    - intros ->. destruct (orderly_core e Henv Hinj Hrent P HP disciplined disciplined_donate disciplined_init _ _ _ _ HO3 HV3) as [tv3 HA].
      destruct HA as [_ _ _ [E _] _ _ _]. unfold owner_of in E. congruence.
    - intros ->. congruence.
    - intros ->. congruence. }
  intros _. destruct l; [cbn in E1; injection E1 as <- _; exact HO3|apply E9; discriminate].
Qed.


(** ** The pool when all have left *)
Lemma zsum_zero {A} (f : A -> Z) l : (forall x, In x l -> f x = 0) -> zsum (map f l) = 0.
Proof. induction l as [|x l IH]; intros H; cbn; [reflexivity|]. rewrite (H x (or_introl eq_refl)), IH; [reflexivity|]. intros y Hy. apply H. right. exact Hy. Qed.
Lemma zsum_plus {A} (f g : A -> Z) l : zsum (map (fun x => f x + g x) l) = zsum (map f l) + zsum (map g l).
Proof. induction l as [|x l IH]; cbn; [reflexivity|]. rewrite IH. lia. Qed.
Lemma zsum_swap {A B} (f : A -> B -> Z) l l' : zsum (map (fun x => zsum (map (f x) l')) l) = zsum (map (fun y => zsum (map (fun x => f x y) l)) l').
Proof.
  induction l as [|x l IH]; cbn.
  - symmetry. apply zsum_zero. reflexivity.
  - rewrite IH, <- zsum_plus. reflexivity.
Qed.
Lemma zsum_one x (s : Z) (f : departure -> bool) l : List.NoDup (map d_mining l) -> (forall d, In d l -> f d = (x =? d_mining d)) -> In x (map d_mining l) ->
  zsum (map (fun d => if f d then s else 0) l) = s.
Proof.
  induction l as [|d l IH]; intros N F H; [destruct H|]. cbn [map] in N, H. apply List.NoDup_cons_iff in N as [N1 N2]. cbn [map zsum]. rewrite (F d (or_introl eq_refl)).
  destruct (Z.eqb_spec x (d_mining d)) as [->|Ne].
  - rewrite zsum_zero; [lia|]. intros y Hy. rewrite (F y (or_intror Hy)). destruct (Z.eqb_spec (d_mining d) (d_mining y)) as [E|]; [|reflexivity].
    exfalso. apply N1. rewrite E. apply in_map. exact Hy.
  - rewrite IH; [lia|exact N2| |destruct H; congruence]. intros y Hy. apply F. right. exact Hy.
Qed.
Lemma back_app x l l' : back x (l ++ l') = back x l + back x l'.
Proof. unfold back. induction l as [|d l IH]; [reflexivity|]. cbn [app map zsum]. rewrite IH. lia. Qed.

(** all that is taken back, delegate by delegate or staker by staker *)
Lemma all_back l : List.NoDup (map d_mining l) -> (forall d, In d l -> d_dm d = d_mining d \/ d_dm d <> d_mining d /\ In (d_dm d) (map d_mining l)) ->
  zsum (map (fun x => back (d_mining x) l) l) = zsum (map (fun d => if_other (d_dm d) (d_mining d) (d_stake d)) l).
Proof.
  intros N H. unfold back. rewrite (zsum_swap (fun x d => if from_delegate (d_mining x) d then d_stake d else 0)). f_equal. apply List.map_ext_in. intros d Hd.
  unfold if_other. destruct (H d Hd) as [E|[E I]].
  - rewrite E, Z.eqb_refl. apply zsum_zero. intros x _. unfold from_delegate. rewrite E. destruct (d_mining d =? d_mining x); reflexivity.
  - destruct (Z.eqb_spec (d_dm d) (d_mining d)); [contradiction|]. apply (zsum_one (d_dm d)); [exact N| |exact I].
    intros x _. unfold from_delegate. destruct (Z.eqb_spec (d_dm d) (d_mining x)) as [Ex|]; [|reflexivity].
    destruct (Z.eqb_spec (d_mining d) (d_mining x)); [congruence|reflexivity].
Qed.

Lemma expired_all ts d m :
  (forall x v, In (x, v) (wm_diffs m) -> x <= day_start ts) -> day_start ts <= d -> eff m d = unlocked_stake m + m_sfo (wm m).
Proof. intros H Hd. unfold eff, unlocked_stake. rewrite (all_due d) by (intros k v Hin; specialize (H k v Hin); lia). lia. Qed.

Lemma all_part l now ts L V w :
  orderly e P exact_disciplined now L -> pool_vault e L P V w -> now <= ts -> is_u64 ts ->
  owner_of L (p_mint (wp w)) = spl_token_id e -> p_deposit_auth (wp w) <> system_id ->
  List.NoDup (map d_mining l) -> List.NoDup (map d_to l) ->
  (forall before d after, l = before ++ d :: after -> may_part e L P V w l before d) ->
  (forall k m, mining_in e L P k m -> exists d, In d l /\ d_mining d = k /\ d_stake d = unlocked_stake m /\
     forall x v, In (x, v) (wm_diffs m) -> x <= day_start ts) ->
  exists L' xs w', departures e ts P (p_mint (wp w)) V (p_deposit_auth (wp w)) l L = Ok (L', xs) /\
    Forall2 (has_parted e ts P w L L' l) l xs /\
    pool_vault e L' P V w' /\ (forall k m, ~ mining_in e L' P k m) /\
    (forall d, day_start ts <= d -> p_total (wp w') - due d (wp_diffs w') = 0) /\
    p_avail (wp w') = p_avail (wp w) /\ p_avail (wp w) <= balance L' V /\ balance L' V = balance L V - zsum xs.
Proof.
  intros HO HV Hts Hu Hmint Hauth Hnd Hnt Hl Hall.
  pose proof (orderly_weaker e P exact_disciplined disciplined now L (fun _ _ _ H => proj1 H) HO) as HO'.
  destruct (part_all l now ts L V w HO' HV Hts Hu Hmint Hauth Hnd Hnt Hl)
    as (L' & xs & w' & E1 & E2 & E3 & _ & E5 & E6 & E7 & _ & E10 & E9).
  exists L', xs, w'. split; [exact E1|]. split; [exact E2|]. split; [exact E5|].
  split.
  { intros k m Hm. destruct (E10 k m Hm) as [Nk (m0 & Hm0)]. destruct (Hall k m0 Hm0) as (d & Hd & <- & _). apply Nk. apply in_map. exact Hd. }
  assert (Hn : 0 <= now) by (exact (orderly_time e Henv Hinj Hrent P HP disciplined disciplined_donate disciplined_init _ _ HO')).
  assert (Hl' : forall d, In d l -> exists b1 b2, l = b1 ++ d :: b2 /\ may_part e L P V w l b1 d).
  { intros d Hd. apply in_split in Hd as (b1 & b2 & E). exists b1, b2. split; [exact E|]. exact (Hl _ _ _ E). }
  assert (Hdm : forall d, In d l -> d_dm d = d_mining d \/ d_dm d <> d_mining d /\ In (d_dm d) (map d_mining l)).
  { intros d Hd. destruct (Hl' d Hd) as (b1 & b2 & _ & m & _ & _ & _ & _ & _ & _ & _ & _ & [F|(F & _ & mx & G & _)] & _); [left; exact F|right].
    split; [exact F|]. destruct (Hall _ _ G) as (y & Hy & <- & _). apply in_map. exact Hy. }
  (* all that is delegated to somebody has been taken back before *)
  assert (Hsfo : forall x m, In x l -> mining_in e L P (d_mining x) m -> m_sfo (wm m) = back (d_mining x) l).
  { intros x m Hx Hm. destruct (Hl' x Hx) as (b1 & b2 & E & m1 & [[_ D1] _] & _ & _ & _ & _ & _ & S1 & _).
    assert (m1 = m) by (destruct Hm as [[_ ?] _]; congruence). subst m1. rewrite S1, E, back_app.
    assert (Z0 : back (d_mining x) (x :: b2) = 0); [|lia]. apply zsum_zero. intros y Hy.
    unfold from_delegate. destruct (Z.eqb_spec (d_dm y) (d_mining x)) as [Ey|]; [|reflexivity].
    destruct Hy as [->|Hy]; [rewrite Z.eqb_refl; reflexivity|]. apply in_split in Hy as (c1 & c2 & ->).
    destruct (Hl (b1 ++ x :: c1) y c2) as (my & _ & _ & _ & _ & _ & _ & _ & _ & F & _); [rewrite E, <- app_assoc; reflexivity|].
    destruct F as [F|(_ & F & _)]; [rewrite <- F, Ey, Z.eqb_refl; reflexivity|]. exfalso. apply F. rewrite Ey. apply in_map, in_elt. }
  split.
  { intros d Hd. rewrite (E7 d Hd).
    set (g := fun x => (d_mining x, match data_of L (d_mining x) with DMining m => m | _ => zero_wmining end)).
    assert (Hg : forall x, In x l -> exists m, g x = (d_mining x, m) /\ mining_in e L P (d_mining x) m).
    { intros x Hx. destruct (Hl' x Hx) as (_ & _ & _ & m & Hm & _). exists m. split; [|exact Hm]. unfold g. destruct Hm as [[_ ->] _]. reflexivity. }
    rewrite <- (shares_exact e Henv Hinj Hrent P now L V w d (map g l) HP HO HV).
    - assert (E : zsum (map (fun x => eff (snd x) d) (map g l)) = leaving l); [|lia]. rewrite List.map_map. unfold leaving.
      rewrite zsum_plus, <- (all_back l Hnd Hdm), <- zsum_plus. f_equal.
      apply List.map_ext_in. intros x Hx. destruct (Hg x Hx) as (m & Eg & Hm). rewrite Eg. cbn [snd].
      destruct (Hall _ _ Hm) as (y & Hy & Ky & Sy & By).
      assert (y = x).
      { clear -Hnd Hx Hy Ky. induction l as [|z l IH]; [destruct Hx|]. cbn [map] in Hnd. apply List.NoDup_cons_iff in Hnd as [N1 N2].
        destruct Hx as [->|Hx], Hy as [->|Hy]; [reflexivity| | |auto]; exfalso; apply N1; [rewrite <- Ky|rewrite Ky]; apply in_map; assumption. }
      subst y. rewrite (expired_all ts d m By Hd), Sy, (Hsfo x m Hx Hm). reflexivity.
    - assert (day_start now <= day_start ts) by (unfold day_start; pose proof (Z.div_le_mono now ts 86400 ltac:(lia) Hts); nia). lia.
    - split.
      + rewrite List.map_map. exact Hnd.
      + intros k m. split.
        * intros Hin. apply in_map_iff in Hin as (x & Ex & Hx). destruct (Hg x Hx) as (m1 & E & Hm). rewrite E in Ex. injection Ex as <- <-. exact Hm.
        * intros Hm. destruct (Hall k m Hm) as (x & Hx & <- & _). destruct (Hg x Hx) as (m1 & E & Hm1).
          assert (m1 = m) by (destruct Hm as [[_ ?] _], Hm1 as [[_ ?] _]; congruence). subst m1. rewrite <- E. apply in_map. exact Hx. }
  destruct E6 as (_ & _ & _ & _ & _ & _ & Ea & _). split; [exact Ea|]. split; [|exact E3]. rewrite <- Ea.
  destruct l as [|d l].
  - cbn in E1. injection E1 as <- <-.
    pose proof (solvent_returns e Henv Hinj Hrent P HP disciplined disciplined_donate disciplined_init (fun _ _ _ H => H) now ts L V w' []
      HO' E5 Hts (List.NoDup_nil _) (fun _ _ H => match H with end)) as S. cbn in S. lia.
  - pose proof (solvent_returns e Henv Hinj Hrent P HP disciplined disciplined_donate disciplined_init (fun _ _ _ H => H) ts ts L' V w' []
      (E9 ltac:(discriminate)) E5 (Z.le_refl _) (List.NoDup_nil _) (fun _ _ H => match H with end)) as S. cbn in S. lia.
Qed.
End env.
