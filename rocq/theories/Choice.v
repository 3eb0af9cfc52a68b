(** Proofs of C73-C75: the choice of a delegate, and extending against not extending. *)
From stdpp Require Import gmap.
From Verif Require Import Base OMap State Spec EffectSpec Ledger Program ResLemmas TreeLemmas AccrualLemmas RefreshLemmas WfLemmas LedgerLemmas LedgerSpec
  CodecLemmas History HistoryLemmas AccessLemmas HistoryThms ReachThms EffectLemmas EffectMethods EffectThms EffectMore EffectCompare
  SuccessSpec SuccessThms Commute Worth BackSpec TakenBack CompleteSpec Complete ChoiceSpec.

(** ** Schedules *)
Lemma scheduled_is cap d x t t' : ascending t -> ascending t' -> scheduled cap d x t t' -> t' = oinsert cap d (at_date d t + x) t.
Proof.
  intros A A' S. eapply scheduled_fun; [exact S|apply scheduled_insert; [exact A|reflexivity]|exact A'|].
  unfold oinsert. destruct (ohas d t); [apply ascending_oput; exact A|]. destruct (_ <? _); [apply ascending_oput; exact A|exact A].
Qed.
Lemma scheduled_most cap d x t t' k : ascending t -> ascending t' -> 0 <= x -> scheduled cap d x t t' ->
  due k t' <= due k t + (if d <=? k then x else 0).
Proof.
  intros A A' Hx S. rewrite (scheduled_is _ _ _ _ _ A A' S). unfold oinsert. rewrite at_date_oget. destruct (ohas d t) eqn:E.
  - apply ohas_true in E as (v & E). rewrite E, (due_oput_old _ _ _ _ _ A E). destruct (_ <=? _); lia.
  - apply ohas_false in E. rewrite E. destruct (_ <? _); [|destruct (_ <=? _); lia].
    rewrite due_oput_new by exact E. destruct (_ <=? _); lia.
Qed.
Lemma scheduled_early cap d x t t' k : ascending t -> ascending t' -> k < d -> scheduled cap d x t t' -> due k t' = due k t.
Proof.
  intros A A' Hk S. rewrite (scheduled_is _ _ _ _ _ A A' S). unfold oinsert. rewrite at_date_oget.
  assert (Hle : (d <=? k) = false) by (apply Z.leb_gt; exact Hk). destruct (ohas d t) eqn:E.
  - apply ohas_true in E as (v & E). rewrite E, (due_oput_old _ _ _ _ _ A E), Hle. lia.
  - apply ohas_false in E. rewrite E. destruct (_ <? _); [|reflexivity]. rewrite due_oput_new by exact E. rewrite Hle. lia.
Qed.
Lemma lowered_less d x t t' k : ascending t -> lowered d x t t' -> due k t' = due k t - (if d <=? k then x else 0).
Proof.
  intros A (H & Hx & Hk & Hv).
  assert (A' : ascending t') by (eapply WfLemmas.ascending_keys; [symmetry; exact Hk|exact A]).
  assert (E : exists v, oget d t = Some v).
  { apply (has_date_oget d t A) in H. destruct (oget d t) as [v|]; [eauto|congruence]. }
  destruct E as [v E].
  assert (t' = oput d (v - x) t) as ->.
  { apply sched_ext; [exact A'|apply ascending_oput; exact A| |].
    - intros q. rewrite !has_keys, Hk. rewrite <- !has_keys, !has_date_oget by (try apply ascending_oput; exact A).
      rewrite oget_oput. destruct (Z.eqb_spec q d) as [->|]; [rewrite E; split; discriminate|reflexivity].
    - intros q. rewrite Hv, !at_date_oget, oget_oput. destruct (Z.eqb_spec q d) as [->|]; [rewrite E; lia|lia]. }
  rewrite (due_oput_old _ _ _ _ _ A E). destruct (_ <=? _); lia.
Qed.

(** more stake on every day of a later history means more tokens *)
Lemma later_more ts j f g ci' : later_history ts j ci' -> (forall k, day_start ts <= k -> f k <= g k) ->
  accrual j f ci' <= accrual j g ci'.
Proof.
  intros [Hg Hl] H. apply accrual_le; [exact Hg|]. intros k i Hin Hi.
  apply H. destruct (Z_lt_le_dec k (day_start ts)) as [Hk|]; [|assumption]. specialize (Hl k i Hin Hk). lia.
Qed.

Lemma only_stake_eq x y z : only_stake x y -> only_stake x z -> m_share (wm y) = m_share (wm z) -> wm_diffs y = wm_diffs z -> y = z.
Proof.
  intros ((A1 & A2 & A3 & A4 & A5) & A6 & A7 & A8) ((B1 & B2 & B3 & B4 & B5) & B6 & B7 & B8) E1 E2.
  destruct y as [[] dy], z as [[] dz]. cbn in *. congruence.
Qed.

Section env.
Context (e : env) (Henv : env_ok e).

Lemma min_asc now L k m : reached e now L -> is_mining e L k m -> ascending (wm_diffs m).
Proof. intros HR [A B]. destruct (reached_ok e Henv _ _ HR) as (O & _). apply (ok_mining e now L k m O A B). Qed.

(** ** C73 *)
(** what the two outcomes have in common *)
Definition free_of (A B : ledger) (P k D D' x : Z) : Prop :=
  data_of A k = data_of B k /\
  exists wa wb, is_pool e A P wa /\ is_pool e B P wb /\ only_total wa wb /\ wp_diffs wb = wp_diffs wa /\
     p_total (wp wa) - if_other D k x = p_total (wp wb) - if_other D' k x.

Lemma only_total_both w a b : only_total w a -> only_total w b -> only_total a b.
Proof. unfold only_total. intuition congruence. Qed.

Lemma free_deposit now ts ms ms' a p o d o' d' L A B ra rb P k D D' :
  reached e now L -> now <= ts -> is_u64 ts -> is_u64 a -> reached e ts A -> reached e ts B ->
  exec e ts ms (DepositMining a p o d) L = Ok (A, ra) -> exec e ts ms' (DepositMining a p o' d') L = Ok (B, rb) ->
  account_at ms 0 P -> account_at ms' 0 P -> account_at ms 1 k -> account_at ms' 1 k ->
  account_at ms 3 D -> account_at ms' 3 D' -> free_of A B P k D D' a.
Proof.
  intros HR Hts Hu Ha HRA HRB XA XB P0 P0' K1 K1' D3 D3'.
  apply (deposit_on_ledger e Henv now) in XA; [|assumption..]. apply (deposit_on_ledger e Henv now) in XB; [|assumption..].
  destruct XA as (P1 & k1 & D1 & w & m & m1 & wa & ma & B0 & B1 & B3 & Pw & Mk & Pwa & Mka & _ & R & OS & Sh & SM & OT & HT & SP & _).
  destruct XB as (P2 & k2 & D2 & w2 & m2 & m3 & wb & mb & C0 & C1 & C3 & Pw2 & Mk2 & Pwb & Mkb & _ & R2 & OS2 & Sh2 & SM2 & OT2 & HT2 & SP2 & _).
  rewrite (same_place _ _ _ _ B0 P0), (same_place _ _ _ _ B1 K1), (same_place _ _ _ _ B3 D3) in *.
  rewrite (same_place _ _ _ _ C0 P0'), (same_place _ _ _ _ C1 K1'), (same_place _ _ _ _ C3 D3') in *.
  rewrite (same_pool e _ _ _ _ Pw2 Pw), (same_min e _ _ _ _ Mk2 Mk) in *.
  rewrite (refreshed_unique _ _ _ _ _ R2 R) in *.
  split.
  - destruct Mka as [Oa Ea], Mkb as [Ob Eb]. rewrite Ea, Eb. f_equal. apply (only_stake_eq m1); [exact OS|exact OS2|congruence|].
    eapply scheduled_fun; [exact SM|exact SM2|eapply min_asc; [exact HRA|split; eassumption]|eapply min_asc; [exact HRB|split; eassumption]].
  - exists wa, wb. split; [exact Pwa|]. split; [exact Pwb|]. split; [eapply only_total_both; eassumption|].
    split; [|lia]. eapply scheduled_fun; [exact SP2|exact SP|eapply pool_asc; [exact Henv|exact HRB|exact Pwb]|eapply pool_asc; [exact Henv|exact HRA|exact Pwa]].
Qed.

Lemma free_withdraw now ts ms ms' a o d o' d' L A B ra rb P k D D' :
  reached e now L -> now <= ts -> is_u64 ts -> is_u64 a -> reached e ts A -> reached e ts B ->
  exec e ts ms (WithdrawMining a o d) L = Ok (A, ra) -> exec e ts ms' (WithdrawMining a o' d') L = Ok (B, rb) ->
  account_at ms 0 P -> account_at ms' 0 P -> account_at ms 1 k -> account_at ms' 1 k ->
  account_at ms 3 D -> account_at ms' 3 D' -> free_of A B P k D D' (- a).
Proof.
  intros HR Hts Hu Ha HRA HRB XA XB P0 P0' K1 K1' D3 D3'.
  apply (withdraw_on_ledger e Henv now) in XA; [|assumption..]. apply (withdraw_on_ledger e Henv now) in XB; [|assumption..].
  destruct XA as (P1 & k1 & D1 & w & m & m1 & wa & ma & B0 & B1 & B3 & Pw & Mk & Pwa & Mka & R & OS & _ & Sh & SM & OT & HT & SP & _).
  destruct XB as (P2 & k2 & D2 & w2 & m2 & m3 & wb & mb & C0 & C1 & C3 & Pw2 & Mk2 & Pwb & Mkb & R2 & OS2 & _ & Sh2 & SM2 & OT2 & HT2 & SP2 & _).
  rewrite (same_place _ _ _ _ B0 P0), (same_place _ _ _ _ B1 K1), (same_place _ _ _ _ B3 D3) in *.
  rewrite (same_place _ _ _ _ C0 P0'), (same_place _ _ _ _ C1 K1'), (same_place _ _ _ _ C3 D3') in *.
  rewrite (same_pool e _ _ _ _ Pw2 Pw), (same_min e _ _ _ _ Mk2 Mk) in *.
  rewrite (refreshed_unique _ _ _ _ _ R2 R) in *.
  split.
  - destruct Mka as [Oa Ea], Mkb as [Ob Eb]. rewrite Ea, Eb. f_equal. apply (only_stake_eq m1); [exact OS|exact OS2|congruence|congruence].
  - exists wa, wb. split; [exact Pwa|]. split; [exact Pwb|]. split; [eapply only_total_both; eassumption|].
    split; [congruence|]. unfold if_other in *. destruct (D =? k), (D' =? k); lia.
Qed.

Lemma free_extend now ts ms ms' op np st b a o d o' d' L A B ra rb P k D D' :
  reached e now L -> now <= ts -> is_u64 ts -> is_u64 b -> is_u64 a -> reached e ts A -> reached e ts B ->
  exec e ts ms (ExtendStake op np st b a o d) L = Ok (A, ra) -> exec e ts ms' (ExtendStake op np st b a o' d') L = Ok (B, rb) ->
  account_at ms 0 P -> account_at ms' 0 P -> account_at ms 1 k -> account_at ms' 1 k ->
  account_at ms 3 D -> account_at ms' 3 D' -> free_of A B P k D D' a.
Proof.
  intros HR Hts Hu Hb Ha HRA HRB XA XB P0 P0' K1 K1' D3 D3'.
  apply (extend_on_ledger e Henv now) in XA; [|assumption..]. apply (extend_on_ledger e Henv now) in XB; [|assumption..]. cbv zeta in XA, XB.
  destruct XA as (P1 & k1 & D1 & w & m & m1 & ta & wa & ma & B0 & B1 & B3 & Pw & Mk & Pwa & Mka & _ & _ & R & OS & _ & Sh & Lo & SM & OT & HT & SP & _).
  destruct XB as (P2 & k2 & D2 & w2 & m2 & m3 & tb & wb & mb & C0 & C1 & C3 & Pw2 & Mk2 & Pwb & Mkb & _ & _ & R2 & OS2 & _ & Sh2 & Lo2 & SM2 & OT2 & HT2 & SP2 & _).
  rewrite (same_place _ _ _ _ B0 P0), (same_place _ _ _ _ B1 K1), (same_place _ _ _ _ B3 D3) in *.
  rewrite (same_place _ _ _ _ C0 P0'), (same_place _ _ _ _ C1 K1'), (same_place _ _ _ _ C3 D3') in *.
  rewrite (same_pool e _ _ _ _ Pw2 Pw), (same_min e _ _ _ _ Mk2 Mk) in *.
  rewrite (refreshed_unique _ _ _ _ _ R2 R) in *.
  assert (Am : ascending (wm_diffs m1)) by (rewrite (rf_diffs _ _ _ _ R); apply ascending_after; eapply min_asc; [exact HR|exact Mk]).
  assert (tb = ta) as ->.
  { destruct (unexpired op st ts); [|congruence]. eapply lowered_fun; [exact Am|exact Lo2|exact Lo]. }
  split.
  - destruct Mka as [Oa Ea], Mkb as [Ob Eb]. rewrite Ea, Eb. f_equal. apply (only_stake_eq m1); [exact OS|exact OS2|congruence|].
    eapply scheduled_fun; [exact SM|exact SM2|eapply min_asc; [exact HRA|split; eassumption]|eapply min_asc; [exact HRB|split; eassumption]].
  - exists wa, wb. split; [exact Pwa|]. split; [exact Pwb|]. split; [eapply only_total_both; eassumption|].
    split; [|lia]. eapply scheduled_fun; [exact SP2|exact SP|eapply pool_asc; [exact Henv|exact HRB|exact Pwb]|eapply pool_asc; [exact Henv|exact HRA|exact Pwa]].
Qed.

Lemma delegate_free now ts ms ms' i j L A B ra rb P k D D' :
  reached e now L -> now <= ts -> is_u64 ts -> ix_in_range i -> ix_in_range j -> other_delegate i j ->
  exec e ts ms i L = Ok (A, ra) -> exec e ts ms' j L = Ok (B, rb) ->
  account_at ms 0 P -> account_at ms' 0 P -> account_at ms 1 k -> account_at ms' 1 k ->
  account_at ms 3 D -> account_at ms' 3 D' ->
  data_of A k = data_of B k /\
  (exists wa wb, is_pool e A P wa /\ is_pool e B P wb /\ only_total wa wb /\ wp_diffs wb = wp_diffs wa /\
     p_total (wp wa) - if_other D k (handed i) = p_total (wp wb) - if_other D' k (handed i)) /\
  (forall q, q <> P -> q <> k -> q <> D -> q <> D' -> acc A q = acc B q).
Proof.
  intros HR Hts Hu Ri Rj OD XA XB P0 P0' K1 K1' D3 D3'.
  pose proof (reached_exec e now ts ms i L A ra HR Hts Hu Ri XA) as HRA.
  pose proof (reached_exec e now ts ms' j L B rb HR Hts Hu Rj XB) as HRB.
  assert (Hmay : may_change i = [0; 1; 3]%nat /\ may_change j = [0; 1; 3]%nat) by (destruct OD; split; reflexivity).
  destruct Hmay as [Mi Mj].
  assert (Hrest : forall q, q <> P -> q <> k -> q <> D -> q <> D' -> acc A q = acc B q).
  { intros q N1 N2 N3 N4.
    assert (EA : acc A q = acc L q).
    { destruct (decide (acc A q = acc L q)) as [E|NE]; [exact E|exfalso].
      destruct (changed_named e _ _ _ _ _ _ _ XA NE) as [(n & Hin & Hat) _]. rewrite Mi in Hin.
      destruct Hin as [<-|[<-|[<-|[]]]]; [apply N1|apply N2|apply N3]; eapply same_place; eassumption. }
    assert (EB : acc B q = acc L q).
    { destruct (decide (acc B q = acc L q)) as [E|NE]; [exact E|exfalso].
      destruct (changed_named e _ _ _ _ _ _ _ XB NE) as [(n & Hin & Hat) _]. rewrite Mj in Hin.
      destruct Hin as [<-|[<-|[<-|[]]]]; [apply N1|apply N2|apply N4]; eapply same_place; eassumption. }
    congruence. }
  assert (H : free_of A B P k D D' (handed i)).
  { destruct OD as [a p o d d'|a o d d'|op np st b a o d d']; cbn [handed].
    - apply (free_deposit now ts ms ms' a p o d o d' L A B ra rb); try assumption. apply Ri.
    - apply (free_withdraw now ts ms ms' a o d o d' L A B ra rb); try assumption. apply Ri.
    - apply (free_extend now ts ms ms' op np st b a o d o d' L A B ra rb); try assumption; apply Ri. }
  destruct H as [H1 H2]. auto.
Qed.

(** ** C74 *)
Lemma extend_raises now ts ms op np st b a o d L L' r :
  reached e now L -> now <= ts -> is_u64 ts -> ix_in_range (ExtendStake op np st b a o d) ->
  exec e ts ms (ExtendStake op np st b a o d) L = Ok (L', r) ->
  (unexpired op st ts = true -> st <= ts /\ weight_of op <= weight_of np) ->
  exists P k w m m', account_at ms 0 P /\ account_at ms 1 k /\ is_pool e L P w /\ is_mining e L k m /\ is_mining e L' k m' /\
    m_unclaimed (wm m') = tokens_at ts (wp_ci w) m /\ m_index (wm m') = visible ts (wp_ci w) /\
    (forall x, day_start ts <= x -> eff m x + a <= eff m' x) /\
    (forall ci', later_history ts (visible ts (wp_ci w)) ci' ->
       accrual (visible ts (wp_ci w)) (eff m) ci' <= accrual (visible ts (wp_ci w)) (eff m') ci').
Proof.
  intros HR Hts Hu Ri X Hc. pose proof (reached_exec e now ts ms _ L L' r HR Hts Hu Ri X) as HR'.
  destruct Ri as (_ & Hb & Ha & _).
  apply (extend_on_ledger e Henv now) in X; [|assumption..]. cbv zeta in X.
  destruct X as (P & k & D & w & m & m1 & t & w' & m' & B0 & B1 & _ & Pw & Mk & _ & Mk' & Nop & Nnp & R & (S1 & S2 & S3 & S4) & _ & Sh & Lo & SM & _).
  exists P, k, w, m, m'. do 5 (split; [assumption|]).
  split; [rewrite S3, (rf_unclaimed _ _ _ _ R); reflexivity|].
  split; [rewrite S2; apply R|].
  pose proof (min_asc _ _ _ _ HR Mk) as Am. pose proof (min_asc _ _ _ _ HR' Mk') as Am'.
  assert (Am1 : ascending (wm_diffs m1)) by (rewrite (rf_diffs _ _ _ _ R); apply ascending_after; exact Am).
  assert (H : forall x, day_start ts <= x -> eff m x + a <= eff m' x).
  { intros x Hx. unfold eff. rewrite Sh, S4, (rf_share _ _ _ _ R), (rf_sfo _ _ _ _ R).
    pose proof (due_after (day_start ts) x (wm_diffs m) Hx) as Ed. rewrite <- (rf_diffs _ _ _ _ R) in Ed.
    unfold is_u64 in *.
    assert (Hw : forall q, q <> LNone -> 1 <= weight_of q) by (intros []; cbn; try contradiction; lia).
    pose proof (Hw np Nnp) as Hwn. pose proof (Hw op Nop) as Hwo.
    assert (At : ascending t).
    { destruct (unexpired op st ts); [destruct Lo as (_ & _ & Hk & _); eapply WfLemmas.ascending_keys; [symmetry; exact Hk|exact Am1]|subst t; exact Am1]. }
    assert (Hx0 : 0 <= (b + a) * (weight_of np - 1)) by (apply Z.mul_nonneg_nonneg; lia).
    pose proof (scheduled_most _ _ _ _ _ x At Am' Hx0 SM) as Hd.
    destruct (unexpired op st ts) eqn:Eu.
    - rewrite (lowered_less _ _ _ _ x Am1 Lo) in Hd. destruct (Hc eq_refl) as [Hst Hwt].
      assert (Hexp : expiry op st <= expiry np ts).
      { unfold expiry. assert (day_start st <= day_start ts) by (unfold day_start; apply Z.mul_le_mono_nonneg_r; [lia|apply Z.div_le_mono; lia]).
        assert (days_of op <= days_of np) by (destruct op, np; cbn in *; try lia; contradiction). lia. }
      destruct (Z.leb_spec (expiry np ts) x), (Z.leb_spec (expiry op st) x); nia.
    - subst t. destruct (Z.leb_spec (expiry np ts) x); nia. }
  split; [exact H|].
  intros ci' Hl. apply (later_more ts); [exact Hl|]. intros x Hx. specialize (H x Hx). unfold is_u64 in Ha. lia.
Qed.

(** ** C75 *)
Lemma extend_is_restake now ts ms1 ms2 ms3 op np st b a o d L E L1 L2 r1 r2 r3 P k D :
  reached e now L -> now <= ts -> is_u64 ts -> ix_in_range (ExtendStake op np st b a o d) -> is_u64 (b + a) ->
  unexpired op st ts = false ->
  exec e ts ms1 (ExtendStake op np st b a o d) L = Ok (E, r1) ->
  exec e ts ms2 (WithdrawMining b o d) L = Ok (L1, r2) ->
  exec e ts ms3 (DepositMining (b + a) np o d) L1 = Ok (L2, r3) ->
  (forall ms, ms = ms1 \/ ms = ms2 \/ ms = ms3 -> account_at ms 0 P /\ account_at ms 1 k /\ account_at ms 3 D) ->
  (forall q, q <> P -> q <> k -> q <> D -> acc L2 q = acc E q) /\ data_of L2 k = data_of E k /\ data_of L2 D = data_of E D /\
  exists w we w2, is_pool e L P w /\ is_pool e E P we /\ is_pool e L2 P w2 /\
    only_total we w2 /\ p_total (wp w2) = p_total (wp we) - due (day_start ts) (wp_diffs we) /\
    (has_date (expiry np ts) (wp_diffs w) \/ Z.of_nat (length (wp_diffs w)) < 365 -> only_expired ts we w2).
Proof.
  intros HR Hts Hu Ri Hba Hun XE XW XD Hat.
  destruct (Hat ms1 (or_introl eq_refl)) as (P0 & K1 & D3).
  destruct (Hat ms2 (or_intror (or_introl eq_refl))) as (P0' & K1' & D3').
  destruct (Hat ms3 (or_intror (or_intror eq_refl))) as (P0'' & K1'' & D3''). clear Hat.
  assert (Rw : ix_in_range (WithdrawMining b o d)) by (cbn in *; tauto).
  assert (Rd : ix_in_range (DepositMining (b + a) np o d)) by (cbn in *; tauto).
  pose proof (reached_exec e now ts ms1 _ L E r1 HR Hts Hu Ri XE) as HRE.
  pose proof (reached_exec e now ts ms2 _ L L1 r2 HR Hts Hu Rw XW) as HR1.
  pose proof (reached_exec e ts ts ms3 _ L1 L2 r3 HR1 (Z.le_refl _) Hu Rd XD) as HR2.
  assert (Hrest : forall q, q <> P -> q <> k -> q <> D -> acc L2 q = acc E q).
  { intros q N1 N2 N3.
    assert (EE : acc E q = acc L q).
    { destruct (decide (acc E q = acc L q)) as [Eq|NE]; [exact Eq|exfalso].
      destruct (changed_named e _ _ _ _ _ _ _ XE NE) as [(n & Hin & Hat) _]. cbn [may_change In] in Hin.
      destruct Hin as [<-|[<-|[<-|[]]]]; [apply N1|apply N2|apply N3]; eapply same_place; eassumption. }
    assert (E1 : acc L1 q = acc L q).
    { destruct (decide (acc L1 q = acc L q)) as [Eq|NE]; [exact Eq|exfalso].
      destruct (changed_named e _ _ _ _ _ _ _ XW NE) as [(n & Hin & Hat) _]. cbn [may_change In] in Hin.
      destruct Hin as [<-|[<-|[<-|[]]]]; [apply N1|apply N2|apply N3]; eapply same_place; eassumption. }
    assert (E2 : acc L2 q = acc L1 q).
    { destruct (decide (acc L2 q = acc L1 q)) as [Eq|NE]; [exact Eq|exfalso].
      destruct (changed_named e _ _ _ _ _ _ _ XD NE) as [(n & Hin & Hat) _]. cbn [may_change In] in Hin.
      destruct Hin as [<-|[<-|[<-|[]]]]; [apply N1|apply N2|apply N3]; eapply same_place; eassumption. }
    congruence. }
  destruct Ri as (_ & Hb & Ha & _).
  apply (extend_on_ledger e Henv now) in XE; [|assumption..]. cbv zeta in XE. rewrite Hun in XE.
  apply (withdraw_on_ledger e Henv now) in XW; [|assumption..]. apply (deposit_on_ledger e Henv ts) in XD; [|assumption || apply Z.le_refl..].
  destruct XE as (P1 & k1 & D1 & w & m & m1 & ta & we & me & B0 & B1 & B3 & Pw & Mk & Pwe & Mke & _ & _ & R & OS & _ & Sh & Lo & SM & OT & HT & SP & DE).
  destruct XW as (P2 & k2 & D2 & w1 & m2 & m3 & w1' & mb & C0 & C1 & C3 & Pw1 & Mk1 & Pwb & Mkb & R1 & OS1 & _ & Sh1 & SM1 & OT1 & HT1 & SP1 & DW & _).
  destruct XD as (P3 & k3 & D4 & w2 & m4 & m5 & w2' & mc & F0 & F1 & F3 & Pw2 & Mk2 & Pwc & Mkc & Np & R2 & OS2 & Sh2 & SM2 & OT2 & HT2 & SP2 & DD).
  rewrite (same_place _ _ _ _ B0 P0), (same_place _ _ _ _ B1 K1), (same_place _ _ _ _ B3 D3) in *. clear B0 B1 B3.
  rewrite (same_place _ _ _ _ C0 P0'), (same_place _ _ _ _ C1 K1'), (same_place _ _ _ _ C3 D3') in *. clear C0 C1 C3.
  rewrite (same_place _ _ _ _ F0 P0''), (same_place _ _ _ _ F1 K1''), (same_place _ _ _ _ F3 D3'') in *. clear F0 F1 F3.
  rewrite (same_pool e _ _ _ _ Pw1 Pw), (same_min e _ _ _ _ Mk1 Mk) in *.
  rewrite (refreshed_unique _ _ _ _ _ R1 R) in *.
  rewrite (same_pool e _ _ _ _ Pw2 Pwb), (same_min e _ _ _ _ Mk2 Mkb) in *. clear Pw1 Mk1 Pw2 Mk2 R1.
  assert (Eci : wp_ci w1' = wp_ci w) by apply OT1. rewrite Eci in *.
  assert (Hm5 : m5 = mb).
  { eapply again_same; [| |exact R2].
    - destruct OS1 as (_ & -> & _). apply R.
    - rewrite SM1, (rf_diffs _ _ _ _ R). apply dates_after. }
  rewrite Hm5 in *. subst ta.
  assert (Emin : mc = me).
  { destruct OS1 as ((Q1 & Q2 & Q3 & Q4 & Q5) & Q6 & Q7 & Q8), OS2 as ((T1 & T2 & T3 & T4 & T5) & T6 & T7 & T8), OS as ((U1 & U2 & U3 & U4 & U5) & U6 & U7 & U8).
    assert (ED : wm_diffs mc = wm_diffs me).
    { rewrite SM1 in SM2. eapply scheduled_fun; [exact SM2|exact SM|eapply min_asc; [exact HR2|exact Mkc]|eapply min_asc; [exact HRE|exact Mke]]. }
    assert (ES : m_share (wm mc) = m_share (wm me)) by lia.
    destruct mc as [[] dc], me as [[] de]. cbn in *. congruence. }
  split; [exact Hrest|].
  split; [destruct Mkc as [_ ->], Mke as [_ ->]; congruence|].
  split.
  { destruct (Z.eq_dec D k) as [->|ND]; [destruct Mkc as [_ ->], Mke as [_ ->]; congruence|].
    destruct DE as [DE|(_ & x & y & Mx & My & _ & y1 & Rx & Ey)]; [contradiction|].
    destruct DW as [DW|(_ & x1 & z & Mx1 & Mz & _ & Rz)]; [contradiction|].
    destruct DD as [DD|(_ & z1 & v & Mz1 & Mv & _ & Rv)]; [contradiction|].
    rewrite (same_min e _ _ _ _ Mx1 Mx) in *. rewrite (same_min e _ _ _ _ Mz1 Mz) in *.
    rewrite (refreshed_unique _ _ _ _ _ Rz Rx) in *.
    assert (v = with_delegated y1 (m_sfo (wm y1) + (b + a))) as Ev.
    { eapply again_same; [| |exact Rv]; cbn; [apply Rx|]. rewrite (rf_diffs _ _ _ _ Rx). apply dates_after. }
    destruct My as [_ ->], Mv as [_ ->]. rewrite Ev, Ey, (rf_sfo _ _ _ _ Rx). cbn [with_delegated wm m_sfo]. do 2 f_equal. lia. }
  exists w, we, w2'. do 3 (split; [assumption|]).
  assert (HOT : only_total we w2') by (unfold only_total in *; intuition congruence).
  assert (Hdue : due (day_start ts) (wp_diffs we) = due (day_start ts) (wp_diffs w)).
  { eapply scheduled_early; [eapply pool_asc; [exact Henv|exact HR|exact Pw]|eapply pool_asc; [exact Henv|exact HRE|exact Pwe]|apply expiry_later; exact Np|exact SP]. }
  assert (HTT : p_total (wp w2') = p_total (wp we) - due (day_start ts) (wp_diffs we)).
  { rewrite Hdue. unfold if_other in *. destruct (D =? k); lia. }
  split; [exact HOT|]. split; [exact HTT|]. intros Hroom. split; [exact HOT|]. split; [exact HTT|].
  intros x. rewrite at_after. destruct SP as [SP _]. destruct (SP Hroom) as [SP' _].
  destruct SP2 as [SP2 _]. rewrite SP1 in SP2.
  pose proof (expiry_later np ts Np) as Hex.
  assert (Hroom2 : has_date (expiry np ts) (after (day_start ts) (wp_diffs w)) \/ Z.of_nat (length (after (day_start ts) (wp_diffs w))) < 365).
  { destruct Hroom as [[v Hr]|Hr]; [left; exists v; apply in_after; auto|right].
    pose proof (length_after (day_start ts) (wp_diffs w)). lia. }
  destruct (SP2 Hroom2) as [V2 _]. rewrite V2, at_after, SP'.
  destruct (Z.leb_spec x (day_start ts)), (Z.eqb_spec x (expiry np ts)); lia.
Qed.
End env.
