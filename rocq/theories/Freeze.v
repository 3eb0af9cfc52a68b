(** Proofs of C78: a mining ahead of its pool is frozen, and a stranger can put it there. *)
From stdpp Require Import gmap.
From Verif Require Import Base OMap State Spec EffectSpec Ledger Program ResLemmas TreeLemmas AccrualLemmas RefreshLemmas WfLemmas LedgerLemmas LedgerSpec
  CodecLemmas History HistoryLemmas Changes AccessLemmas HistoryThms ReachThms EffectLemmas EffectMethods EffectThms EffectMore
  SuccessSpec SuccessThms LedgerCore Determined Commute Complete PowerSpec Powers FreezeSpec.

Section env.
Context (e : env) (Henv : env_ok e).

(** what a refresh sees never exceeds the pool's index *)
Lemma visible_le_index now L P w ts : ledger_ok e now L -> is_pool e L P w -> visible ts (wp_ci w) <= p_index (wp w).
Proof.
  intros HL [Ho Hd]. pose proof (ok_pool e now L P w HL Ho Hd) as W.
  pose proof (visible_bounds 0 ts _ (pw_ci_grow _ _ W)). pose proof (pw_ci_last _ _ W). unfold visible. lia.
Qed.

Lemma at_in ms l n k : accounts_are ms l -> account_at ms n k -> (n < length l)%nat -> nth_error l n = Some k.
Proof. intros A B C. eapply account_in; eassumption. Qed.

Ltac position Hms H :=
  let X := fresh "X" in pose proof (at_in _ _ _ _ Hms H) as X; cbn in X;
  specialize (X ltac:(lia)); injection X as ->.


(** what stands in the way of a refresh at [ts] *)
Definition blocked (ts : Z) (w : wpool) (m : wmining) : Prop :=
  visible ts (wp_ci w) < m_index (wm m) \/ exists d, d <= day_start ts /\ stuck_at d w m.
Lemma ahead_blocked now L P w m ts : ledger_ok e now L -> is_pool e L P w -> ahead w m -> blocked ts w m.
Proof. intros HL Hw Ha. left. pose proof (visible_le_index now L P w ts HL Hw). unfold ahead in Ha. lia. Qed.

Lemma blocked_refused now ts ms i L P k w m n :
  reached e now L -> now <= ts -> ix_in_range i ->
  is_pool e L P w -> is_mining e L k m -> blocked ts w m ->
  account_at ms (pool_position i) P -> In n (worked_on i) -> account_at ms n k ->
  exists er, exec e ts ms i L = Err er.
Proof.
  intros HR Hts Hi Hw Hm Ha HP Hn Hk. destruct (exec e ts ms i L) as [[L' r]|er] eqn:X; [exfalso|eauto].
  pose proof (only_allowed e Henv _ _ _ _ _ _ _ HR Hts Hi X) as A. clear X.
  assert (NR : forall x, m_index (wm x) = m_index (wm m) -> wm_diffs x = wm_diffs m -> ~ can_refresh ts (wp_ci w) x).
  { intros x E F C. destruct Ha as [Ha|(d & Hd & (v & Hin) & Hv)].
    - pose proof (cr_index _ _ _ C). lia.
    - rewrite <- F in Hin. pose proof (cr_first _ _ _ C d v Hin Hd). lia. }
  destruct i; cbn [worked_on pool_position In] in *; try tauto; cbn [allowed] in A.
  - (* deposit *)
    destruct A as (p & q & au & dm & w1 & m1 & d & Hms & [Sp Sm _ _ _ _ _] & [D _] & _ & C & _ & _ & _ & _ & _ & _ & J).
    position Hms HP. rewrite (pool_fun e _ _ _ _ Sp Hw) in *.
    destruct (Z.eq_dec k q) as [->|Hkq]; [apply (NR m1); [rewrite (mining_fun e _ _ _ _ Sm Hm); reflexivity..|exact C]|].
    destruct Hn as [<-|[<-|[]]]; position Hms Hk; [congruence|].
    destruct D as [[H _]|(_ & x & Hx & ->)]; [congruence|]. destruct J as (_ & _ & J).
    apply (NR _) in J; [exact J| |]; cbn; rewrite (mining_fun e _ _ _ _ Hx Hm); reflexivity.
  - (* withdraw *)
    destruct A as (p & q & au & dm & w1 & m1 & d & Hms & [Sp Sm _ _ _ _ _] & [D _] & C & _ & _ & J).
    position Hms HP. rewrite (pool_fun e _ _ _ _ Sp Hw) in *.
    destruct (Z.eq_dec k q) as [->|Hkq]; [apply (NR m1); [rewrite (mining_fun e _ _ _ _ Sm Hm); reflexivity..|exact C]|].
    destruct Hn as [<-|[<-|[]]]; position Hms Hk; [congruence|].
    destruct D as [[H _]|(_ & x & Hx & ->)]; [congruence|]. destruct J as (_ & _ & J).
    apply (NR _) in J; [exact J| |]; cbn; rewrite (mining_fun e _ _ _ _ Hx Hm); reflexivity.
  - (* claim *)
    destruct A as (p & mi & va & q & ow & au & de & w1 & m1 & t & Hms & Sp & Sm & _ & _ & _ & _ & _ & _ & _ & _ & _ & _ & _ & C & _).
    position Hms HP. rewrite (pool_fun e _ _ _ _ Sp Hw) in *.
    destruct Hn as [<-|[]]. position Hms Hk.
    apply (NR m1); [rewrite (mining_fun e _ _ _ _ Sm Hm); reflexivity..|exact C].
  - (* extend *)
    destruct A as (p & q & au & dm & w1 & m1 & d & Hms & [Sp Sm _ _ _ _ _] & [D _] & _ & _ & C & _ & _ & _ & _ & _ & _ & _ & _ & _ & _ & _ & J & _).
    position Hms HP. rewrite (pool_fun e _ _ _ _ Sp Hw) in *.
    destruct (Z.eq_dec k q) as [->|Hkq]; [apply (NR m1); [rewrite (mining_fun e _ _ _ _ Sm Hm); reflexivity..|exact C]|].
    destruct Hn as [<-|[<-|[]]]; position Hms Hk; [congruence|].
    destruct D as [[H _]|(_ & x & Hx & ->)]; [congruence|]. destruct J as (_ & _ & J).
    apply (NR _) in J; [exact J| |]; cbn; rewrite (mining_fun e _ _ _ _ Hx Hm); reflexivity.
  - (* close *)
    destruct A as (q & ow & tg & au & p & w1 & m1 & Hms & Sp & Sm & _ & _ & _ & _ & _ & C & _).
    position Hms HP. rewrite (pool_fun e _ _ _ _ Sp Hw) in *.
    destruct Hn as [<-|[]]. position Hms Hk.
    apply (NR m1); [rewrite (mining_fun e _ _ _ _ Sm Hm); reflexivity..|exact C].
  - (* change *)
    destruct A as (p & q & au & ow & od & nd & w1 & m1 & o & d & Hms & [Sp Sm _ _ _ _ _] & _ & _ & O & [D _] & C & JO & JN).
    position Hms HP. rewrite (pool_fun e _ _ _ _ Sp Hw) in *.
    destruct (Z.eq_dec k q) as [->|Hkq]; [apply (NR m1); [rewrite (mining_fun e _ _ _ _ Sm Hm); reflexivity..|exact C]|].
    destruct Hn as [<-|[<-|[<-|[]]]]; position Hms Hk; [congruence| |].
    + destruct O as [[H _]|(_ & x & Hx & ->)]; [congruence|]. destruct JO as (_ & _ & J).
      apply (NR _) in J; [exact J| |]; cbn; rewrite (mining_fun e _ _ _ _ Hx Hm); reflexivity.
    + destruct D as [[H _]|(_ & x & Hx & ->)]; [congruence|]. destruct JN as (_ & _ & J).
      apply (NR _) in J; [exact J| |]; cbn; rewrite (mining_fun e _ _ _ _ Hx Hm); reflexivity.
  - (* slash *)
    destruct A as (au & p & q & w1 & m1 & Hms & [Sp Sm _ _ _ _ _] & (C & _) & _).
    position Hms HP. rewrite (pool_fun e _ _ _ _ Sp Hw) in *.
    destruct Hn as [<-|[]]. position Hms Hk.
    apply (NR m1); [rewrite (mining_fun e _ _ _ _ Sm Hm); reflexivity..|exact C].
Qed.

Lemma frozen_refused now ts ms i L P k w m n :
  reached e now L -> now <= ts -> ix_in_range i ->
  is_pool e L P w -> is_mining e L k m -> ahead w m ->
  account_at ms (pool_position i) P -> In n (worked_on i) -> account_at ms n k ->
  exists er, exec e ts ms i L = Err er.
Proof.
  intros HR Hts Hi Hw Hm Ha. destruct (reached_ok e Henv _ _ HR) as (HL & _ & _).
  apply (blocked_refused now ts ms i L P k w m n HR Hts Hi Hw Hm). eapply ahead_blocked; eassumption.
Qed.
Lemma stuck_refused now ts ms i L P k w m n d :
  reached e now L -> now <= ts -> ix_in_range i ->
  is_pool e L P w -> is_mining e L k m -> d <= day_start ts -> stuck_at d w m ->
  account_at ms (pool_position i) P -> In n (worked_on i) -> account_at ms n k ->
  exists er, exec e ts ms i L = Err er.
Proof.
  intros HR Hts Hi Hw Hm Hd Hs. apply (blocked_refused now ts ms i L P k w m n HR Hts Hi Hw Hm). right. exists d. auto.
Qed.

Lemma only_lowered_refl m : only_lowered m m.
Proof. unfold only_lowered. repeat (split; [reflexivity|]). lia. Qed.
Lemma only_lowered_trans a b c : only_lowered a b -> only_lowered b c -> only_lowered a c.
Proof.
  intros (A1 & A2 & A3 & A4 & A5 & A6 & A7 & A8) (B1 & B2 & B3 & B4 & B5 & B6 & B7 & B8).
  unfold only_lowered. repeat (split; [congruence|]). lia.
Qed.

Lemma not_system L k m : is_mining e L k m -> owner_of L k <> system_id.
Proof. intros [H _] E. apply (eo_sys _ Henv). congruence. Qed.
Lemma not_token L k m : is_mining e L k m -> owner_of L k <> spl_token_id e.
Proof. intros [H _] E. apply (eo_tok _ Henv). congruence. Qed.
Lemma not_pool L k m w : is_mining e L k m -> ~ is_pool e L k w.
Proof. intros [_ H] [_ H']. congruence. Qed.

(** one instruction leaves a frozen mining as it is, but for a DecreaseRewards *)
Lemma exec_frozen (Hinj : env_inj e) now ts ms i L L' r P k w m :
  reached e now L -> now <= ts -> ix_in_range i -> exec e ts ms i L = Ok (L', r) ->
  is_pool e L P w -> is_mining e L k m -> m_type (wm m) = TYPE_MINING -> m_pool (wm m) = P -> blocked ts w m ->
  ~ unchecked k (EvIx ts ms i) ->
  exists m', is_mining e L' k m' /\ only_lowered m m' /\ lamports_of L' k = lamports_of L k.
Proof.
  intros HR Hts Hi X Hw Hm Ht Hp Ha Hu.
  assert (Same : acc L' k = acc L k -> exists m', is_mining e L' k m' /\ only_lowered m m' /\ lamports_of L' k = lamports_of L k).
  { intros E. exists m. unfold is_mining, owner_of, data_of, lamports_of in *. rewrite E. split; [exact Hm|].
    split; [apply only_lowered_refl|reflexivity]. }
  destruct (decide (acc L' k = acc L k)) as [E|Hc]; [auto|].
  destruct (pool_named e _ _ _ _ _ _ X) as [Q HQ].
  destruct (Z.eq_dec P Q) as [<-|HPQ].
  2: { apply Same. apply (other_minings e Henv Hinj now ts ms i L L' r Q k m); try assumption; [congruence|].
       intros [[(a & b & ->) H]|[-> H]]; apply Hu; exact H. }
  destruct (changed_named _ _ _ _ _ _ _ _ X Hc) as [(n & Hn & Hk) _].
  assert (Hw' : ~ In n (worked_on i)).
  { intros Hin. destruct (blocked_refused now ts ms i L P k w m n HR Hts Hi Hw Hm Ha HQ Hin Hk) as [er H]. congruence. }
  pose proof (only_allowed e Henv _ _ _ _ _ _ _ HR Hts Hi X) as A.
  destruct (reached_ok e Henv _ _ HR) as (HL & _ & _).
  assert (HkP : k <> P) by (intros ->; exact (not_pool _ _ _ _ Hm Hw)).
  destruct i; cbn [may_change worked_on In pool_position allowed] in *; try (exfalso; tauto).
  - destruct A as (p & mi & va & pa & au & w1 & Hms & _ & _ & _ & _ & _ & (_ & V & _) & (_ & S & _) & _).
    position Hms HQ. exfalso. destruct Hn as [<-|[<-|[<-|[]]]]; position Hms Hk; [congruence| |]; exact (not_system _ _ _ Hm ltac:(assumption)).
  - destruct A as (p & mi & va & au & so & w1 & Hms & _ & _ & V & S & _).
    position Hms HQ. exfalso. destruct Hn as [<-|[<-|[<-|[]]]]; position Hms Hk; [congruence| |]; exact (not_token _ _ _ Hm ltac:(assumption)).
  - destruct A as (p & q & pa & Hms & _ & _ & (_ & V & _) & (_ & S & _) & _).
    position Hms HQ. exfalso. destruct Hn as [<-|[<-|[]]]; position Hms Hk; exact (not_system _ _ _ Hm ltac:(assumption)).
  - destruct Hn as [<-|Hn]; [|exfalso; tauto]. exfalso. unfold account_at in *. congruence.
  - destruct Hn as [<-|Hn]; [|exfalso; tauto]. exfalso. unfold account_at in *. congruence.
  - destruct A as (p & mi & va & q & ow & au & de & w1 & m1 & t & Hms & _ & _ & _ & V & D & _).
    position Hms HQ. exfalso. destruct Hn as [<-|[<-|[<-|[]]]]; [| tauto |]; position Hms Hk; exact (not_token _ _ _ Hm ltac:(assumption)).
  - destruct Hn as [<-|Hn]; [|exfalso; tauto]. exfalso. unfold account_at in *. congruence.
  - destruct Hn as [<-|[]]. exfalso. unfold account_at in *. congruence.
  - destruct A as (q & ow & tg & au & p & w1 & m1 & Hms & _ & _ & T & _).
    exfalso. destruct Hn as [<-|[<-|[]]]; [tauto|]. position Hms Hk. exact (not_system _ _ _ Hm T).
  - destruct Hn as [<-|Hn]; [|exfalso; tauto]. exfalso. unfold account_at in *. congruence.
  - destruct Hn as [<-|[<-|[]]]; [|exfalso; tauto]. exfalso. unfold account_at in *. congruence.
  - destruct Hn as [<-|[]].
    destruct (exec_mining e Henv now ts ms _ L L' r k m Hts HL X Hm) as (m2 & M2 & _ & Hl); [intros [? _]; discriminate|].
    apply (decrease_on_ledger e Henv now) in X; [|exact HR|apply Hi].
    destruct X as (P1 & k1 & w1 & m1 & m' & H1 & H2 & _ & Hm1 & _ & Hm' & ((S1 & S2 & S3 & S4 & S5) & I & U & F) & N & Sh & K & _).
    assert (k1 = k) as -> by (unfold account_at in *; congruence).
    rewrite (mining_fun e _ _ _ _ Hm1 Hm) in *. exists m'. split; [exact Hm'|]. split; [|exact Hl].
    unfold only_lowered. split; [exact S2|]. split; [exact S1|]. split; [exact S5|]. split; [exact I|]. split; [exact U|].
    split; [exact F|]. split; [exact K|]. cbn in Hi. unfold is_u64 in Hi. lia.
Qed.

(** one event *)
Lemma step_frozen (Hinj : env_inj e) P k now L ev L1 w m :
  step e now L ev L1 -> reached e now L -> is_pool e L P w -> p_type (wp w) = TYPE_POOL -> 0 < lamports_of L P ->
  is_mining e L k m -> m_type (wm m) = TYPE_MINING -> m_pool (wm m) = P -> 0 < lamports_of L k ->
  ~ unchecked k ev -> blocked (time_of ev) w m ->
  ~ works_on P k ev /\
  (exists w1, is_pool e L1 P w1 /\ p_type (wp w1) = TYPE_POOL /\ pool_grows (time_of ev) w w1 /\ 0 < lamports_of L1 P) /\
  (exists m1, is_mining e L1 k m1 /\ only_lowered m m1 /\ 0 < lamports_of L1 k).
Proof.
  intros S HR Hw Htw Hlw Hm Ht Hp Hl Hu Hb. destruct (reached_ok e Henv _ _ HR) as (HL & _ & H0).
  destruct S as [ts ms i L1 r Hts _ Hi X|ts L1 _ _ X]; cbn [time_of] in *.
  - split; [|split].
    + intros (HP & n & Hn & Hk).
      destruct (blocked_refused now ts ms i L P k w m n HR Hts Hi Hw Hm Hb HP Hn Hk) as [er H]. congruence.
    + destruct (exec_pool e Henv _ _ _ _ _ _ _ _ _ Hts HL X Hw Htw) as (w1 & A & B & C). exists w1. rewrite C.
      split; [exact A|]. split; [destruct B as [(_ & _ & _ & _ & _ & ->) _]; exact Htw|auto].
    + destruct (exec_frozen Hinj now ts ms i L L1 r P k w m HR Hts Hi X Hw Hm Ht Hp Hb Hu) as (m1 & A & B & C).
      exists m1. rewrite C. auto.
  - split; [intros []|]. destruct (ext_pool e _ _ _ _ X Hw Hlw). destruct (ext_mining e _ _ _ _ X Hm Hl). split.
    + exists w. split; [assumption|]. split; [assumption|]. split; [apply pool_grows_refl|lia].
    + exists m. split; [assumption|]. split; [apply only_lowered_refl|lia].
Qed.

(** over any history *)
Lemma run_frozen (Hinj : env_inj e) P k now L evs now' L' : History.run e now L evs now' L' -> forall w m w',
  reached e now L -> is_pool e L P w -> p_type (wp w) = TYPE_POOL -> 0 < lamports_of L P ->
  is_mining e L k m -> m_type (wm m) = TYPE_MINING -> m_pool (wm m) = P -> 0 < lamports_of L k ->
  (forall ev, In ev evs -> ~ unchecked k ev) ->
  is_pool e L' P w' -> ahead w' m ->
  (exists m', is_mining e L' k m' /\ only_lowered m m') /\ forall ev, In ev evs -> ~ works_on P k ev.
Proof.
  intros R. induction R as [|now L ev L1 evs now' L' S R IH]; intros w m w' HR Hw Htw Hlw Hm Ht Hp Hl Hu Hw' Ha.
  - split; [|intros ? []]. exists m. split; [exact Hm|apply only_lowered_refl].
  - assert (HR1 : reached e (time_of ev) L1) by (eapply (reached_run e); [exact HR|]; econstructor; [exact S|constructor]).
    destruct (reached_ok e Henv _ _ HR) as (HL & _ & H0). destruct (reached_ok e Henv _ _ HR1) as (HL1 & _ & H01).
    assert (Ha0 : ahead w m).
    { destruct (pool_persists e Henv _ _ _ _ _ _ _ (run_cons e _ _ _ _ _ _ _ S R) H0 HL Hw Htw Hlw) as (w2 & A & (_ & B & _) & _).
      rewrite (pool_fun e _ _ _ _ Hw' A) in Ha. unfold ahead in *. lia. }
    destruct (step_frozen Hinj P k now L ev L1 w m S HR Hw Htw Hlw Hm Ht Hp Hl (Hu ev (or_introl eq_refl)) (ahead_blocked now L P w m _ HL Hw Ha0))
      as (Hn & (w1 & Hw1 & Ht1 & Hi1 & Hl1) & (m1 & Hm1 & Lo & Hlm1)).
    pose proof Lo as (_ & E2 & E3 & E4 & _).
    destruct (IH w1 m1 w' HR1 Hw1 Ht1 Hl1 Hm1 ltac:(congruence) ltac:(congruence) Hlm1) as [(m2 & A & B) C];
      [intros ev' H; apply Hu; right; exact H|exact Hw'|unfold ahead in *; lia|].
    split; [exists m2; split; [exact A|eapply only_lowered_trans; eassumption]|].
    intros ev' [<-|H]; [exact Hn|apply C; exact H].
Qed.

Lemma stuck_grows d ts w w' m m' : d <= day_start ts -> pool_grows ts w w' -> only_lowered m m' -> stuck_at d w m -> stuck_at d w' m'.
Proof.
  intros Hd (_ & _ & s & Es & Hs) (_ & _ & _ & E & _ & _ & K & _) [Hin Hv]. split.
  - apply has_keys. rewrite K. apply has_keys. exact Hin.
  - unfold visible in *. rewrite Es, visible_app_later; [lia|]. intros k v H. specialize (Hs k v H). cbn beta in Hs. lia.
Qed.

Lemma run_stuck (Hinj : env_inj e) P k d now L evs now' L' : History.run e now L evs now' L' -> forall w m,
  reached e now L -> is_pool e L P w -> p_type (wp w) = TYPE_POOL -> 0 < lamports_of L P ->
  is_mining e L k m -> m_type (wm m) = TYPE_MINING -> m_pool (wm m) = P -> 0 < lamports_of L k ->
  (forall ev, In ev evs -> ~ unchecked k ev) ->
  d <= day_start now -> stuck_at d w m ->
  (exists w' m', is_pool e L' P w' /\ is_mining e L' k m' /\ only_lowered m m' /\ stuck_at d w' m') /\
  forall ev, In ev evs -> ~ works_on P k ev.
Proof.
  intros R. induction R as [|now L ev L1 evs now' L' S R IH]; intros w m HR Hw Htw Hlw Hm Ht Hp Hl Hu Hd Hs.
  - split; [|intros ? []]. exists w, m. split; [exact Hw|]. split; [exact Hm|]. split; [apply only_lowered_refl|exact Hs].
  - assert (HR1 : reached e (time_of ev) L1) by (eapply (reached_run e); [exact HR|]; econstructor; [exact S|constructor]).
    assert (Hd1 : d <= day_start (time_of ev)).
    { pose proof (step_time e _ _ _ _ S) as T. rewrite <- !bod_day_start in *. pose proof (bod_mono now (time_of ev) ltac:(lia)). lia. }
    destruct (step_frozen Hinj P k now L ev L1 w m S HR Hw Htw Hlw Hm Ht Hp Hl (Hu ev (or_introl eq_refl)))
      as (Hn & (w1 & Hw1 & Ht1 & Hi1 & Hl1) & (m1 & Hm1 & Lo & Hlm1)); [right; exists d; auto|].
    pose proof Lo as (_ & E2 & E3 & E4 & _).
    destruct (IH w1 m1 HR1 Hw1 Ht1 Hl1 Hm1 ltac:(congruence) ltac:(congruence) Hlm1) as [(w2 & m2 & A & B & C & D) F];
      [intros ev' H; apply Hu; right; exact H|exact Hd1|exact (stuck_grows d _ w w1 m m1 Hd1 Hi1 Lo Hs)|].
    split; [exists w2, m2; split; [exact A|]; split; [exact B|]; split; [eapply only_lowered_trans; eassumption|exact D]|].
    intros ev' [<-|H]; [exact Hn|apply F; exact H].
Qed.

(** an expiry that passes while the mining is ahead makes it stuck *)
Lemma ahead_stuck now L P w m d : reached e now L -> is_pool e L P w -> ahead w m -> has_date d (wm_diffs m) -> stuck_at d w m.
Proof.
  intros HR Hw Ha Hin. destruct (reached_ok e Henv _ _ HR) as (HL & _ & _). split; [exact Hin|].
  pose proof (visible_le_index now L P w d HL Hw). unfold ahead in Ha. lia.
Qed.

(** ** The strike *)
Lemma with_same m : with_delegated m (m_sfo (wm m) - 0) = m.
Proof. destruct m as [[] d]. unfold with_delegated. cbn. rewrite Z.sub_0_r. reflexivity. Qed.

Lemma strike_iff now ts L Q j auth owner k wQ mj mk x :
  reached e now L -> now <= ts -> is_key x -> is_pool e L Q wQ -> p_deposit_auth (wp wQ) = auth ->
  is_mining e L j mj -> m_owner (wm mj) = owner -> m_pool (wm mj) = Q ->
  cpa_mining e owner Q (m_bump (wm mj)) = Some j ->
  is_mining e L k mk -> k <> j ->
  (exists y, exec e ts (strike_on Q j auth owner k) (ChangeDelegate 0 x) L = Ok y) <->
  can_refresh ts (wp_ci wQ) mj /\ can_refresh ts (wp_ci wQ) mk.
Proof.
  intros HR Hts Hx HQ HA Hj Ho Hp Hd Hk Hne.
  destruct (reached_ok e Henv _ _ HR) as (HL & _ & _).
  assert (H0 : 0 <= p_total (wp wQ)) by apply (pw_total _ _ (ok_pool e now L Q wQ HL (proj1 HQ) (proj2 HQ))).
  pose proof (succeeds_iff e Henv now ts (strike_on Q j auth owner k) (ChangeDelegate 0 x) L HR Hts) as S.
  assert (Hr : ix_in_range (ChangeDelegate 0 x)) by (split; [unfold is_u64, U64; lia|exact Hx]). specialize (S Hr).
  rewrite S; clear S.
  2: { intros n q Hn Hq. cbn in Hn, Hq.
       destruct Hn as [<-|[<-|[<-|[<-|[]]]]]; cbn in Hq; injection Hq as <-;
         [exists (Meta Q false true)|exists (Meta j false true)|exists (Meta k false true)|exists (Meta j false true)]; cbn; auto 8. }
  cbn [allowed]. split.
  - intros (p & q & au & ow & od & nd & w1 & m1 & o & d & Hms & [Sp Sm _ _ _ _ _] & _ & _ & O & _ & C & JO & _).
    destruct Hms as [rest Hms]. cbn in Hms. injection Hms as <- <- <- <- <- <- _.
    rewrite (pool_fun e _ _ _ _ Sp HQ), (mining_fun e _ _ _ _ Sm Hj) in *. split; [exact C|].
    destruct O as [[H _]|(_ & y & Hy & ->)]; [congruence|]. destruct JO as (_ & _ & J).
    rewrite (mining_fun e _ _ _ _ Hy Hk), with_same in J. exact J.
  - intros [Cj Ck]. exists Q, j, auth, owner, k, j, wQ, mj, (Some mk), None.
    split; [exists []; reflexivity|]. split.
    { constructor; auto. exists (Meta auth true false). cbn. auto 8. }
    split; [exists (Meta owner true false); cbn; auto 8|].
    split; [exact Hne|]. split; [right; split; [exact Hne|]; exists mk; auto|].
    split; [split; [left; auto|exact I]|].
    split; [exact Cj|]. split; [|exact I]. cbn. pose proof (ok_mining e now L k mk HL (proj1 Hk) (proj2 Hk)) as W.
    pose proof (mw_sfo _ W) as F. unfold is_u64, U64 in F. split; [lia|]. split; [exact H0|].
    rewrite with_same. exact Ck.
Qed.

Lemma strike_freezes now ts L L' r Q j auth owner k P w wQ mk x :
  reached e now L -> now <= ts -> is_key x -> exec e ts (strike_on Q j auth owner k) (ChangeDelegate 0 x) L = Ok (L', r) ->
  is_pool e L P w -> P <> Q -> is_pool e L Q wQ -> is_mining e L k mk -> k <> j ->
  p_index (wp w) < visible ts (wp_ci wQ) ->
  is_pool e L' P w /\
  exists m', is_mining e L' k m' /\ refreshed ts (wp_ci wQ) mk m' /\ ahead w m'.
Proof.
  intros HR Hts Hx X Hw HPQ HQ Hk Hne Hv.
  assert (Hr : ix_in_range (ChangeDelegate 0 x)) by (split; [unfold is_u64, U64; lia|exact Hx]).
  assert (Hs : acc L' P = acc L P).
  { destruct (decide (acc L' P = acc L P)) as [|Hc]; [assumption|exfalso].
    destruct (changed_named _ _ _ _ _ _ _ _ X Hc) as [(n & Hn & Hq) _].
    pose proof (only_allowed e Henv _ _ _ _ _ _ _ HR Hts Hr X) as (p & q & au & ow & od & nd & w1 & m1 & o & d & Hms & [Sp Sm _ _ _ _ _] & _).
    destruct Hms as [rest Hms]. cbn in Hms. injection Hms as <- <- <- <- <- <- _.
    cbn in Hn. destruct Hn as [<-|[<-|[<-|[<-|[]]]]]; cbn in Hq; injection Hq as <-; try congruence;
      first [exact (not_pool _ _ _ _ Sm Hw)|exact (not_pool _ _ _ _ Hk Hw)]. }
  split; [unfold is_pool, owner_of, data_of in *; rewrite Hs; exact Hw|].
  apply (change_on_ledger e Henv now) in X; [|assumption|assumption|unfold is_u64, U64; lia].
  destruct X as (Q1 & j1 & O & N & w1 & m1 & w1' & m1' & A0 & A1 & A4 & A5 & _ & Hw1 & _ & _ & _ & _ & _ & _ & _ & DO & _).
  cbn in A0, A1, A4. injection A0 as <-. injection A1 as <-. injection A4 as <-.
  destruct DO as [H|(_ & y & y' & Hy & Hy' & _ & F)]; [congruence|].
  rewrite (mining_fun e _ _ _ _ Hy Hk), with_same, (pool_fun e _ _ _ _ Hw1 HQ) in F.
  exists y'. split; [exact Hy'|]. split; [exact F|]. unfold ahead. rewrite (rf_index _ _ _ _ F). exact Hv.
Qed.
End env.
