(** The instructions do exactly what CompleteSpec.v says. *)
From stdpp Require Import gmap.
From Verif Require Import Base OMap State Spec EffectSpec Ledger Program ResLemmas TreeLemmas AccrualLemmas
  RefreshLemmas FrameLemmas WfLemmas LedgerLemmas LedgerSpec CodecLemmas History HistoryLemmas Changes AccessLemmas HistoryThms ReachThms
  EffectLemmas EffectMethods EffectThms EffectMore Determined Commute SuccessSpec SuccessThms Contain CompleteSpec.

(** ** The described results are unique *)
Lemma lowered_fun d x t a b : ascending t -> lowered d x t a -> lowered d x t b -> a = b.
Proof.
  intros A (_ & _ & K1 & V1) (_ & _ & K2 & V2).
  assert (forall u, map fst u = map fst t -> forall k, has_date k u <-> In k (map fst t)) as HK.
  { intros u E k. rewrite <- E, in_map_iff. split.
    - intros (v & H). exists (k, v). auto.
    - intros ([q v] & <- & H). exists v. exact H. }
  apply sched_ext.
  - eapply ascending_keys; [symmetry; exact K1|exact A].
  - eapply ascending_keys; [symmetry; exact K2|exact A].
  - intros k. rewrite (HK a K1), (HK b K2). reflexivity.
  - intros k. rewrite V1, V2. reflexivity.
Qed.

Lemma has_date_dec d t : has_date d t \/ ~ has_date d t.
Proof.
  induction t as [|[k v] t IH]; [right; intros (x & [])|]. rewrite has_cons.
  destruct (Z.eq_dec d k); [auto|]. destruct IH as [H|H]; [auto|right; intros [?|?]; auto].
Qed.

Lemma scheduled_fun cap d x t a b : scheduled cap d x t a -> scheduled cap d x t b -> ascending a -> ascending b -> a = b.
Proof.
  intros [A1 A2] [B1 B2] Ha Hb.
  destruct (has_date_dec d t) as [H|H]; [|destruct (Z.lt_ge_cases (Z.of_nat (length t)) cap)].
  - destruct (A1 (or_introl H)) as [V1 K1], (B1 (or_introl H)) as [V2 K2].
    apply sched_ext; [assumption|assumption| |]; intros k; [rewrite K1, K2; reflexivity|rewrite V1, V2; reflexivity].
  - destruct (A1 (or_intror H0)) as [V1 K1], (B1 (or_intror H0)) as [V2 K2].
    apply sched_ext; [assumption|assumption| |]; intros k; [rewrite K1, K2; reflexivity|rewrite V1, V2; reflexivity].
  - rewrite (A2 H H0), (B2 H H0). reflexivity.
Qed.

Lemma after_cons d k v r : after d ((k, v) :: r) = if d <? k then (k, v) :: after d r else after d r.
Proof. reflexivity. Qed.
Lemma tails_fun : forall t a b, ascending t -> map fst a = map fst t -> map fst b = map fst t ->
  (forall d, total (after d a) = total (after d b)) -> a = b.
Proof.
  induction t as [|[k v] t IH]; intros [|[ka va] a] [|[kb vb] b] A Ka Kb H; try discriminate; [reflexivity|].
  cbn in Ka, Kb. injection Ka as -> Ka. injection Kb as -> Kb. destruct A as [A1 A2].
  assert (forall u, map fst u = map fst t -> forall d, d <= k -> after d u = u) as HU.
  { intros u E d Hd. apply after_all. intros q x Hin. apply (in_map fst) in Hin. rewrite E in Hin.
    apply in_map_iff in Hin as ([q' x'] & E' & Hin). cbn in E'. subst. specialize (A1 _ _ Hin). lia. }
  assert (a = b) as <-.
  { apply (IH a b A2 Ka Kb). intros d. destruct (Z.lt_ge_cases d k) as [Hd|Hd].
    - specialize (H k). rewrite !after_cons, !Z.ltb_irrefl, !HU in H by (assumption || lia).
      rewrite !HU by (assumption || lia). exact H.
    - specialize (H d). rewrite !after_cons in H. destruct (Z.ltb_spec d k); [lia|]. exact H. }
  specialize (H (k - 1)). rewrite !after_cons in H. destruct (Z.ltb_spec (k - 1) k); [|lia].
  cbn [total] in H. do 2 f_equal. lia.
Qed.

Lemma wmining_ext m a b :
  only_stake m a -> only_stake m b -> m_share (wm a) = m_share (wm b) -> wm_diffs a = wm_diffs b -> a = b.
Proof.
  intros ((A1 & A2 & A3 & A4 & A5) & A6 & A7 & A8) ((B1 & B2 & B3 & B4 & B5) & B6 & B7 & B8) S D.
  destruct a as [[] ?], b as [[] ?]. cbn in *. congruence.
Qed.
Lemma only_total_ext w a b :
  only_total w a -> only_total w b -> p_total (wp a) = p_total (wp b) -> wp_diffs a = wp_diffs b -> a = b.
Proof.
  intros A B T D. apply only_config in A as (A1 & A2 & A3 & A4 & A5), B as (B1 & B2 & B3 & B4 & B5).
  apply wpool_ext; congruence.
Qed.

Lemma delegated_fun ts ci x d a b : delegated ts ci x d a -> delegated ts ci x d b -> a = b.
Proof.
  destruct d, a, b; cbn; try contradiction; [|reflexivity]. intros A B. f_equal. eapply refreshed_unique; eassumption.
Qed.
Lemma redelegated_fun ts ci c x d a b : redelegated ts ci c x d a -> redelegated ts ci c x d b -> a = b.
Proof.
  destruct d, a, b; cbn; try contradiction; [|reflexivity]. intros (z & A & ->) (z' & B & ->). f_equal.
  rewrite (refreshed_unique _ _ _ _ _ A B). reflexivity.
Qed.

Ltac same_m1 R1 R2 := pose proof (refreshed_unique _ _ _ _ _ R1 R2); subst.

Lemma deposited_fun ts w m a p d w1 m1 d1 w2 m2 d2 :
  deposited ts w m a p d w1 m1 d1 -> deposited ts w m a p d w2 m2 d2 -> w1 = w2 /\ m1 = m2 /\ d1 = d2.
Proof.
  intros ((x & R1 & O1 & S1 & D1 & A1) & T1 & P1 & E1 & F1 & G1) ((y & R2 & O2 & S2 & D2 & A2) & T2 & P2 & E2 & F2 & G2).
  same_m1 R1 R2. split; [|split].
  - eapply only_total_ext; [exact T1|exact T2|congruence|]. eapply scheduled_fun; eassumption.
  - eapply wmining_ext; [exact O1|exact O2|congruence|]. eapply scheduled_fun; eassumption.
  - eapply delegated_fun; eassumption.
Qed.
Lemma withdrawn_fun ts w m a d w1 m1 d1 w2 m2 d2 :
  withdrawn ts w m a d w1 m1 d1 -> withdrawn ts w m a d w2 m2 d2 -> w1 = w2 /\ m1 = m2 /\ d1 = d2.
Proof.
  intros ((x & R1 & O1 & S1 & D1) & T1 & P1 & E1 & G1) ((y & R2 & O2 & S2 & D2) & T2 & P2 & E2 & G2).
  same_m1 R1 R2. split; [|split].
  - eapply only_total_ext; [exact T1|exact T2|congruence|congruence].
  - eapply wmining_ext; [exact O1|exact O2|congruence|congruence].
  - eapply delegated_fun; eassumption.
Qed.
Lemma refreshed_asc ts ci m m1 : ascending (wm_diffs m) -> refreshed ts ci m m1 -> ascending (wm_diffs m1).
Proof. intros A R. rewrite (rf_diffs _ _ _ _ R). apply ascending_after. assumption. Qed.
Lemma extended_fun ts w m op np st b a d w1 m1 d1 w2 m2 d2 : ascending (wm_diffs m) ->
  extended ts w m op np st b a d w1 m1 d1 -> extended ts w m op np st b a d w2 m2 d2 -> w1 = w2 /\ m1 = m2 /\ d1 = d2.
Proof.
  intros A ((x & t & R1 & O1 & S1 & L1 & D1 & A1) & T1 & P1 & E1 & F1 & G1) ((y & u & R2 & O2 & S2 & L2 & D2 & A2) & T2 & P2 & E2 & F2 & G2).
  same_m1 R1 R2.
  assert (t = u) as <-.
  { destruct (unexpired op st ts); [|congruence]. eapply lowered_fun; [|exact L1|exact L2]. eapply refreshed_asc; [exact A|eassumption]. }
  split; [|split].
  - eapply only_total_ext; [exact T1|exact T2|congruence|]. eapply scheduled_fun; eassumption.
  - eapply wmining_ext; [exact O1|exact O2|congruence|]. eapply scheduled_fun; eassumption.
  - eapply redelegated_fun; eassumption.
Qed.
Lemma moved_fun ts w m a o n w1 m1 o1 n1 w2 m2 o2 n2 :
  moved ts w m a o n w1 m1 o1 n1 -> moved ts w m a o n w2 m2 o2 n2 -> w1 = w2 /\ m1 = m2 /\ o1 = o2 /\ n1 = n2.
Proof.
  intros (R1 & T1 & D1 & P1 & E1 & F1) (R2 & T2 & D2 & P2 & E2 & F2). split; [|split; [|split]].
  - eapply only_total_ext; [exact T1|exact T2|congruence|congruence].
  - eapply refreshed_unique; eassumption.
  - eapply delegated_fun; eassumption.
  - eapply delegated_fun; eassumption.
Qed.
Lemma slashed_fun ts w m n wt dt w1 m1 w2 m2 : ascending (wm_diffs m) -> ascending (wp_diffs w) ->
  slashed ts w m n wt dt w1 m1 -> slashed ts w m n wt dt w2 m2 -> w1 = w2 /\ m1 = m2.
Proof.
  intros A B (x & R1 & O1 & T1 & S1 & P1 & D1) (y & R2 & O2 & T2 & S2 & P2 & D2). same_m1 R1 R2.
  destruct dt as [u|].
  - destruct D1 as [D1 F1], D2 as [D2 F2]. split.
    + eapply only_total_ext; [exact T1|exact T2|congruence|]. eapply lowered_fun; [|eassumption..]. apply ascending_after. assumption.
    + eapply wmining_ext; [exact O1|exact O2|congruence|]. eapply lowered_fun; [|eassumption..]. eapply refreshed_asc; [exact A|eassumption].
  - destruct D1 as [D1 F1], D2 as [D2 F2]. split.
    + eapply only_total_ext; [exact T1|exact T2|congruence|congruence].
    + eapply wmining_ext; [exact O1|exact O2|congruence|congruence].
Qed.
Lemma decreased_fun m n a b : ascending (wm_diffs m) -> decreased m n a -> decreased m n b -> a = b.
Proof.
  intros A (O1 & S1 & K1 & D1) (O2 & S2 & K2 & D2). eapply wmining_ext; [exact O1|exact O2|congruence|].
  eapply tails_fun; [exact A|assumption|assumption|]. intros d. rewrite D1, D2. reflexivity.
Qed.
Lemma distributed_fun ts w a b : distributed ts w a -> distributed ts w b -> a = b.
Proof.
  unfold distributed. cbv zeta.
  intros ((A1 & A2 & A3 & A4 & A5 & A6 & A7) & T1 & D1 & Y1 & N1) ((B1 & B2 & B3 & B4 & B5 & B6 & B7) & T2 & D2 & Y2 & N2).
  assert (p_index (wp a) = p_index (wp b) /\ p_avail (wp a) = p_avail (wp b) /\ wp_ci a = wp_ci b) as (E1 & E2 & E3).
  { destruct (has_date_dec (day_start ts) (wp_ci w)) as [H|H].
    - destruct (Y1 H) as (? & ? & ?), (Y2 H) as (? & ? & ?). repeat split; congruence.
    - destruct (N1 H) as (I1 & V1 & C1), (N2 H) as (I2 & V2 & C2).
      assert (p_index (wp a) = p_index (wp b)) as E by congruence.
      split; [exact E|]. split; [congruence|]. rewrite C1, C2, E. reflexivity. }
  destruct a as [[] ? ?], b as [[] ? ?]. cbn in *. congruence.
Qed.

Lemma becomes_fun L A B l : becomes L A l -> becomes L B l -> forall q, acc A q = acc B q.
Proof. intros H1 H2 q. rewrite (H1 q), (H2 q). reflexivity. Qed.

Lemma delegate_part_fun e L k D a b : delegate_part e L k D a -> delegate_part e L k D b -> a = b.
Proof.
  intros [[-> ->]|(N & x & X & ->)] [[E ->]|(N' & y & Y & ->)]; try congruence. f_equal. eapply mining_fun; eassumption.
Qed.

Ltac same_accounts :=
  match goal with H1 : accounts_are ?ms ?l1, H2 : accounts_are ?ms ?l2 |- _ =>
    let E := fresh "E" in pose proof (accounts_eq ms l1 l2 H1 H2 eq_refl) as E;
    injection E; clear E; intros; clear H2; subst end.
Ltac same_data :=
  repeat match goal with
  | H1 : is_pool ?e ?L ?k ?a, H2 : is_pool ?e ?L ?k ?b |- _ =>
      assert (b = a) by (eapply pool_fun; eassumption); clear H2; subst b
  | H1 : is_mining ?e ?L ?k ?a, H2 : is_mining ?e ?L ?k ?b |- _ =>
      assert (b = a) by (eapply mining_fun; eassumption); clear H2; subst b
  | H1 : delegate_part ?e ?L ?k ?D ?a, H2 : delegate_part ?e ?L ?k ?D ?b |- _ =>
      assert (b = a) by (eapply delegate_part_fun; eassumption); clear H2; subst b
  end.
Ltac done_with H1 H2 := split; [congruence|]; eapply becomes_fun; [exact H1|exact H2].

Section env.
Context (e : env) (Henv : env_ok e).

Lemma effect_fun now ts ms i L A B ra rb :
  reached e now L -> effect e ts ms i L A ra -> effect e ts ms i L B rb -> ra = rb /\ forall q, acc A q = acc B q.
Proof.
  intros HL. destruct (reached_ok e Henv _ _ HL) as (OK & _ & _).
  assert (HM : forall k m, is_mining e L k m -> ascending (wm_diffs m)).
  { intros k m [X Y]. apply (ok_mining e now L k m OK X Y). }
  assert (HP : forall k w, is_pool e L k w -> ascending (wp_diffs w)).
  { intros k w [X Y]. apply (ok_pool e now L k w OK X Y). }
  destruct i; cbn [effect].
  - intros (p1 & t1 & v1 & y1 & u1 & b1 & M1 & F1 & R1 & W1) (p2 & t2 & v2 & y2 & u2 & b2 & M2 & F2 & R2 & W2).
    same_accounts. assert (b1 = b2) by congruence. subst. done_with W1 W2.
  - intros (p1 & t1 & v1 & u1 & s1 & w1 & x1 & y1 & M1 & P1 & S1 & V1 & R1 & W1) (p2 & t2 & v2 & u2 & s2 & w2 & x2 & y2 & M2 & P2 & S2 & V2 & R2 & W2).
    same_accounts. same_data. assert (x1 = x2) by congruence. assert (y1 = y2) by congruence. subst. done_with W1 W2.
  - intros (p1 & k1 & y1 & b1 & M1 & F1 & R1 & W1) (p2 & k2 & y2 & b2 & M2 & F2 & R2 & W2).
    same_accounts. assert (b1 = b2) by congruence. subst. done_with W1 W2.
  - intros (p1 & k1 & u1 & g1 & w1 & m1 & d1 & w1' & m1' & d1' & M1 & P1 & K1 & G1 & E1 & R1 & W1)
           (p2 & k2 & u2 & g2 & w2 & m2 & d2 & w2' & m2' & d2' & M2 & P2 & K2 & G2 & E2 & R2 & W2).
    same_accounts. same_data. destruct (deposited_fun _ _ _ _ _ _ _ _ _ _ _ _ E1 E2) as (-> & -> & ->). done_with W1 W2.
  - intros (p1 & k1 & u1 & g1 & w1 & m1 & d1 & w1' & m1' & d1' & M1 & P1 & K1 & G1 & E1 & R1 & W1)
           (p2 & k2 & u2 & g2 & w2 & m2 & d2 & w2' & m2' & d2' & M2 & P2 & K2 & G2 & E2 & R2 & W2).
    same_accounts. same_data. destruct (withdrawn_fun _ _ _ _ _ _ _ _ _ _ _ E1 E2) as (-> & -> & ->). done_with W1 W2.
  - intros (p1 & t1 & v1 & k1 & o1 & u1 & s1 & w1 & m1 & m1' & M1 & P1 & K1 & E1 & R1 & C1)
           (p2 & t2 & v2 & k2 & o2 & u2 & s2 & w2 & m2 & m2' & M2 & P2 & K2 & E2 & R2 & C2).
    same_accounts. same_data. same_m1 E1 E2.
    destruct C1 as [[Z1 W1]|(Z1 & x1 & y1 & X1 & Y1 & W1)], C2 as [[Z2 W2]|(Z2 & x2 & y2 & X2 & Y2 & W2)]; try lia.
    + done_with W1 W2.
    + assert (x1 = x2) by congruence. assert (y1 = y2) by congruence. subst. done_with W1 W2.
  - intros (p1 & k1 & u1 & g1 & w1 & m1 & d1 & w1' & m1' & d1' & M1 & P1 & K1 & G1 & E1 & R1 & W1)
           (p2 & k2 & u2 & g2 & w2 & m2 & d2 & w2' & m2' & d2' & M2 & P2 & K2 & G2 & E2 & R2 & W2).
    same_accounts. same_data.
    destruct (extended_fun _ _ _ _ _ _ _ _ _ _ _ _ _ _ _ (HM _ _ K1) E1 E2) as (-> & -> & ->). done_with W1 W2.
  - intros (p1 & u1 & w1 & w1' & M1 & P1 & E1 & R1 & W1) (p2 & u2 & w2 & w2' & M2 & P2 & E2 & R2 & W2).
    same_accounts. same_data. rewrite (distributed_fun _ _ _ _ E1 E2) in W1. done_with W1 W2.
  - intros (k1 & o1 & t1 & M1 & R1 & W1) (k2 & o2 & t2 & M2 & R2 & W2). same_accounts. done_with W1 W2.
  - intros (p1 & k1 & u1 & o1 & g1 & h1 & w1 & m1 & d1 & n1 & w1' & m1' & d1' & n1' & M1 & P1 & K1 & G1 & H1 & E1 & R1 & W1)
           (p2 & k2 & u2 & o2 & g2 & h2 & w2 & m2 & d2 & n2 & w2' & m2' & d2' & n2' & M2 & P2 & K2 & G2 & H2 & E2 & R2 & W2).
    same_accounts. same_data. destruct (moved_fun _ _ _ _ _ _ _ _ _ _ _ _ _ _ E1 E2) as (-> & -> & -> & ->). done_with W1 W2.
  - intros (u1 & p1 & k1 & w1 & m1 & w1' & m1' & M1 & P1 & K1 & E1 & R1 & W1) (u2 & p2 & k2 & w2 & m2 & w2' & m2' & M2 & P2 & K2 & E2 & R2 & W2).
    same_accounts. same_data. destruct (slashed_fun _ _ _ _ _ _ _ _ _ _ (HM _ _ K1) (HP _ _ P1) E1 E2) as [-> ->]. done_with W1 W2.
  - intros (u1 & p1 & k1 & m1 & m1' & M1 & K1 & E1 & R1 & W1) (u2 & p2 & k2 & m2 & m2' & M2 & K2 & E2 & R2 & W2).
    same_accounts. same_data. rewrite (decreased_fun _ _ _ _ (HM _ _ K1) E1 E2) in W1. done_with W1 W2.
Qed.

(** ** The instructions do what is described *)
Lemma accounts_first ms l l' : accounts_are ms (l ++ l') -> accounts_are ms l.
Proof. intros [r E]. exists (l' ++ r). rewrite E, app_assoc. reflexivity. Qed.

Lemma moved_part ts ci x L D k d' :
  owner_of L D = program_id e -> delegate_moved ts ci x (dlg_of L D k) d' ->
  exists d, delegate_part e L k D d /\ delegated ts ci x d d' /\ forall a, takes_part (dlg_of L D k) a = for_delegate d a.
Proof.
  intros Ho H. unfold dlg_of in *. destruct (Z.eqb_spec k D) as [->|Hne].
  - exists None. destruct d'; [contradiction|]. split; [left; auto|]. split; [exact I|reflexivity].
  - cbn in H. destruct (load_mining (a_data (acc L D))) as [y|] eqn:E; [|contradiction]. destruct d' as [y'|]; [|contradiction].
    apply load_mining_ok in E. exists (Some y). split; [right; split; [congruence|]; exists y; split; [split; assumption|reflexivity]|].
    split; [apply H|reflexivity].
Qed.
Lemma extended_part ts ci b n L D k d' :
  owner_of L D = program_id e -> delegate_extended ts ci b (b + n) (dlg_of L D k) d' ->
  exists d, delegate_part e L k D d /\ redelegated ts ci b n d d' /\ forall a, takes_part (dlg_of L D k) a = for_delegate d a.
Proof.
  intros Ho H. unfold dlg_of in *. destruct (Z.eqb_spec k D) as [->|Hne].
  - exists None. destruct d'; [contradiction|]. split; [left; auto|]. split; [exact I|reflexivity].
  - cbn in H. destruct (load_mining (a_data (acc L D))) as [y|] eqn:E; [|contradiction]. destruct d' as [y'|]; [|contradiction].
    apply load_mining_ok in E. exists (Some y). split; [right; split; [congruence|]; exists y; split; [split; assumption|reflexivity]|].
    split; [|reflexivity]. destruct H as (_ & z & R & ->). exists z. split; [exact R|]. f_equal. lia.
Qed.
Lemma part_none L D k d (R : option wmining -> option wmining -> Prop) d' :
  (forall x, R None (Some x) -> False) -> delegate_part e L k D d -> R d d' -> D = k -> d' = None.
Proof.
  intros H [[_ ->]|(N & _)] HR E; [|contradiction]. destruct d' as [x|]; [destruct (H _ HR)|reflexivity].
Qed.

Ltac replaced :=
  intros q; unfold pool_now, mining_now, put_mining, put_pool; cbn [listed app]; writes; cases; subst; try congruence; try reflexivity.

Lemma stake_becomes L P k D w' m' d' :
  k <> P -> D <> P -> (D = k -> d' = None) ->
  becomes L (put_dlg (put_mining (put_pool L P w') k m') D d') (pool_now L P w' :: mining_now L k m' :: delegate_now L D d').
Proof.
  intros H1 H2 H3. destruct d' as [x|]; cbn [put_dlg delegate_now]; [|replaced].
  assert (D <> k) by (intros E; specialize (H3 E); discriminate). replaced.
Qed.

Lemma tokens_become ms L0 L L' P d src dst auth x s v :
  acc L P = holding (acc L0 P) d -> (forall q, q <> P -> acc L q = acc L0 q) -> P <> src -> P <> dst ->
  spl_transfer ms L src dst auth x = Ok L' -> data_of L0 src = DToken s -> data_of L0 dst = DToken v ->
  becomes L0 L' ((P, holding (acc L0 P) d) :: tokens_now L0 src dst s v x).
Proof.
  intros HP HO Hs Hd H Es Ed. apply spl_transfer_inv in H as (s' & v' & Es' & Ed' & _ & _ & _ & _ & _ & _ & Hc).
  unfold data_of in *. rewrite HO in Es', Ed' by congruence.
  assert (s' = s) as -> by congruence. assert (v' = v) as -> by congruence.
  unfold tokens_now. intros q. destruct Hc as [[-> ->]|(Hne & _ & ->)].
  - rewrite Z.eqb_refl. cbn [listed]. destruct (Z.eqb_spec P q) as [->|]; [exact HP|]. apply HO. congruence.
  - destruct (Z.eqb_spec src dst); [contradiction|]. cbn [listed]. rewrite !acc_put.
    destruct (Z.eqb_spec P q) as [->|].
    + destruct (Z.eqb_spec dst q); [congruence|]. destruct (Z.eqb_spec src q); [congruence|]. exact HP.
    + rewrite (HO q) by congruence. destruct (Z.eqb_spec dst q), (Z.eqb_spec src q); subst; try congruence; reflexivity.
Qed.

Lemma process_effect now ts ms i L L' r :
  reached e now L -> now <= ts -> ix_in_range i -> process e ts ms i L = Ok (L', r) -> effect e ts ms i L L' r.
Proof.
  intros HL Hts Hi H. destruct (reached_ok e Henv _ _ HL) as (A & _ & B).
  assert (Hts0 : 0 <= ts) by lia.
  destruct i; cbn [process effect ix_in_range] in *; try (apply no_ret_ok in H as [H ->]).
  - (* InitializePool *)
    apply init_pool_inv in H as (P & mint & vault & payer & auth & bump & w & L1 & L2 & Hms & HoP & _ & _ & _ & _ & Hd & _ & Hv & HyP & _ & Hc & Ha & ->).
    apply create_account_inv in Hc as (_ & _ & _ & _ & HoV & _ & _ & _ & Hyv & _ & ->).
    apply initialize_account_inv in Ha as (_ & _ & _ & ->).
    assert (HvP : vault <> P).
    { intros ->. destruct Henv. rewrite HoV in HoP. congruence. }
    exists P, mint, vault, payer, auth, bump.
    split; [exact (accounts_first ms [P; mint; vault; payer; auth] _ Hms)|]. split; [exact Hv|]. split; [reflexivity|].
    replaced.
  - (* FillVault *)
    apply fill_inv in H as (P & mint & vault & auth & source & w & w' & Hms & HoP & _ & _ & _ & _ & Hx & Hd & Hau & Hv & _ & Hf & Ht).
    apply fill_effect in Hf as (F1 & F2 & F3 & F4 & F5 & F6 & F7 & F8 & F9 & F10 & F11 & F12 & F13 & F14).
    pose proof Ht as Ht'. apply spl_transfer_inv in Ht' as (s & v & Hs & Hvd & _).
    assert (HsP : P <> source). { intros ->. unfold put_pool in Hs. rewrite data_put in Hs. discriminate. }
    assert (HvP : P <> vault). { intros ->. unfold put_pool in Hvd. rewrite data_put in Hvd. discriminate. }
    unfold data_of, put_pool in Hs, Hvd. rewrite acc_put_data_ne in Hs, Hvd by assumption.
    exists P, mint, vault, auth, source, w, s, v.
    split; [exact (accounts_first ms [P; mint; vault; auth; source] _ Hms)|]. split; [split; assumption|].
    split; [exact Hs|]. split; [exact Hvd|]. split; [reflexivity|].
    assert (w' = filled w rewards ends_at) as ->.
    { destruct w' as [[] ? ?], w as [[] ? ?]. unfold filled. cbn in *. congruence. }
    eapply tokens_become; [| | | |exact Ht|exact Hs|exact Hvd]; [| |assumption|assumption].
    + unfold put_pool. rewrite acc_put, Z.eqb_refl. reflexivity.
    + intros q Hq. unfold put_pool. apply acc_put_data_ne. congruence.
  - (* InitializeMining *)
    apply init_mining_inv in H as (P & k & payer & bump & L1 & Hms & HoP & _ & _ & Hf & Hc & ->).
    apply create_account_inv in Hc as (_ & _ & _ & _ & HoV & _ & _ & _ & Hyv & _ & ->).
    exists P, k, payer, bump.
    split; [exact (accounts_first ms [P; k; payer] _ Hms)|]. split; [exact Hf|]. split; [reflexivity|].
    replaced.
  - (* DepositMining *)
    apply deposit_inv in H as (P & k & auth & D & w & m & w' & m' & d' & Hms & Hc & Hd & Ho & He & ->).
    destruct (ok_ctx e _ _ _ _ _ _ _ _ _ A Hc) as [Hp Hm]. destruct Hc as [C1 C2 _ C4 C5 _ _ _ _ C10].
    pose proof (ok_dlg e now L D k A Ho) as Hdw. unfold is_u64 in Hi.
    assert (Ha0 : 0 <= amount) by lia.
    destruct (deposit_wf now _ _ _ _ _ _ _ _ _ Hts0 Hp Hm Hdw Ha0 He) as (Hp' & Hm' & _).
    apply (deposit_effect now) in He as (Hl & (m1 & R & O & Hs & Hsc) & OT & HT & HP & HD); [|assumption|assumption|assumption|lia].
    destruct (moved_part _ _ _ _ _ _ _ Ho HD) as (d & X1 & X2 & X3). rewrite X3 in HT.
    exists P, k, auth, D, w, m, d, w', m', d'. split; [assumption|]. do 2 (split; [split; assumption|]). split; [assumption|].
    split; [|split; [reflexivity|]].
    + split; [exists m1; split; [assumption|]; split; [assumption|]; split; [assumption|]; split; [assumption|apply Hm']|].
      split; [assumption|]. split; [assumption|]. split; [assumption|]. split; [apply Hp'|assumption].
    + apply stake_becomes; [assumption|eapply delegate_ne; eassumption|]. eapply part_none; [|exact X1|exact X2]. intros x [].
  - (* WithdrawMining *)
    apply withdraw_inv in H as (P & k & auth & D & w & m & w' & m' & d' & Hms & Hc & Hd & Ho & He & ->).
    destruct (ok_ctx e _ _ _ _ _ _ _ _ _ A Hc) as [Hp Hm]. destruct Hc as [C1 C2 _ C4 C5 _ _ _ _ C10].
    pose proof (ok_dlg e now L D k A Ho) as Hdw.
    apply (withdraw_effect now) in He as ((m1 & R & O & _ & Hs & Hsc) & OT & HT & HP & HD); [|assumption..].
    destruct (moved_part _ _ _ _ _ _ _ Ho HD) as (d & X1 & X2 & X3). rewrite X3 in HT.
    exists P, k, auth, D, w, m, d, w', m', d'. split; [assumption|]. do 2 (split; [split; assumption|]). split; [assumption|].
    split; [|split; [reflexivity|]].
    + split; [exists m1; auto|]. auto.
    + apply stake_becomes; [assumption|eapply delegate_ne; eassumption|]. eapply part_none; [|exact X1|exact X2]. intros x [].
  - (* Claim *)
    destruct (process_claim e ts ms L) as [[L1 amount]|] eqn:Hc; cbn [rbind] in H; [|discriminate]. inv.
    apply claim_inv in Hc as (P & mint & vault & k & owner & auth & dest & w & m & m1 & t & Hms & HoP & _ & _ & Hok & _ &
      Hso & _ & Hdt & Hto & Hdp & Hau & Hdm & Hmo & Hmp & Hne & Hv & Hr & -> & Hcase).
    pose proof (ok_pool e now L P w A HoP Hdp) as Wp. pose proof (ok_mining e now L k m A Hok Hdm) as Wm.
    pose proof (refresh_refreshed ts (wp_ci w) m m1 (pool_wf_hist _ _ Wp) (mining_wf_min _ Wm) Hr) as R.
    pose proof (refresh_wf _ _ _ _ _ Wp Wm Hr) as Wm1. pose proof (mw_unclaimed _ Wm1) as Hu. unfold is_u64 in Hu.
    cbv zeta in Hcase. change (WMining (mining_claim (wm m1)) (wm_diffs m1)) with (emptied m1) in Hcase.
    exists P, mint, vault, k, owner, auth, dest, w, m, m1.
    split; [exact (accounts_first ms [P; mint; vault; k; owner; auth; dest] _ Hms)|]. do 2 (split; [split; assumption|]).
    split; [assumption|]. split; [reflexivity|]. destruct Hcase as [[Hz ->]|[Hz Ht]].
    + left. split; [lia|]. replaced.
    + right. split; [assumption|]. pose proof Ht as Ht'. apply spl_transfer_inv in Ht' as (s & v & Hs & Hvd & _).
      assert (HsP : k <> vault). { intros ->. unfold put_mining in Hs. rewrite data_put in Hs. discriminate. }
      assert (HvP : k <> dest) by (intros ->; congruence).
      unfold data_of, put_mining in Hs, Hvd. rewrite acc_put_data_ne in Hs, Hvd by assumption.
      exists s, v. split; [exact Hs|]. split; [exact Hvd|].
      eapply tokens_become; [| | | |exact Ht|exact Hs|exact Hvd]; [| |assumption|assumption].
      * unfold put_mining. rewrite acc_put, Z.eqb_refl. reflexivity.
      * intros q Hq. unfold put_mining. apply acc_put_data_ne. congruence.
  - (* ExtendStake *)
    apply extend_inv in H as (P & k & auth & D & w & m & w' & m' & d' & Hms & Hc & Hd & Ho & He & ->).
    destruct (ok_ctx e _ _ _ _ _ _ _ _ _ A Hc) as [Hp Hm]. destruct Hc as [C1 C2 _ C4 C5 _ _ _ _ C10].
    pose proof (ok_dlg e now L D k A Ho) as Hdw. unfold is_u64 in Hi.
    assert (Ha0 : 0 <= base) by lia. assert (Ha1 : 0 <= additional) by lia.
    destruct (extend_wf now _ _ _ _ _ _ _ _ _ _ _ _ Hts0 Hp Hm Hdw Ha0 Ha1 He) as (Hp' & Hm' & _).
    apply (extend_effect now) in He as (_ & _ & (m1 & t & R & O & _ & Hs & Hlow & Hsc) & OT & HT & HP & HD); [|lia|assumption|assumption|assumption|lia|lia].
    destruct (extended_part _ _ _ _ _ _ _ _ Ho HD) as (d & X1 & X2 & X3). rewrite X3 in HT.
    exists P, k, auth, D, w, m, d, w', m', d'. split; [assumption|]. do 2 (split; [split; assumption|]). split; [assumption|].
    split; [|split; [reflexivity|]].
    + split; [exists m1, t; split; [assumption|]; split; [assumption|]; split; [assumption|]; split; [assumption|]; split; [assumption|apply Hm']|].
      split; [assumption|]. split; [assumption|]. split; [assumption|]. split; [apply Hp'|assumption].
    + apply stake_becomes; [assumption|eapply delegate_ne; eassumption|].
      eapply (part_none _ _ _ _ (redelegated ts (wp_ci w) base additional)); [|exact X1|exact X2]. intros x [].
  - (* DistributeRewards *)
    apply distribute_inv in H as (P & auth & w & amt & w' & Hms & HoP & _ & Hd & _ & Hr & He & ->).
    pose proof (ok_pool e now L P w A HoP Hd) as Hp.
    rewrite rewards_exact in Hr by apply Hp. injection Hr as <-.
    apply (distribute_effect now) in He as (E1 & E2 & E3 & E4 & E5 & E6); [|assumption|assumption].
    exists P, auth, w, w'. split; [assumption|]. split; [split; assumption|]. split; [|split; [reflexivity|replaced]].
    unfold distributed. cbv zeta. do 4 (split; [assumption|]). intros Hno. destruct (E6 Hno) as (X1 & X2 & _ & X4 & X5). auto.
  - (* CloseMining *)
    apply close_inv in H as (k & owner & target & auth & P & w & m & m1 & Hms & Hok & Hot & _ & _ & _ & _ & _ & _ & _ & _ & _ & _ & _ & _ & ->).
    exists k, owner, target. split; [exact (accounts_first ms [k; owner; target] _ Hms)|]. split; [reflexivity|]. replaced.
  - (* ChangeDelegate *)
    apply change_inv in H as (P & k & auth & ow & O & N & w & m & w' & m' & od' & nd' & Hms & Hc & _ & Hd & HoO & HoN & HON & HOP & He & ->).
    destruct (ok_ctx e _ _ _ _ _ _ _ _ _ A Hc) as [Hp Hm]. destruct Hc as [C1 C2 _ C4 C5 _ _ _ _ C10].
    unfold is_u64 in Hi.
    apply (change_effect now) in He as (R & OT & Hds & HT & HDo & HDn);
      [|assumption|assumption|apply (ok_dlg e now); assumption|apply (ok_dlg e now); assumption|lia].
    assert (HNP : N <> P) by (eapply delegate_ne; eassumption).
    destruct (moved_part _ _ _ _ _ _ _ HoO HDo) as (d & X1 & X2 & X3). rewrite X3 in HT.
    destruct (moved_part _ _ _ _ _ _ _ HoN HDn) as (n & Y1 & Y2 & Y3). rewrite Y3 in HT.
    exists P, k, auth, ow, O, N, w, m, d, n, w', m', od', nd'. split; [assumption|]. do 2 (split; [split; assumption|]).
    do 2 (split; [assumption|]). split; [unfold moved; auto 10|]. split; [reflexivity|].
    assert (Ho : O = k -> od' = None) by (eapply part_none; [|exact X1|exact X2]; intros x []).
    assert (Hn : N = k -> nd' = None) by (eapply part_none; [|exact Y1|exact Y2]; intros x []).
    destruct od' as [x|], nd' as [y|]; cbn [put_dlg delegate_now app].
    + assert (O <> k) by (intros E; specialize (Ho E); discriminate). assert (N <> k) by (intros E; specialize (Hn E); discriminate). replaced.
    + assert (O <> k) by (intros E; specialize (Ho E); discriminate). replaced.
    + assert (N <> k) by (intros E; specialize (Hn E); discriminate). replaced.
    + replaced.
  - (* Slash *)
    apply slash_inv in H as (auth & P & k & w & m & w' & m' & Hms & Hc & He & ->).
    destruct (ok_ctx e _ _ _ _ _ _ _ _ _ A Hc) as [Hp Hm]. destruct Hc as [C1 C2 _ C4 C5 _ _ _ _ C10].
    unfold is_u64 in Hi.
    apply (slash_effect now) in He as (m1 & R & O & T & _ & S & P1 & D); [|assumption|assumption|lia|lia].
    exists auth, P, k, w, m, w', m'. split; [assumption|]. do 2 (split; [split; assumption|]).
    split; [|split; [reflexivity|replaced]].
    exists m1. do 5 (split; [assumption|]). destruct expiration; [|exact D]. split; apply D.
  - (* DecreaseRewards *)
    apply decrease_inv in H as (auth & P & k & w & m & m' & Hms & Hc & He & ->).
    destruct (ok_ctx e _ _ _ _ _ _ _ _ _ A Hc) as [Hp Hm]. destruct Hc as [C1 C2 _ C4 C5 _ _ _ _ C10].
    unfold is_u64 in Hi. apply decrease_effect in He as (O & _ & S & K & _ & _ & D & _); [|assumption|lia].
    exists auth, P, k, m, m'. split; [assumption|]. split; [split; assumption|]. split; [unfold decreased; auto|].
    split; [reflexivity|]. replaced.
Qed.


Lemma exec_effect now ts ms i L L' r :
  reached e now L -> now <= ts -> ix_in_range i -> exec e ts ms i L = Ok (L', r) -> effect e ts ms i L L' r.
Proof. intros HL Hts Hi H. apply exec_inv in H as [H _]. eapply process_effect; eassumption. Qed.

Ltac the_account Hms H :=
  let X := fresh "X" in pose proof (fun p => account_in _ _ _ _ Hms p H) as X; cbn in X;
  specialize (X ltac:(lia)); injection X as <-.
(** what is handed on is writable *)
Lemma process_hands now ts ms i L L' r k :
  reached e now L -> now <= ts -> process e ts ms i L = Ok (L', r) -> hands_on e ts ms i L k -> writable ms k.
Proof.
  intros HL Hts H Hk. destruct (reached_ok e Henv _ _ HL) as (A & _ & B).
  destruct i; cbn [process hands_on] in *; try contradiction; try (apply no_ret_ok in H as [H ->]).
  - apply init_pool_inv in H as (P & mint & vault & payer & auth & bump & w & L1 & L2 & Hms & _ & _ & _ & _ & _ & _ & _ & _ & _ & _ & Hc & _).
    apply create_account_inv in Hc as (W1 & W2 & _).
    destruct Hk as [Hk|Hk]; the_account Hms Hk; assumption.
  - apply fill_inv in H as (P & mint & vault & auth & source & w & w' & Hms & _ & _ & _ & _ & _ & _ & _ & _ & _ & _ & _ & Ht).
    apply spl_transfer_inv in Ht as (s & v & _ & _ & W1 & W2 & _).
    destruct Hk as [Hk|Hk]; the_account Hms Hk; assumption.
  - apply init_mining_inv in H as (P & k0 & payer & bump & L1 & Hms & _ & _ & _ & _ & Hc & _).
    apply create_account_inv in Hc as (W1 & W2 & _).
    destruct Hk as [Hk|Hk]; the_account Hms Hk; assumption.
  - destruct (process_claim e ts ms L) as [[L1 amount]|] eqn:Hc; cbn [rbind] in H; [|discriminate]. clear H.
    apply claim_inv in Hc as (P & mint & vault & q & owner & auth & dest & w & m & m1 & t & Hms & HoP & _ & _ & Hok & _ &
      _ & _ & _ & _ & Hdp & _ & Hdm & _ & _ & _ & _ & Hr & -> & Hcase).
    pose proof (ok_pool e now L P w A HoP Hdp) as Wp. pose proof (ok_mining e now L q m A Hok Hdm) as Wm.
    pose proof (refresh_refreshed ts (wp_ci w) m m1 (pool_wf_hist _ _ Wp) (mining_wf_min _ Wm) Hr) as R.
    destruct Hk as [Hk (P0 & q0 & w0 & m0 & HP0 & Hq0 & Hw0 & Hm0 & Hpos)].
    the_account Hms HP0. the_account Hms Hq0.
    assert (w0 = w) as -> by (eapply pool_fun; [exact Hw0|split; assumption]).
    assert (m0 = m) as -> by (eapply mining_fun; [exact Hm0|split; assumption]).
    unfold tokens_at in Hpos. rewrite <- (rf_unclaimed _ _ _ _ R) in Hpos.
    cbv zeta in Hcase. destruct Hcase as [[Hz _]|[_ Ht]]; [lia|].
    apply spl_transfer_inv in Ht as (s & v & _ & _ & W1 & W2 & _).
    destruct Hk as [Hk|Hk]; the_account Hms Hk; assumption.
Qed.

Lemma effect_same ts ms i L A B r : effect e ts ms i L A r -> (forall q, acc A q = acc B q) -> effect e ts ms i L B r.
Proof.
  intros F E. assert (forall l, becomes L A l -> becomes L B l) as HB by (intros l Hl q; rewrite <- E; apply Hl).
  clear E. destruct i; cbn [effect] in *;
  repeat match goal with
  | H : exists x, _ |- _ => destruct H as (x & H)
  | H : _ /\ _ |- _ => destruct H
  | H : _ \/ _ |- _ => destruct H
  end;
  repeat match goal with |- exists x, _ => eexists end; repeat (split; [eassumption|]); auto.
  right. split; [assumption|]. do 2 eexists. split; [eassumption|]. split; [eassumption|]. auto.
Qed.

(** an instruction succeeds with a result exactly when it is allowed, what it hands on or changes
    is writable, and the result is the one described *)
Theorem complete now ts ms i L L' r :
  reached e now L -> now <= ts -> ix_in_range i ->
  ((exists L1, exec e ts ms i L = Ok (L1, r) /\ forall q, acc L1 q = acc L' q) <->
   allowed e ts ms i L /\ effect e ts ms i L L' r /\
   (forall k, hands_on e ts ms i L k -> writable ms k) /\
   (forall k, In k (map mt_key ms) -> acc L' k <> acc L k -> writable ms k)).
Proof.
  intros HL Hts Hi. destruct (reached_ok e Henv _ _ HL) as (OK & _ & H0). split.
  - intros (L1 & H & E). split; [eapply only_allowed; eassumption|].
    split; [eapply effect_same; [eapply exec_effect; eassumption|exact E]|].
    apply exec_inv in H as [H W]. split.
    + intros k Hk. eapply process_hands; eassumption.
    + intros k Hk Hne. destruct (W k Hk) as [?|X]; [assumption|]. rewrite E in X. contradiction.
  - intros (Ha & F & Hh & Hw). destruct (process_intro e Henv now ts ms i L OK ltac:(lia) Hi Hh Ha) as [[L1 r1] H].
    pose proof (process_effect _ _ _ _ _ _ _ HL Hts Hi H) as F1.
    destruct (effect_fun _ _ _ _ _ _ _ _ _ HL F1 F) as [-> E]. exists L1. split; [|assumption].
    unfold exec. rewrite H. cbn [rbind]. replace (readonly_ok ms L L1) with true; [reflexivity|]. symmetry.
    unfold readonly_ok. apply forallb_forall. intros x Hx. apply orb_true_iff.
    destruct (decide (acc L (mt_key x) = acc L1 (mt_key x))) as [D|D]; [right; apply bool_decide_eq_true; assumption|left].
    apply is_writable_ok. apply Hw; [apply in_map; assumption|]. rewrite <- E. congruence.
Qed.

(** with the accounts it may change writable, only the two conditions on the state remain *)
Theorem complete_writable now ts ms i L L' r :
  reached e now L -> now <= ts -> ix_in_range i ->
  (forall n k, In n (may_change i) -> account_at ms n k -> writable ms k) ->
  ((exists L1, exec e ts ms i L = Ok (L1, r) /\ forall q, acc L1 q = acc L' q) <->
   allowed e ts ms i L /\ effect e ts ms i L L' r).
Proof.
  intros HL Hts Hi Hw. split.
  - intros H. apply (complete now) in H; [|assumption..]. split; apply H.
  - intros [Ha F]. apply (succeeds_iff e Henv now ts ms i L HL Hts Hi Hw) in Ha as ([L1 r1] & H).
    pose proof (exec_effect _ _ _ _ _ _ _ HL Hts Hi H) as F1.
    destruct (effect_fun _ _ _ _ _ _ _ _ _ HL F1 F) as [-> E]. exists L1. auto.
Qed.

(** ** Histories *)
Lemma described_reached now L : described e now L -> reached e now L.
Proof.
  induction 1 as [L H|now ts L L' _ IH H1 H2 H3|now ts ms i L L' r _ IH H1 H2 H3 H4 H5 H6 H7].
  - exists L, []. split; [assumption|constructor].
  - eapply reached_run; [exact IH|]. apply (run_cons e _ _ (EvExt ts) L' []); [|constructor]. apply step_ext; assumption.
  - destruct (proj2 (complete now ts ms i L L' r IH H1 H3)) as (L1 & X & E); [auto|].
    eapply reached_run; [exact IH|].
    apply (run_cons e _ _ (EvIx ts ms i) L1 [EvExt ts]); [eapply step_ix; eassumption|].
    apply (run_cons e _ _ (EvExt ts) L' []); [|constructor]. cbn [time_of]. apply step_ext; [lia|assumption|].
    pose proof (reached_exec e now ts ms i L L1 r IH H1 H2 H3 X) as R1.
    destruct (reached_ok e Henv _ _ R1) as (OK & _). intros k. rewrite <- E. apply Contain.external_refl. apply OK.
Qed.

Lemma run_described now L evs now' L' : run e now L evs now' L' -> described e now L -> described e now' L'.
Proof.
  induction 1 as [|now L ev L1 evs now' L' S R IH]; intros D; [assumption|]. apply IH.
  destruct S as [ts ms i L1 r H1 H2 H3 H4|ts L1 H1 H2 H3]; cbn [time_of].
  - destruct (proj1 (complete now ts ms i L L1 r (described_reached _ _ D) H1 H3)) as (A & B & C & F); [exists L1; auto|].
    eapply de_call; eassumption.
  - eapply de_outside; eassumption.
Qed.
Lemma described_iff now L : described e now L <-> reached e now L.
Proof.
  split; [apply described_reached|]. intros (L0 & evs & G & R). eapply run_described; [exact R|]. apply de_start. assumption.
Qed.
End env.
