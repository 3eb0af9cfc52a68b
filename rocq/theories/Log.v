(** Proofs of C85: a pool and its minings can be worked out from the pool's log. *)
From stdpp Require Import gmap.
From Verif Require Import Base OMap State Spec EffectSpec Ledger Program ResLemmas TreeLemmas AccrualLemmas RefreshLemmas WfLemmas LedgerLemmas LedgerSpec
  CodecLemmas History HistoryLemmas Changes AccessLemmas HistoryThms ReachThms EffectLemmas EffectMethods EffectThms EffectMore
  SuccessSpec SuccessThms LedgerCore Determined Commute CompleteSpec Complete PowerSpec Powers FreezeSpec Freeze CapSpec Cap
  IncomeSpec Income DiarySpec Diary LogSpec.

Definition if_there (b : list bool) (n : nat) (a : Z) : Z := if nth n b false then a else 0.

(** what one entry does to the pool *)
Definition pstep (x : entry) (w w' : wpool) : Prop :=
  let '(ts, i, b) := x in
  match i with
  | FillVault x date => w' = filled w x date
  | DepositMining a p _ _ => only_total w w' /\ p_total (wp w') = p_total (wp w) + a * weight_of p + if_there b 0 a /\
      scheduled 365 (expiry p ts) (a * (weight_of p - 1)) (wp_diffs w) (wp_diffs w') /\ ascending (wp_diffs w')
  | WithdrawMining a _ _ => only_total w w' /\
      p_total (wp w') = p_total (wp w) - a - Spec.due (day_start ts) (wp_diffs w) - if_there b 0 a /\
      wp_diffs w' = Spec.after (day_start ts) (wp_diffs w)
  | ExtendStake op np start base extra _ _ => only_total w w' /\
      p_total (wp w') = p_total (wp w) - counted op start ts base + (base + extra) * weight_of np + if_there b 0 extra /\
      scheduled 365 (expiry np ts) ((base + extra) * (weight_of np - 1)) (wp_diffs w) (wp_diffs w') /\ ascending (wp_diffs w')
  | ChangeDelegate a _ => only_total w w' /\ wp_diffs w' = wp_diffs w /\
      p_total (wp w') = p_total (wp w) - if_there b 0 a + if_there b 1 a
  | Slash _ native weighted date => only_total w w' /\
      p_total (wp w') = p_total (wp w) - weighted - Spec.due (day_start ts) (wp_diffs w) /\
      match date with
      | None => wp_diffs w' = Spec.after (day_start ts) (wp_diffs w)
      | Some x => lowered (day_start x) (weighted - native) (Spec.after (day_start ts) (wp_diffs w)) (wp_diffs w')
      end
  | DistributeRewards => distributed ts w w'
  | _ => w' = w
  end.

Lemma pstep_fun x w a b : ascending (wp_diffs w) -> pstep x w a -> pstep x w b -> a = b.
Proof.
  destruct x as [[ts i] l]. intros A. destruct i; cbn [pstep]; try congruence.
  - intros (O1 & T1 & S1 & A1) (O2 & T2 & S2 & A2). eapply only_total_ext; [exact O1|exact O2|congruence|eapply scheduled_fun; eassumption].
  - intros (O1 & T1 & S1) (O2 & T2 & S2). eapply only_total_ext; [exact O1|exact O2|congruence|congruence].
  - intros (O1 & T1 & S1 & A1) (O2 & T2 & S2 & A2). eapply only_total_ext; [exact O1|exact O2|congruence|eapply scheduled_fun; eassumption].
  - apply distributed_fun.
  - intros (O1 & T1 & S1) (O2 & T2 & S2). eapply only_total_ext; [exact O1|exact O2|congruence|congruence].
  - intros (O1 & T1 & S1) (O2 & T2 & S2). eapply only_total_ext; [exact O1|exact O2|congruence|].
    match type of S1 with match ?d with _ => _ end => destruct d as [u|] end; [|congruence].
    eapply lowered_fun; [|eassumption..]. apply ascending_after. exact A.
Qed.

(** a pool without what tells it from others *)
Definition plain (w : wpool) : wpool :=
  WPool (Pool 0 0 0 0 (p_index (wp w)) (p_total (wp w)) (p_ends_at (wp w)) (p_avail (wp w)) 0 0) (wp_diffs w) (wp_ci w).
Lemma plain_total w w' : only_total w w' -> only_total (plain w) (plain w').
Proof. unfold only_total, plain. cbn. tauto. Qed.
Lemma plain_step x w w' : pstep x w w' -> pstep x (plain w) (plain w').
Proof.
  destruct x as [[ts i] l]. destruct i; cbn [pstep]; try (intros ->; reflexivity);
    try (intros [O H]; split; [exact (plain_total _ _ O)|exact H]).
  intros (O & H). split; [|exact H]. destruct O as (_ & _ & _ & _ & E & _). unfold only_distribution, plain. cbn. tauto.
Qed.
Lemma plain_alike v w : plain v = plain w <-> pools_alike v w.
Proof.
  unfold plain, pools_alike. split; [intros H; injection H; intuition congruence|].
  intros (E1 & E2 & E3 & E4 & E5 & E6). congruence.
Qed.

Inductive psteps : list entry -> wpool -> wpool -> Prop :=
| ps_nil w : psteps [] w w
| ps_cons x b w w1 w' : pstep x w w1 -> ascending (wp_diffs w1) -> psteps b w1 w' -> psteps (x :: b) w w'.
Lemma psteps_fun b w w1 : psteps b w w1 -> ascending (wp_diffs w) -> forall w2, psteps b w w2 -> w1 = w2.
Proof.
  induction 1 as [w|x b w w1 w' P A H IH]; intros As w2 H2; inversion H2; subst; [reflexivity|].
  match goal with P2 : pstep x w ?n |- _ => pose proof (pstep_fun x w _ _ As P P2); subst end. apply IH; assumption.
Qed.
Lemma plain_steps b w w' : psteps b w w' -> psteps b (plain w) (plain w').
Proof. induction 1 as [w|x b w w1 w' P A H IH]; [constructor|]. econstructor; [exact (plain_step _ _ _ P)|exact A|exact IH]. Qed.

(** pool and mining together *)
Definition step (x : full_entry) (w : wpool) (m : wmining) (p : Z) (w' : wpool) (m' : wmining) : Prop :=
  let '(ts, i, b, l) := x in
  pstep (ts, i, b) w w' /\
  match l with
  | [] => p = 0 /\ m' = m
  | _ => page (ts, i, l, wp_ci w) m p m'
  end.
Inductive steps : list full_entry -> wpool -> wmining -> Z -> wpool -> wmining -> Prop :=
| st_nil w m : steps [] w m 0 w m
| st_cons x b w m p w1 m1 y w' m' : step x w m p w1 m1 -> ascending (wp_diffs w1) -> ascending (wm_diffs m1) ->
    steps b w1 m1 y w' m' -> steps (x :: b) w m (p + y) w' m'.
Lemma step_fun x w m p a c q b d : ascending (wp_diffs w) -> ascending (wm_diffs m) ->
  step x w m p a c -> step x w m q b d -> p = q /\ a = b /\ c = d.
Proof.
  destruct x as [[[ts i] l] ns]. intros A B [P1 M1] [P2 M2]. rewrite (pstep_fun _ _ _ _ A P1 P2).
  destruct ns as [|n0 ns]; [intuition congruence|]. destruct (page_fun _ _ _ _ _ _ B M1 M2) as [-> ->]. auto.
Qed.
Lemma steps_fun b w m y1 w1 m1 : steps b w m y1 w1 m1 -> ascending (wp_diffs w) -> ascending (wm_diffs m) ->
  forall y2 w2 m2, steps b w m y2 w2 m2 -> y1 = y2 /\ w1 = w2 /\ m1 = m2.
Proof.
  induction 1 as [w m|x b w m p w1 m1 y w' m' P A B H IH]; intros As Bs y2 w2 m2 H2; inversion H2; subst; [auto|].
  match goal with P2 : step x w m _ _ _ |- _ => destruct (step_fun x w m _ _ _ _ _ _ As Bs P P2) as (-> & -> & ->) end.
  edestruct IH as (-> & -> & ->); [assumption|assumption|eassumption|]. auto.
Qed.
Lemma plain_full x w m p w' m' : step x w m p w' m' -> step x (plain w) (bare m) p (plain w') (bare m').
Proof.
  destruct x as [[[ts i] l] ns]. intros [P M]. split; [exact (plain_step _ _ _ P)|].
  destruct ns as [|n0 ns]; [destruct M as [-> ->]; auto|]. exact (bare_page (ts, i, n0 :: ns, wp_ci w) _ _ _ M).
Qed.
Lemma plain_fulls b w m y w' m' : steps b w m y w' m' -> steps b (plain w) (bare m) y (plain w') (bare m').
Proof. induction 1; [constructor|]. econstructor; [apply plain_full; eassumption|assumption..]. Qed.

Section env.
Context (e : env) (Henv : env_ok e).

Lemma part_there L q dm d a : delegate_part e L q dm d -> for_delegate d a = if negb (q =? dm) then a else 0.
Proof.
  intros [[-> ->]|(N & y & _ & ->)]; [rewrite Z.eqb_refl; reflexivity|].
  rewrite (proj2 (Z.eqb_neq _ _)) by congruence. reflexivity.
Qed.

Lemma exec_pstep now ts ms i L L' r P w w' :
  reached e now L -> now <= ts -> ix_in_range i -> exec e ts ms i L = Ok (L', r) ->
  is_pool e L P w -> p_type (wp w) = 1 -> is_pool e L' P w' ->
  match logged P ts ms i with
  | [] => w' = w
  | x :: _ => pstep x w w'
  end.
Proof.
  intros HR Hts Hi X Hw Tw Hw'.
  pose proof (exec_effect e Henv now ts ms i L L' r HR Hts Hi X) as F.
  pose proof (only_allowed e Henv now ts ms i L L' r HR Hts Hi X) as AL.
  assert (Same : acc L' P = acc L P -> w' = w).
  { intros E. destruct Hw as [_ H1], Hw' as [_ H2]. unfold data_of in *. congruence. }
  assert (New : forall a x, acc L' P = holding a (DPool x) -> w' = x).
  { intros a x E. destruct Hw' as [_ H2]. unfold data_of in H2. rewrite E in H2. cbn in H2. congruence. }
  assert (Kept : forall x, acc L' P = having (acc L P) x -> w' = w).
  { intros x E. destruct Hw as [_ H1], Hw' as [_ H2]. unfold data_of in *. rewrite E in H2. cbn in H2. congruence. }
  assert (NM : forall q m, is_mining e L q m -> (q =? P) = false).
  { intros q m [_ H2]. apply Z.eqb_neq. intros ->. destruct Hw as [_ H1]. congruence. }
  assert (ND : forall q dm d D', delegate_part e L q dm d -> match d, D' with None, None => True | Some _, Some _ => True | _, _ => False end ->
             listed P (delegate_now L dm D') = None).
  { intros q dm d D' H HD. destruct D' as [y|]; [|reflexivity]. destruct d as [z|]; [|contradiction].
    destruct H as [[_ H]|(_ & y' & Hy & _)]; [discriminate|]. cbn [delegate_now listed mining_now]. rewrite (NM _ _ Hy). reflexivity. }
  assert (NT : forall q t, data_of L q = DToken t -> (q =? P) = false).
  { intros q t H. apply Z.eqb_neq. intros ->. destruct Hw as [_ H1]. congruence. }
  assert (NS : forall q, owner_of L q = system_id -> (q =? P) = false).
  { intros q H. apply Z.eqb_neq. intros ->. destruct Hw as [H1 _]. pose proof (eo_sys _ Henv). congruence. }
  unfold logged, names.
  destruct i; cbn [effect] in F; cbn [allowed] in AL; cbn [writes_pool andb pool_position].
  - (* InitializePool *)
    destruct F as (p & mi & v & pa & au & b & [rs Hms] & _ & _ & B). specialize (B P). cbn [listed pool_now] in B.
    destruct AL as (p2 & mi2 & v2 & pa2 & au2 & u & [rs2 Hms2] & Hu & Tu & _ & _ & _ & (_ & Vo & _) & (_ & Po & _) & _).
    rewrite Hms in Hms2. cbn in Hms2. injection Hms2 as <- <- <- <- <- _. rewrite (NS _ Vo), (NS _ Po) in B.
    destruct (Z.eqb_spec p P) as [->|]; [rewrite (pool_fun e _ _ _ _ Hu Hw) in Tu; contradiction|exact (Same B)].
  - (* FillVault *)
    destruct F as (p & mi & v & au & so & u & sv & vv & [rs Hms] & Hu & Ds & Dv & _ & B). specialize (B P). cbn [listed pool_now] in B.
    rewrite Hms. cbn [nth_error app]. destruct (Z.eqb_spec p P) as [->|].
    + rewrite (pool_fun e _ _ _ _ Hu Hw) in B. exact (New _ _ B).
    + apply Same. rewrite B. unfold tokens_now. destruct (so =? v); [reflexivity|]. cbn [listed]. rewrite (NT _ _ Ds), (NT _ _ Dv). reflexivity.
  - (* InitializeMining *)
    destruct F as (p & mi & pa & b & [rs Hms] & _ & _ & B). specialize (B P). cbn [listed] in B.
    destruct AL as (p2 & mi2 & pa2 & [rs2 Hms2] & _ & _ & (_ & Vo & _) & (_ & Po & _) & _). rewrite Hms in Hms2. cbn in Hms2. injection Hms2 as <- <- <- _.
    rewrite (NS _ Vo), (NS _ Po) in B. exact (Same B).
  - (* DepositMining *)
    destruct F as (p & q & au & dm & u & x & D & u' & x' & D' & [rs Hms] & Hu & Hx & HD & (_ & OT & TT & SS & AA & RD) & _ & B).
    rewrite Hms. specialize (B P). cbn [listed pool_now mining_now] in B. rewrite (NM _ _ Hx) in B.
    rewrite (ND q dm D D' HD) in B by (destruct D, D'; exact I || exact RD).
    cbn [delegates]. unfold aside. rewrite Hms. cbn [nth_error app].
    destruct (Z.eqb_spec p P) as [->|]; [|exact (Same B)]. rewrite (pool_fun e _ _ _ _ Hu Hw) in *. rewrite (New _ _ B).
    cbn [pstep gist]. unfold if_there. cbn [nth]. rewrite <- (part_there _ _ _ _ amount HD). auto.
  - (* WithdrawMining *)
    destruct F as (p & q & au & dm & u & x & D & u' & x' & D' & [rs Hms] & Hu & Hx & HD & (_ & OT & TT & SS & RD) & _ & B).
    rewrite Hms. specialize (B P). cbn [listed pool_now mining_now] in B. rewrite (NM _ _ Hx) in B.
    rewrite (ND q dm D D' HD) in B by (destruct D, D'; exact I || exact RD).
    cbn [delegates]. unfold aside. rewrite Hms. cbn [nth_error app].
    destruct (Z.eqb_spec p P) as [->|]; [|exact (Same B)]. rewrite (pool_fun e _ _ _ _ Hu Hw) in *. rewrite (New _ _ B).
    cbn [pstep gist]. unfold if_there. cbn [nth]. rewrite <- (part_there _ _ _ _ amount HD). auto.
  - (* Claim *)
    destruct F as (p & mi & v & q & ow & au & de & u & x & x1 & [rs Hms] & Hu & Hx & R & -> & B).
    apply Same. destruct B as [[_ B]|(_ & tv & tt & Dv & Dd & B)]; rewrite (B P); cbn [listed mining_now]; rewrite (NM _ _ Hx); [reflexivity|].
    unfold tokens_now. destruct (v =? de); [reflexivity|]. cbn [listed]. rewrite (NT _ _ Dv), (NT _ _ Dd). reflexivity.
  - (* ExtendStake *)
    destruct F as (p & q & au & dm & u & x & D & u' & x' & D' & [rs Hms] & Hu & Hx & HD & (_ & OT & TT & SS & AA & RD) & _ & B).
    rewrite Hms. specialize (B P). cbn [listed pool_now mining_now] in B. rewrite (NM _ _ Hx) in B.
    rewrite (ND q dm D D' HD) in B by (destruct D, D'; exact I || exact RD).
    cbn [delegates]. unfold aside. rewrite Hms. cbn [nth_error app].
    destruct (Z.eqb_spec p P) as [->|]; [|exact (Same B)]. rewrite (pool_fun e _ _ _ _ Hu Hw) in *. rewrite (New _ _ B).
    cbn [pstep gist]. unfold if_there. cbn [nth]. rewrite <- (part_there _ _ _ _ _ HD). auto.
  - (* DistributeRewards *)
    destruct F as (p & au & u & u' & [rs Hms] & Hu & DD & _ & B). rewrite Hms. cbn [nth_error app].
    specialize (B P). cbn [listed pool_now] in B. destruct (Z.eqb_spec p P) as [->|]; [|exact (Same B)].
    rewrite (pool_fun e _ _ _ _ Hu Hw) in *. rewrite (New _ _ B). exact DD.
  - (* CloseMining *)
    destruct F as (mi & ow & ta & [rs Hms] & _ & B). specialize (B P). cbn [listed] in B.
    destruct (Z.eqb_spec mi P) as [->|]; [destruct Hw' as [_ H2]; unfold data_of in H2; rewrite B in H2; discriminate H2|].
    destruct (Z.eqb_spec ta P) as [->|]; [exact (Kept _ B)|exact (Same B)].
  - (* ChangeDelegate *)
    destruct F as (p & q & au & ow & od & nd & u & x & O & N & u' & x' & O' & N' & [rs Hms] & Hu & Hx & HO & HN & (R & OT & SS & TT & RO & RN) & _ & B).
    rewrite Hms. specialize (B P). cbn [listed pool_now mining_now] in B. rewrite (NM _ _ Hx), listed_app in B.
    rewrite (ND q od O O' HO) in B by (destruct O, O'; exact I || exact RO).
    rewrite (ND q nd N N' HN) in B by (destruct N, N'; exact I || exact RN).
    cbn [delegates]. unfold aside. rewrite Hms. cbn [nth_error app].
    destruct (Z.eqb_spec p P) as [->|]; [|exact (Same B)]. rewrite (pool_fun e _ _ _ _ Hu Hw) in *. rewrite (New _ _ B).
    cbn [pstep gist]. unfold if_there. cbn [nth]. rewrite <- (part_there _ _ _ _ staked_amount HO), <- (part_there _ _ _ _ staked_amount HN). auto.
  - (* Slash *)
    destruct F as (au & p & q & u & x & u' & x' & [rs Hms] & Hu & Hx & (x1 & R & O & OT & Es & TT & T) & _ & B).
    rewrite Hms. cbn [nth_error app]. specialize (B P). cbn [listed pool_now mining_now] in B. rewrite (NM _ _ Hx) in B.
    destruct (Z.eqb_spec p P) as [->|]; [|exact (Same B)]. rewrite (pool_fun e _ _ _ _ Hu Hw) in *. rewrite (New _ _ B).
    cbn [pstep gist]. split; [exact OT|]. split; [exact TT|].
    match type of T with match ?d with _ => _ end => destruct d as [y|] end; apply T.
  - (* DecreaseRewards *)
    destruct F as (au & p & q & x & x' & [rs Hms] & Hx & DD & _ & B).
    specialize (B P). cbn [listed mining_now] in B. rewrite (NM _ _ Hx) in B. exact (Same B).
Qed.

Lemma exec_step now ts ms i L L' r P k w w' m m' :
  reached e now L -> now <= ts -> ix_in_range i -> exec e ts ms i L = Ok (L', r) ->
  is_pool e L P w -> p_type (wp w) = 1 -> is_pool e L' P w' ->
  is_mining e L k m -> is_mining e L' k m' -> m_type (wm m') = 2 ->
  (places k ms i = [] \/ names ms (pool_position i) P = true) ->
  match logged_with P k ts ms i with
  | [] => takes k ms i r = 0 /\ w' = w /\ m' = m
  | x :: _ => step x w m (takes k ms i r) w' m'
  end.
Proof.
  intros HR Hts Hi X Hw Tw Hw' Hm Hm' Tm' HH.
  pose proof (exec_pstep now ts ms i L L' r P w w' HR Hts Hi X Hw Tw Hw') as EP.
  pose proof (exec_page e Henv now ts ms i L L' r k m m' HR Hts Hi X Hm Hm' Tm') as EM.
  unfold logged in EP. unfold note in EM. unfold logged_with.
  destruct (names ms (pool_position i) P) eqn:EN.
  - rewrite andb_true_r in EP. destruct (places k ms i) as [|n0 ns] eqn:EQ.
    + destruct EM as [E1 E2]. destruct (writes_pool i); [split; [exact EP|auto]|auto].
    + assert (G : pstep (ts, gist i, delegates ms i) w w') by (destruct i; exact EP).
      assert (G2 : page (ts, gist i, n0 :: ns, wp_ci w) m (takes k ms i r) m').
      { assert (ES : (exists o z, i = DecreaseRewards o z) \/ shown L ms i = wp_ci w).
        { unfold shown. unfold names in EN. destruct (nth_error (map mt_key ms) (pool_position i)) as [Q|] eqn:EK; [|discriminate].
          apply Z.eqb_eq in EN. subst Q. rewrite (proj2 Hw). destruct i; eauto. }
        destruct ES as [(o & z & E)|E]; [subst i; exact EM|rewrite E in EM; exact EM]. }
      destruct (writes_pool i); split; assumption.
  - rewrite andb_false_r in EP. destruct HH as [E|]; [|discriminate]. rewrite E in EM. destruct EM. auto.
Qed.

Lemma logged_short P ts ms i x b : logged P ts ms i = x :: b -> b = [].
Proof. unfold logged. destruct (_ && _); [|discriminate]. intros H. injection H as _ <-. reflexivity. Qed.
Lemma logged_with_short P k ts ms i x b : logged_with P k ts ms i = x :: b -> b = [].
Proof. unfold logged_with. destruct (names _ _ _); [|discriminate]. destruct (writes_pool i), (places k ms i); intros H; inversion H; reflexivity. Qed.

Lemma pool_log_running P now L now' L' b : pool_log e P now L now' L' b -> running e P L.
Proof. intros H. destruct H; assumption. Qed.
Lemma full_log_running P k now L now' L' b x : full_log e P k now L now' L' b x -> running e P L /\ open e k L.
Proof. intros H. destruct H; auto. Qed.

Lemma ext_reached now ts L L1 : reached e now L -> now <= ts -> is_u64 ts -> external e L L1 -> reached e ts L1.
Proof.
  intros HR Hts Hu X. eapply (reached_run e now L [EvExt ts]); [exact HR|]. econstructor; [|apply run_nil]. constructor; assumption.
Qed.
Lemma ext_pool L L1 P w w1 : external e L L1 -> is_pool e L P w -> is_pool e L1 P w1 -> w1 = w.
Proof.
  intros X [Ho Hd] [Ho1 Hd1]. unfold data_of, owner_of in *. destruct (X P) as (_ & Xk & _). specialize (Xk Ho).
  destruct Xk as [(_ & E & _)|[_ E]]; [congruence|]. rewrite E in Hd1. discriminate.
Qed.
Lemma ext_mining L L1 k m m1 : external e L L1 -> is_mining e L k m -> is_mining e L1 k m1 -> m1 = m.
Proof.
  intros X [Ho Hd] [Ho1 Hd1]. unfold data_of, owner_of in *. destruct (X k) as (_ & Xk & _). specialize (Xk Ho).
  destruct Xk as [(_ & E & _)|[_ E]]; [congruence|]. rewrite E in Hd1. discriminate.
Qed.
Lemma pool_asc now L P w : reached e now L -> is_pool e L P w -> ascending (wp_diffs w).
Proof. intros HR [Ho Hd]. destruct (reached_ok e Henv _ _ HR) as (HL & _). exact (pw_diffs_asc _ _ (ok_pool e _ _ _ _ HL Ho Hd)). Qed.
Lemma mining_asc now L k m : reached e now L -> is_mining e L k m -> ascending (wm_diffs m).
Proof. intros HR [Ho Hd]. destruct (reached_ok e Henv _ _ HR) as (HL & _). exact (mw_asc _ (ok_mining e _ _ _ _ HL Ho Hd)). Qed.

Lemma log_steps P now L now' L' b : pool_log e P now L now' L' b -> reached e now L ->
  forall w, is_pool e L P w -> exists w', is_pool e L' P w' /\ psteps b w w'.
Proof.
  induction 1 as [now L O|now L ts ms i L1 r now' L' b O Hts Hu Hi X HI IH|now L ts L1 now' L' b O Hts Hu X HI IH]; intros HR w Hw.
  - exists w. split; [assumption|constructor].
  - destruct (pool_log_running _ _ _ _ _ _ HI) as (w1 & Hw1 & T1). destruct O as (w0 & Hw0 & T0).
    rewrite (pool_fun e _ _ _ _ Hw0 Hw) in T0.
    pose proof (reached_exec e now ts ms i L L1 r HR Hts Hu Hi X) as HR1.
    destruct (IH HR1 w1 Hw1) as (w' & Hw' & PS). exists w'. split; [assumption|].
    pose proof (exec_pstep now ts ms i L L1 r P w w1 HR Hts Hi X Hw T0 Hw1) as E.
    destruct (logged P ts ms i) as [|y t] eqn:En; [rewrite E in PS; exact PS|].
    rewrite (logged_short _ _ _ _ _ _ En). econstructor; [exact E|exact (pool_asc _ _ _ _ HR1 Hw1)|exact PS].
  - destruct (pool_log_running _ _ _ _ _ _ HI) as (w1 & Hw1 & T1). pose proof (ext_pool _ _ _ _ _ X Hw Hw1) as ->.
    apply IH; [|assumption]. eapply ext_reached; eassumption.
Qed.

Lemma full_log_steps P k now L now' L' b x : full_log e P k now L now' L' b x -> reached e now L ->
  forall w m, is_pool e L P w -> is_mining e L k m -> exists w' m', is_pool e L' P w' /\ is_mining e L' k m' /\ steps b w m x w' m'.
Proof.
  induction 1 as [now L O OM|now L ts ms i L1 r now' L' b x O OM Hts Hu Hi X HH HI IH|now L ts L1 now' L' b x O OM Hts Hu X HI IH]; intros HR w m Hw Hm.
  - exists w, m. split; [assumption|]. split; [assumption|constructor].
  - destruct (full_log_running _ _ _ _ _ _ _ _ HI) as [(w1 & Hw1 & T1) (m1 & Hm1 & U1)]. destruct O as (w0 & Hw0 & T0).
    rewrite (pool_fun e _ _ _ _ Hw0 Hw) in T0.
    pose proof (reached_exec e now ts ms i L L1 r HR Hts Hu Hi X) as HR1.
    destruct (IH HR1 w1 m1 Hw1 Hm1) as (w' & m' & Hw' & Hm' & PS). exists w', m'. split; [assumption|]. split; [assumption|].
    pose proof (exec_step now ts ms i L L1 r P k w w1 m m1 HR Hts Hi X Hw T0 Hw1 Hm Hm1 U1 HH) as E.
    destruct (logged_with P k ts ms i) as [|y t] eqn:En; [destruct E as (-> & E1 & E2); rewrite E1, E2 in PS; exact PS|].
    rewrite (logged_with_short _ _ _ _ _ _ _ En).
    econstructor; [exact E|exact (pool_asc _ _ _ _ HR1 Hw1)|exact (mining_asc _ _ _ _ HR1 Hm1)|exact PS].
  - destruct (full_log_running _ _ _ _ _ _ _ _ HI) as [(w1 & Hw1 & T1) (m1 & Hm1 & U1)].
    pose proof (ext_pool _ _ _ _ _ X Hw Hw1) as ->. pose proof (ext_mining _ _ _ _ _ X Hm Hm1) as ->.
    apply IH; [|assumption|assumption]. eapply ext_reached; eassumption.
Qed.
End env.

Lemma same_log e1 e2 : env_ok e1 -> env_ok e2 -> forall P1 P2 now1 L1 now1' L1' now2 L2 now2' L2' b v w v' w',
  reached e1 now1 L1 -> reached e2 now2 L2 ->
  pool_log e1 P1 now1 L1 now1' L1' b -> pool_log e2 P2 now2 L2 now2' L2' b ->
  is_pool e1 L1 P1 v -> is_pool e2 L2 P2 w -> pools_alike v w ->
  is_pool e1 L1' P1 v' -> is_pool e2 L2' P2 w' -> pools_alike v' w'.
Proof.
  intros H1 H2 P1 P2 now1 L1 now1' L1' now2 L2 now2' L2' b v w v' w' R1 R2 D1 D2 M1 M2 A N1 N2.
  destruct (log_steps e1 H1 _ _ _ _ _ _ D1 R1 v M1) as (v1 & X1 & S1). rewrite (pool_fun e1 _ _ _ _ X1 N1) in S1.
  destruct (log_steps e2 H2 _ _ _ _ _ _ D2 R2 w M2) as (w1 & X2 & S2). rewrite (pool_fun e2 _ _ _ _ X2 N2) in S2.
  apply plain_steps in S1, S2. apply plain_alike in A. rewrite <- A in S2.
  apply plain_alike. exact (psteps_fun _ _ _ S1 (pool_asc e1 H1 _ _ _ _ R1 M1) _ S2).
Qed.

Lemma same_full_log e1 e2 : env_ok e1 -> env_ok e2 -> forall P1 P2 k1 k2 now1 L1 now1' L1' now2 L2 now2' L2' b x y v w v' w' m n m' n',
  reached e1 now1 L1 -> reached e2 now2 L2 ->
  full_log e1 P1 k1 now1 L1 now1' L1' b x -> full_log e2 P2 k2 now2 L2 now2' L2' b y ->
  is_pool e1 L1 P1 v -> is_pool e2 L2 P2 w -> pools_alike v w ->
  is_mining e1 L1 k1 m -> is_mining e2 L2 k2 n -> alike m n ->
  is_pool e1 L1' P1 v' -> is_pool e2 L2' P2 w' -> is_mining e1 L1' k1 m' -> is_mining e2 L2' k2 n' ->
  x = y /\ pools_alike v' w' /\ alike m' n'.
Proof.
  intros H1 H2 P1 P2 k1 k2 now1 L1 now1' L1' now2 L2 now2' L2' b x y v w v' w' m n m' n' R1 R2 D1 D2 V W A M N B V' W' M' N'.
  destruct (full_log_steps e1 H1 _ _ _ _ _ _ _ _ D1 R1 v m V M) as (v1 & m1 & X1 & Y1 & S1).
  rewrite (pool_fun e1 _ _ _ _ X1 V'), (mining_fun e1 _ _ _ _ Y1 M') in S1.
  destruct (full_log_steps e2 H2 _ _ _ _ _ _ _ _ D2 R2 w n W N) as (w1 & n1 & X2 & Y2 & S2).
  rewrite (pool_fun e2 _ _ _ _ X2 W'), (mining_fun e2 _ _ _ _ Y2 N') in S2.
  apply plain_fulls in S1, S2. apply plain_alike in A. apply bare_alike in B. rewrite <- A, <- B in S2.
  destruct (steps_fun _ _ _ _ _ _ S1 (pool_asc e1 H1 _ _ _ _ R1 V) (mining_asc e1 H1 _ _ _ _ R1 M) _ _ _ S2) as (-> & E1 & E2).
  split; [reflexivity|]. split; [apply plain_alike; exact E1|apply bare_alike; exact E2].
Qed.
