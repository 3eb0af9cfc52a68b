(** Proofs of C84: the contents of a mining depend on its diary only. *)
From stdpp Require Import gmap.
From Verif Require Import Base OMap State Spec EffectSpec Ledger Program ResLemmas TreeLemmas AccrualLemmas RefreshLemmas WfLemmas LedgerLemmas LedgerSpec
  CodecLemmas History HistoryLemmas Changes AccessLemmas HistoryThms ReachThms EffectLemmas EffectMethods EffectThms EffectMore
  SuccessSpec SuccessThms LedgerCore Determined Commute CompleteSpec Complete PowerSpec Powers FreezeSpec Freeze CapSpec Cap
  IncomeSpec Income DiarySpec.

Definition here (n : nat) (l : list nat) : bool := existsb (Nat.eqb n) l.

(** what one line does to a mining: [p] tokens are paid *)
Definition page (x : line) (m : wmining) (p : Z) (m' : wmining) : Prop :=
  let '(ts, i, l, ci) := x in
  match i with
  | DepositMining a pd _ _ => p = 0 /\
      if here 1 l then
        exists m1, refreshed ts ci m m1 /\ only_stake m1 m' /\ m_share (wm m') = m_share (wm m1) + a * weight_of pd /\
          scheduled 50 (expiry pd ts) (a * (weight_of pd - 1)) (wm_diffs m1) (wm_diffs m') /\ ascending (wm_diffs m')
      else refreshed ts ci (with_delegated m (m_sfo (wm m) + a)) m'
  | WithdrawMining a _ _ => p = 0 /\
      if here 1 l then
        exists m1, refreshed ts ci m m1 /\ only_stake m1 m' /\ m_share (wm m') = m_share (wm m1) - a /\ wm_diffs m' = wm_diffs m1
      else refreshed ts ci (with_delegated m (m_sfo (wm m) + - a)) m'
  | ExtendStake op np start base extra _ _ => p = 0 /\
      if here 1 l then
        exists m1 t, refreshed ts ci m m1 /\ only_stake m1 m' /\
          m_share (wm m') = m_share (wm m1) - counted op start ts base + (base + extra) * weight_of np /\
          (if unexpired op start ts then lowered (expiry op start) (base * (weight_of op - 1)) (wm_diffs m1) t
           else t = wm_diffs m1) /\
          scheduled 50 (expiry np ts) ((base + extra) * (weight_of np - 1)) t (wm_diffs m') /\ ascending (wm_diffs m')
      else exists z, refreshed ts ci (with_delegated m (m_sfo (wm m) - base)) z /\ m' = with_delegated z (m_sfo (wm m) + extra)
  | ChangeDelegate a _ => p = 0 /\
      if here 1 l then refreshed ts ci m m'
      else if here 4 l then refreshed ts ci (with_delegated m (m_sfo (wm m) + - a)) m'
      else refreshed ts ci (with_delegated m (m_sfo (wm m) + a)) m'
  | Slash _ native weighted date => p = 0 /\
      exists m1, refreshed ts ci m m1 /\ only_stake m1 m' /\ m_share (wm m') = m_share (wm m1) - weighted /\
        match date with
        | None => wm_diffs m' = wm_diffs m1
        | Some x => lowered (day_start x) (weighted - native) (wm_diffs m1) (wm_diffs m')
        end
  | DecreaseRewards _ n => p = 0 /\ decreased m n m'
  | Claim => exists m1, refreshed ts ci m m1 /\ p = m_unclaimed (wm m1) /\ m' = emptied m1
  | _ => False
  end.

Lemma page_fun x m p1 m1 p2 m2 : ascending (wm_diffs m) -> page x m p1 m1 -> page x m p2 m2 -> p1 = p2 /\ m1 = m2.
Proof.
  destruct x as [[[ts i] l] ci]. intros A. destruct i; cbn [page]; try (intros []; fail).
  - intros [-> H1] [-> H2]. split; [reflexivity|]. destruct (here 1 l); [|eapply refreshed_unique; eassumption].
    destruct H1 as (x & R1 & O1 & S1 & D1 & A1), H2 as (y & R2 & O2 & S2 & D2 & A2). same_m1 R1 R2.
    eapply wmining_ext; [exact O1|exact O2|congruence|]. eapply scheduled_fun; eassumption.
  - intros [-> H1] [-> H2]. split; [reflexivity|]. destruct (here 1 l); [|eapply refreshed_unique; eassumption].
    destruct H1 as (x & R1 & O1 & S1 & D1), H2 as (y & R2 & O2 & S2 & D2). same_m1 R1 R2.
    eapply wmining_ext; [exact O1|exact O2|congruence|congruence].
  - intros (x & R1 & -> & ->) (y & R2 & -> & ->). same_m1 R1 R2. auto.
  - intros [-> H1] [-> H2]. split; [reflexivity|]. destruct (here 1 l).
    + destruct H1 as (x & t & R1 & O1 & S1 & L1 & D1 & A1), H2 as (y & u & R2 & O2 & S2 & L2 & D2 & A2). same_m1 R1 R2.
      assert (t = u) as <-.
      { destruct (unexpired _ _ ts); [|congruence]. eapply lowered_fun; [|exact L1|exact L2]. eapply refreshed_asc; [exact A|eassumption]. }
      eapply wmining_ext; [exact O1|exact O2|congruence|]. eapply scheduled_fun; eassumption.
    + destruct H1 as (z & R1 & ->), H2 as (z' & R2 & ->). same_m1 R1 R2. reflexivity.
  - intros [-> H1] [-> H2]. split; [reflexivity|]. destruct (here 1 l); [eapply refreshed_unique; eassumption|].
    destruct (here 4 l); eapply refreshed_unique; eassumption.
  - intros [-> H1] [-> H2]. split; [reflexivity|]. destruct H1 as (x & R1 & O1 & S1 & D1), H2 as (y & R2 & O2 & S2 & D2). same_m1 R1 R2.
    eapply wmining_ext; [exact O1|exact O2|congruence|].
    match type of D1 with match ?d with _ => _ end => destruct d as [u|] end; [|congruence].
    eapply lowered_fun; [|eassumption..]. eapply refreshed_asc; [exact A|eassumption].
  - intros [-> H1] [-> H2]. split; [reflexivity|]. eapply decreased_fun; eassumption.
Qed.

(** a mining without what tells it from others *)
Definition bare (m : wmining) : wmining :=
  WMining (Mining 0 0 0 (m_index (wm m)) (m_share (wm m)) (m_unclaimed (wm m)) (m_sfo (wm m)) 0 0) (wm_diffs m).

Lemma bare_same m m' : same_mining (bare m) (bare m').
Proof. repeat split. Qed.
Lemma bare_refreshed ts ci m m' : refreshed ts ci m m' -> refreshed ts ci (bare m) (bare m').
Proof. intros []. constructor; [apply bare_same|assumption..]. Qed.
Lemma bare_stake m m' : only_stake m m' -> only_stake (bare m) (bare m').
Proof. intros (_ & H). split; [apply bare_same|exact H]. Qed.
Lemma bare_delegated m x : bare (with_delegated m x) = with_delegated (bare m) x.
Proof. reflexivity. Qed.

Lemma bare_page x m p m' : page x m p m' -> page x (bare m) p (bare m').
Proof.
  destruct x as [[[ts i] l] ci]. destruct i; cbn [page]; try (intros []; fail).
  - intros [-> H]. split; [reflexivity|]. destruct (here 1 l); [|exact (bare_refreshed _ _ _ _ H)].
    destruct H as (x & R & O & H). exists (bare x). split; [exact (bare_refreshed _ _ _ _ R)|]. split; [exact (bare_stake _ _ O)|exact H].
  - intros [-> H]. split; [reflexivity|]. destruct (here 1 l); [|exact (bare_refreshed _ _ _ _ H)].
    destruct H as (x & R & O & H). exists (bare x). split; [exact (bare_refreshed _ _ _ _ R)|]. split; [exact (bare_stake _ _ O)|exact H].
  - intros (x & R & -> & ->). exists (bare x). split; [exact (bare_refreshed _ _ _ _ R)|]. split; reflexivity.
  - intros [-> H]. split; [reflexivity|]. destruct (here 1 l).
    + destruct H as (x & t & R & O & H). exists (bare x), t. split; [exact (bare_refreshed _ _ _ _ R)|]. split; [exact (bare_stake _ _ O)|exact H].
    + destruct H as (z & R & ->). exists (bare z). split; [exact (bare_refreshed _ _ _ _ R)|reflexivity].
  - intros [-> H]. split; [reflexivity|]. destruct (here 1 l); [exact (bare_refreshed _ _ _ _ H)|].
    destruct (here 4 l); exact (bare_refreshed _ _ _ _ H).
  - intros [-> H]. split; [reflexivity|]. destruct H as (x & R & O & H). exists (bare x).
    split; [exact (bare_refreshed _ _ _ _ R)|]. split; [exact (bare_stake _ _ O)|exact H].
  - intros [-> (O & H)]. split; [reflexivity|]. split; [exact (bare_stake _ _ O)|exact H].
Qed.

(** the lines of a diary one after the other *)
Inductive pages : list line -> wmining -> Z -> wmining -> Prop :=
| pg_nil m : pages [] m 0 m
| pg_cons x d m p m1 y m' : page x m p m1 -> ascending (wm_diffs m1) -> pages d m1 y m' -> pages (x :: d) m (p + y) m'.

Lemma pages_fun d m y1 m1 : pages d m y1 m1 -> ascending (wm_diffs m) -> forall y2 m2, pages d m y2 m2 -> y1 = y2 /\ m1 = m2.
Proof.
  induction 1 as [m|x d m p m1 y m' P A H IH]; intros As y2 m2 H2; inversion H2; subst; [auto|].
  match goal with P2 : page x m _ ?n |- _ => destruct (page_fun x m _ _ _ _ As P P2) as [-> ->] end.
  edestruct IH as [-> ->]; [eassumption..|]. auto.
Qed.

Lemma bare_pages d m y m' : pages d m y m' -> pages d (bare m) y (bare m').
Proof. induction 1 as [m|x d m p m1 y m' P A H IH]; [constructor|]. econstructor; [exact (bare_page _ _ _ _ P)|exact A|exact IH]. Qed.
Lemma bare_alike m n : bare m = bare n <-> alike m n.
Proof.
  unfold bare, alike. split; [intros H; injection H; auto|]. intros (E1 & E2 & E3 & E4 & E5). congruence.
Qed.

Section env.
Context (e : env) (Henv : env_ok e).

Lemma exec_page now ts ms i L L' r k m m' :
  reached e now L -> now <= ts -> ix_in_range i -> exec e ts ms i L = Ok (L', r) ->
  is_mining e L k m -> is_mining e L' k m' -> m_type (wm m') = 2 ->
  match note k ts ms i L with
  | [] => takes k ms i r = 0 /\ m' = m
  | x :: _ => page x m (takes k ms i r) m'
  end.
Proof.
  intros HR Hts Hi X Hm Hm' Htm'.
  pose proof (exec_effect e Henv now ts ms i L L' r HR Hts Hi X) as F.
  pose proof (only_allowed e Henv now ts ms i L L' r HR Hts Hi X) as AL.
  assert (Same : acc L' k = acc L k -> m' = m).
  { intros E. destruct Hm as [_ H1], Hm' as [_ H2]. unfold data_of in *. congruence. }
  assert (New : forall a x, acc L' k = holding a (DMining x) -> m' = x).
  { intros a x E. destruct Hm' as [_ H2]. unfold data_of in H2. rewrite E in H2. cbn in H2. congruence. }
  assert (Kept : forall x, acc L' k = having (acc L k) x -> m' = m).
  { intros x E. destruct Hm as [_ H1], Hm' as [_ H2]. unfold data_of in *. rewrite E in H2. cbn in H2. congruence. }
  assert (NP : forall p u, is_pool e L p u -> (p =? k) = false).
  { intros p u [_ H2]. apply Z.eqb_neq. intros ->. destruct Hm as [_ H1]. congruence. }
  assert (NT : forall q t, data_of L q = DToken t -> (q =? k) = false).
  { intros q t H. apply Z.eqb_neq. intros ->. destruct Hm as [_ H1]. congruence. }
  assert (NS : forall q, owner_of L q = system_id -> (q =? k) = false).
  { intros q H. apply Z.eqb_neq. intros ->. destruct Hm as [H1 _]. pose proof (eo_sys _ Henv). congruence. }
  unfold note, places, names.
  destruct i; cbn [effect] in F; cbn [allowed] in AL; cbn [writes_at worked_on filter];
    try (rewrite no_claim by discriminate).
  - (* InitializePool *)
    split; [reflexivity|]. destruct F as (p & mi & v & pa & au & b & [rs Hms] & _ & _ & B). specialize (B k). cbn [listed pool_now] in B.
    destruct AL as (p2 & mi2 & v2 & pa2 & au2 & u & [rs2 Hms2] & Hu & _ & _ & _ & _ & (_ & Vo & _) & (_ & Po & _) & _).
    rewrite Hms in Hms2. cbn in Hms2. injection Hms2 as <- <- <- <- <- _. rewrite (NP _ _ Hu), (NS _ Vo), (NS _ Po) in B. exact (Same B).
  - (* FillVault *)
    split; [reflexivity|]. destruct F as (p & mi & v & au & so & u & sv & vv & [rs Hms] & Hu & Ds & Dv & _ & B). specialize (B k). cbn [listed pool_now] in B.
    rewrite (NP _ _ Hu) in B. apply Same. rewrite B. unfold tokens_now. destruct (so =? v); [reflexivity|]. cbn [listed]. rewrite (NT _ _ Ds), (NT _ _ Dv). reflexivity.
  - (* InitializeMining *)
    split; [reflexivity|]. destruct F as (p & mi & pa & b & [rs Hms] & _ & _ & B). specialize (B k). cbn [listed] in B.
    destruct AL as (p2 & mi2 & pa2 & [rs2 Hms2] & _ & _ & (_ & Vo & _) & (_ & Po & _) & _). rewrite Hms in Hms2. cbn in Hms2. injection Hms2 as <- <- <- _.
    rewrite (NS _ Vo), (NS _ Po) in B. exact (Same B).
  - (* DepositMining *)
    destruct F as (p & q & au & dm & u & x & D & u' & x' & D' & [rs Hms] & Hu & Hx & HD & ((x1 & R & O & Es & S & A) & OT & _ & _ & _ & RD) & _ & B).
    rewrite Hms. cbn [nth_error app]. unfold shown. rewrite Hms. cbn [pool_position nth_error app]. rewrite (proj2 Hu).
    specialize (B k). cbn [listed pool_now mining_now] in B. rewrite (NP _ _ Hu) in B.
    destruct (Z.eqb_spec q k) as [->|Nq].
    { rewrite (mining_fun e _ _ _ _ Hx Hm) in *. cbn [page gist here existsb Nat.eqb orb]. split; [reflexivity|]. rewrite (New _ _ B).
      exists x1. auto. }
    destruct (Z.eqb_spec dm k) as [->|Nd].
    { destruct HD as [[<- _]|(_ & y & Hy & ->)]; [congruence|]. rewrite (mining_fun e _ _ _ _ Hy Hm) in RD.
      cbn [delegated] in RD. destruct D' as [y'|]; [|contradiction]. cbn [delegate_now listed mining_now] in B. rewrite Z.eqb_refl in B.
      rewrite (New _ _ B). cbn [page gist here existsb Nat.eqb orb]. split; [reflexivity|exact RD]. }
    split; [reflexivity|]. apply Same.
    rewrite B. destruct D'; cbn [delegate_now listed mining_now]; [|reflexivity]. rewrite (proj2 (Z.eqb_neq _ _) Nd). reflexivity.
  - (* WithdrawMining *)
    destruct F as (p & q & au & dm & u & x & D & u' & x' & D' & [rs Hms] & Hu & Hx & HD & ((x1 & R & O & Es & S) & OT & _ & _ & RD) & _ & B).
    rewrite Hms. cbn [nth_error app]. unfold shown. rewrite Hms. cbn [pool_position nth_error app]. rewrite (proj2 Hu).
    specialize (B k). cbn [listed pool_now mining_now] in B. rewrite (NP _ _ Hu) in B.
    destruct (Z.eqb_spec q k) as [->|Nq].
    { rewrite (mining_fun e _ _ _ _ Hx Hm) in *. cbn [page gist here existsb Nat.eqb orb]. split; [reflexivity|]. rewrite (New _ _ B).
      exists x1. auto. }
    destruct (Z.eqb_spec dm k) as [->|Nd].
    { destruct HD as [[<- _]|(_ & y & Hy & ->)]; [congruence|]. rewrite (mining_fun e _ _ _ _ Hy Hm) in RD.
      cbn [delegated] in RD. destruct D' as [y'|]; [|contradiction]. cbn [delegate_now listed mining_now] in B. rewrite Z.eqb_refl in B.
      rewrite (New _ _ B). cbn [page gist here existsb Nat.eqb orb]. split; [reflexivity|exact RD]. }
    split; [reflexivity|]. apply Same.
    rewrite B. destruct D'; cbn [delegate_now listed mining_now]; [|reflexivity]. rewrite (proj2 (Z.eqb_neq _ _) Nd). reflexivity.
  - (* Claim *)
    destruct F as (p & mi & v & q & ow & au & de & u & x & x1 & [rs Hms] & Hu & Hx & R & -> & B).
    unfold takes, shown. rewrite Hms. cbn [pool_position nth_error app]. rewrite (proj2 Hu).
    destruct (Z.eqb_spec q k) as [->|N].
    + rewrite (mining_fun e _ _ _ _ Hx Hm) in R. cbn [page gist].
      assert (E : acc L' k = holding (acc L k) (DMining (emptied x1))).
      { destruct B as [[_ B]|(_ & tv & tt & _ & _ & B)]; rewrite (B k); cbn [listed mining_now]; rewrite Z.eqb_refl; reflexivity. }
      exists x1. rewrite (New _ _ E). auto.
    + split; [reflexivity|]. apply Same.
      destruct B as [[_ B]|(_ & tv & tt & Dv & Dd & B)]; rewrite (B k); cbn [listed mining_now]; rewrite (proj2 (Z.eqb_neq _ _) N); [reflexivity|].
      unfold tokens_now. destruct (v =? de); [reflexivity|]. cbn [listed]. rewrite (NT _ _ Dv), (NT _ _ Dd). reflexivity.
  - (* ExtendStake *)
    destruct F as (p & q & au & dm & u & x & D & u' & x' & D' & [rs Hms] & Hu & Hx & HD & ((x1 & t & R & O & Es & Hlow & S & A) & OT & _ & _ & _ & RD) & _ & B).
    rewrite Hms. cbn [nth_error app]. unfold shown. rewrite Hms. cbn [pool_position nth_error app]. rewrite (proj2 Hu).
    specialize (B k). cbn [listed pool_now mining_now] in B. rewrite (NP _ _ Hu) in B.
    destruct (Z.eqb_spec q k) as [->|Nq].
    { rewrite (mining_fun e _ _ _ _ Hx Hm) in *. cbn [page gist here existsb Nat.eqb orb]. split; [reflexivity|]. rewrite (New _ _ B).
      exists x1, t. auto 10. }
    destruct (Z.eqb_spec dm k) as [->|Nd].
    { destruct HD as [[<- _]|(_ & y & Hy & ->)]; [congruence|]. rewrite (mining_fun e _ _ _ _ Hy Hm) in RD.
      cbn [redelegated] in RD. destruct D' as [y'|]; [|contradiction]. cbn [delegate_now listed mining_now] in B. rewrite Z.eqb_refl in B.
      rewrite (New _ _ B). cbn [page gist here existsb Nat.eqb orb]. split; [reflexivity|exact RD]. }
    split; [reflexivity|]. apply Same.
    rewrite B. destruct D'; cbn [delegate_now listed mining_now]; [|reflexivity]. rewrite (proj2 (Z.eqb_neq _ _) Nd). reflexivity.
  - (* DistributeRewards *)
    split; [reflexivity|]. destruct F as (p & au & u & u' & [rs Hms] & Hu & _ & _ & B).
    specialize (B k). cbn [listed pool_now] in B. rewrite (NP _ _ Hu) in B. exact (Same B).
  - (* CloseMining *)
    destruct F as (mi & ow & ta & [rs Hms] & _ & B). rewrite Hms. cbn [nth_error app]. specialize (B k). cbn [listed] in B.
    destruct (mi =? k); [destruct Hm' as [_ H2]; unfold data_of in H2; rewrite B in H2; cbn in H2; injection H2 as <-; discriminate Htm'|].
    split; [reflexivity|]. destruct (Z.eqb_spec ta k) as [->|]; [exact (Kept _ B)|exact (Same B)].
  - (* ChangeDelegate *)
    destruct F as (p & q & au & ow & od & nd & u & x & O & N & u' & x' & O' & N' & [rs Hms] & Hu & Hx & HO & HN & (R & OT & _ & _ & RO & RN) & _ & B).
    destruct AL as (p2 & q2 & au2 & ow2 & od2 & nd2 & u2 & x2 & O2 & N2 & [rs2 Hms2] & SA & _ & Hne & _ & _ & _).
    rewrite Hms in Hms2. cbn in Hms2. injection Hms2 as <- <- <- <- <- <- _.
    rewrite Hms. cbn [nth_error app]. unfold shown. rewrite Hms. cbn [pool_position nth_error app]. rewrite (proj2 Hu).
    specialize (B k). cbn [listed pool_now mining_now] in B. rewrite (NP _ _ Hu) in B.
    destruct (Z.eqb_spec q k) as [->|Nq].
    { rewrite (mining_fun e _ _ _ _ Hx Hm) in *. cbn [page gist here existsb Nat.eqb orb]. split; [reflexivity|]. rewrite (New _ _ B). exact R. }
    rewrite listed_app in B.
    destruct (Z.eqb_spec od k) as [->|No].
    { destruct HO as [[<- _]|(_ & y & Hy & ->)]; [congruence|]. rewrite (mining_fun e _ _ _ _ Hy Hm) in RO.
      cbn [delegated] in RO. destruct O' as [y'|]; [|contradiction]. cbn [delegate_now listed mining_now] in B. rewrite Z.eqb_refl in B.
      rewrite (New _ _ B), (proj2 (Z.eqb_neq nd k) (not_eq_sym Hne)). cbn [page gist here existsb Nat.eqb orb]. split; [reflexivity|exact RO]. }
    assert (B2 : acc L' k = match listed k (delegate_now L nd N') with Some a => a | None => acc L k end).
    { rewrite B. destruct O'; cbn [delegate_now listed mining_now]; [rewrite (proj2 (Z.eqb_neq _ _) No)|]; reflexivity. }
    destruct (Z.eqb_spec nd k) as [->|Nd].
    { destruct HN as [[<- _]|(_ & y & Hy & ->)]; [congruence|]. rewrite (mining_fun e _ _ _ _ Hy Hm) in RN.
      cbn [delegated] in RN. destruct N' as [y'|]; [|contradiction]. cbn [delegate_now listed mining_now] in B2. rewrite Z.eqb_refl in B2.
      rewrite (New _ _ B2). cbn [page gist here existsb Nat.eqb orb]. split; [reflexivity|exact RN]. }
    split; [reflexivity|]. apply Same.
    rewrite B2. destruct N'; cbn [delegate_now listed mining_now]; [|reflexivity]. rewrite (proj2 (Z.eqb_neq _ _) Nd). reflexivity.
  - (* Slash *)
    destruct F as (au & p & q & u & x & u' & x' & [rs Hms] & Hu & Hx & (x1 & R & O & OT & Es & _ & T) & _ & B).
    rewrite Hms. cbn [nth_error app]. unfold shown. rewrite Hms. cbn [pool_position nth_error app]. rewrite (proj2 Hu).
    specialize (B k). cbn [listed pool_now mining_now] in B. rewrite (NP _ _ Hu) in B.
    destruct (Z.eqb_spec q k) as [->|Nq]; [|split; [reflexivity|exact (Same B)]].
    rewrite (mining_fun e _ _ _ _ Hx Hm) in *. cbn [page gist]. split; [reflexivity|]. rewrite (New _ _ B).
    exists x1. split; [exact R|]. split; [exact O|]. split; [exact Es|].
    match type of T with match ?d with _ => _ end => destruct d as [y|] end; apply T.
  - (* DecreaseRewards *)
    destruct F as (au & p & q & x & x' & [rs Hms] & Hx & DD & _ & B).
    rewrite Hms. cbn [nth_error app]. specialize (B k). cbn [listed mining_now] in B.
    destruct (Z.eqb_spec q k) as [->|Nq]; [|split; [reflexivity|exact (Same B)]].
    rewrite (mining_fun e _ _ _ _ Hx Hm) in *. cbn [page gist]. split; [reflexivity|]. rewrite (New _ _ B). exact DD.
Qed.

Lemma note_short k ts ms i L x d : note k ts ms i L = x :: d -> d = [].
Proof. unfold note. destruct (places k ms i); [discriminate|]. intros H. injection H as _ <-. reflexivity. Qed.

Lemma diary_open k now L now' L' d x : diary e k now L now' L' d x -> open e k L.
Proof. intros H. destruct H; assumption. Qed.

Lemma diary_pages k now L now' L' d x : diary e k now L now' L' d x -> reached e now L ->
  forall m, is_mining e L k m -> reached e now' L' /\ exists m', is_mining e L' k m' /\ pages d m x m'.
Proof.
  induction 1 as [now L O|now L ts ms i L1 r now' L' d x O Hts Hu Hi X HI IH|now L ts L1 now' L' d x O Hts Hu X HI IH]; intros HR m Hm.
  - split; [assumption|]. exists m. split; [assumption|constructor].
  - destruct (diary_open _ _ _ _ _ _ _ HI) as (m1 & Hm1 & T1).
    pose proof (reached_exec e now ts ms i L L1 r HR Hts Hu Hi X) as HR1.
    destruct (IH HR1 m1 Hm1) as (HR' & m' & Hm' & PG). split; [assumption|]. exists m'. split; [assumption|].
    pose proof (exec_page now ts ms i L L1 r k m m1 HR Hts Hi X Hm Hm1 T1) as E.
    destruct (note k ts ms i L) as [|y t] eqn:En.
    + destruct E as [-> ->]. exact PG.
    + rewrite (note_short _ _ _ _ _ _ _ En). cbn [app]. econstructor; [exact E| |exact PG].
      destruct (reached_ok e Henv _ _ HR1) as (HL & _). exact (mw_asc _ (ok_mining e _ _ _ _ HL (proj1 Hm1) (proj2 Hm1))).
  - destruct (diary_open _ _ _ _ _ _ _ HI) as (m1 & Hm1 & T1).
    assert (m1 = m) as ->.
    { destruct Hm as [Ho Hd], Hm1 as [Ho1 Hd1]. unfold data_of, owner_of in *. destruct (X k) as (_ & Xk & _). specialize (Xk Ho).
      destruct Xk as [(_ & E & _)|[_ E]]; [congruence|]. rewrite E in Hd1. discriminate. }
    apply IH; [|assumption]. eapply (reached_run e now L [EvExt ts]); [exact HR|]. econstructor; [|apply run_nil]. constructor; assumption.
Qed.

End env.

Lemma same_diary e1 e2 : env_ok e1 -> env_ok e2 -> forall k1 k2 now1 L1 now1' L1' now2 L2 now2' L2' d x y m n m' n',
  reached e1 now1 L1 -> reached e2 now2 L2 ->
  diary e1 k1 now1 L1 now1' L1' d x -> diary e2 k2 now2 L2 now2' L2' d y ->
  is_mining e1 L1 k1 m -> is_mining e2 L2 k2 n -> alike m n ->
  is_mining e1 L1' k1 m' -> is_mining e2 L2' k2 n' -> x = y /\ alike m' n'.
Proof.
  intros H1 H2 k1 k2 now1 L1 now1' L1' now2 L2 now2' L2' d x y m n m' n' R1 R2 D1 D2 M1 M2 A N1 N2.
  destruct (diary_pages e1 H1 _ _ _ _ _ _ _ D1 R1 m M1) as (_ & m1 & X1 & P1). rewrite (mining_fun e1 _ _ _ _ X1 N1) in P1.
  destruct (diary_pages e2 H2 _ _ _ _ _ _ _ D2 R2 n M2) as (_ & m2 & X2 & P2). rewrite (mining_fun e2 _ _ _ _ X2 N2) in P2.
  destruct (reached_ok e1 H1 _ _ R1) as (HL & _).
  apply bare_pages in P1, P2. apply bare_alike in A. rewrite <- A in P2.
  destruct (pages_fun _ _ _ _ P1 (mw_asc _ (ok_mining e1 _ _ _ _ HL (proj1 M1) (proj2 M1))) _ _ P2) as [-> E].
  split; [reflexivity|]. apply bare_alike. exact E.
Qed.

Lemma same_diary_exact e1 e2 : env_ok e1 -> env_ok e2 -> forall k1 k2 now1 L1 now1' L1' now2 L2 now2' L2' d x y m m' n',
  reached e1 now1 L1 -> reached e2 now2 L2 ->
  diary e1 k1 now1 L1 now1' L1' d x -> diary e2 k2 now2 L2 now2' L2' d y ->
  is_mining e1 L1 k1 m -> is_mining e2 L2 k2 m ->
  is_mining e1 L1' k1 m' -> is_mining e2 L2' k2 n' -> x = y /\ m' = n'.
Proof.
  intros H1 H2 k1 k2 now1 L1 now1' L1' now2 L2 now2' L2' d x y m m' n' R1 R2 D1 D2 M1 M2 N1 N2.
  destruct (diary_pages e1 H1 _ _ _ _ _ _ _ D1 R1 m M1) as (_ & m1 & X1 & P1). rewrite (mining_fun e1 _ _ _ _ X1 N1) in P1.
  destruct (diary_pages e2 H2 _ _ _ _ _ _ _ D2 R2 m M2) as (_ & m2 & X2 & P2). rewrite (mining_fun e2 _ _ _ _ X2 N2) in P2.
  destruct (reached_ok e1 H1 _ _ R1) as (HL & _).
  exact (pages_fun _ _ _ _ P1 (mw_asc _ (ok_mining e1 _ _ _ _ HL (proj1 M1) (proj2 M1))) _ _ P2).
Qed.
