(** Proofs of C98: how fast a budget is handed out. *)
From stdpp Require Import gmap.
From Verif Require Import Base OMap State Spec EffectSpec Ledger Program ResLemmas TreeLemmas AccrualLemmas RefreshLemmas WfLemmas LedgerLemmas LedgerSpec
  CodecLemmas History HistoryLemmas Changes AccessLemmas HistoryThms ReachThms EffectLemmas EffectMethods EffectThms EffectMore EffectCompare
  SuccessSpec SuccessThms LedgerCore Determined Commute CompleteSpec Complete PowerSpec Powers FreezeSpec Choice GapSpec Gap CapSpec Cap
  CoreInv Split DustSpec DebtSpec Debt IncomeSpec Income DiarySpec Diary LogSpec Log CompareSpec Compare PaceSpec.

(** ** What is done with a budget, the date until which it is to be handed out, and the days on which it was *)
Definition purse_of (w : wpool) : Z * Z * list Z := (p_avail (wp w), p_ends_at (wp w), map fst (wp_ci w)).
Inductive moved : move -> Z * Z * list Z -> Z * Z * list Z -> Prop :=
| mv_fill x d a u l : moved (Fills x d) (a, u, l) (a + x, day_start d, l)
| mv_none ts a u l : In (day_start ts) l -> moved (HandsOut ts) (a, u, l) (a, u, l)
| mv_out ts a u l : ~ In (day_start ts) l ->
    moved (HandsOut ts) (a, u, l) (a - daily_part a u ts, u, if Z.of_nat (length l) <? 1095 then l ++ [day_start ts] else l).
Inductive mwalk : list move -> Z * Z * list Z -> Z * Z * list Z -> Prop :=
| mk_nil p : 0 <= fst (fst p) -> mwalk [] p p
| mk_cons x b p p1 p' : 0 <= fst (fst p) -> moved x p p1 -> mwalk b p1 p' -> mwalk (x :: b) p p'.

Lemma has_date_in d (t : sched) : has_date d t <-> In d (map fst t).
Proof.
  split; [intros [v H]; apply in_map_iff; exists (d, v); auto|]. intros H. apply in_map_iff in H as [[k v] [<- H]]. exists v. exact H.
Qed.
Lemma quiet_purse ts i b v v' : (match i with FillVault _ _ | DistributeRewards => False | _ => True end) -> pstep (ts, i, b) v v' -> purse_of v' = purse_of v.
Proof.
  intros Hi P. assert (OT : only_total v v' -> purse_of v' = purse_of v).
  { intros (_ & _ & _ & _ & I1 & E1 & B1 & _ & _ & C1). unfold purse_of. congruence. }
  destruct i; cbn [pstep] in P; try contradiction; try (subst; reflexivity); apply OT; apply P.
Qed.
Lemma recorded_days (t : sched) d x :
  map fst (if Z.of_nat (length t) <? 1095 then t ++ [(d, x)] else t) = if Z.of_nat (length (map fst t)) <? 1095 then map fst t ++ [d] else map fst t.
Proof. rewrite map_length. destruct (_ <? _); [rewrite map_app; reflexivity|reflexivity]. Qed.
Lemma pwalk_mwalk b w w' : pwalk b w w' -> mwalk (moves b) (purse_of w) (purse_of w').
Proof.
  assert (A : forall v, good v -> 0 <= fst (fst (purse_of v))).
  { intros v [t G]. cbn. pose proof (pw_avail _ _ G) as X. unfold is_u64 in X. lia. }
  induction 1 as [w G|[[ts i] l] b w w1 w' G S P W IH]; [constructor; apply A; exact G|].
  pose proof (fun X => quiet_purse ts i l w w1 X P) as QP.
  destruct i; try (change (mwalk (moves b) (purse_of w) (purse_of w')); rewrite <- (QP I); exact IH); clear QP.
  - cbn [pstep] in P. subst w1. cbn [moves flat_map app] in *. econstructor; [apply A; exact G|constructor|exact IH].
  - cbn [pstep] in P. destruct P as (O & _ & _ & Y & N). cbn [moves flat_map app] in *. econstructor; [apply A; exact G| |exact IH].
    assert (E : p_ends_at (wp w1) = p_ends_at (wp w)) by apply O. unfold purse_of. rewrite E.
    destruct (in_dec Z.eq_dec (day_start ts) (map fst (wp_ci w))) as [D|D].
    + destruct (Y (proj2 (has_date_in _ _) D)) as (C & _ & V). rewrite C, V. constructor. exact D.
    + destruct (N (fun H => D (proj1 (has_date_in _ _) H))) as (_ & V & C). rewrite C, V.
      rewrite recorded_days. constructor. exact D.
Qed.

(** ** The same moves *)
Lemma moved_fun x p a b : moved x p a -> moved x p b -> a = b.
Proof. intros H1 H2. destruct H1; inversion H2; subst; try reflexivity; contradiction. Qed.
Lemma mwalk_fun l p a b : mwalk l p a -> mwalk l p b -> a = b.
Proof.
  intros H. revert b. induction H as [p G|x l p p1 p' G M W IH]; intros b H; inversion H; subst; [reflexivity|].
  match goal with X : moved x p ?q |- _ => rewrite (moved_fun _ _ _ _ X M) in * end. auto.
Qed.

(** ** Quicker moves *)
(** what is left after a part is handed out *)
Lemma left_over a b x y s t : 0 <= a <= b -> x <= y -> s <= t -> a - daily_part a x t <= b - daily_part b y s.
Proof.
  intros Hab Hxy Hst. unfold daily_part. assert (L : Z.max 0 (x - t) / 86400 <= Z.max 0 (y - s) / 86400) by (apply Z.div_le_mono; lia).
  assert (0 <= Z.max 0 (x - t) / 86400) by (apply Z.div_pos; lia).
  set (n := Z.max 0 (x - t) / 86400) in *. set (o := Z.max 0 (y - s) / 86400) in *. clearbody n o.
  assert (P : o <> 0 -> 0 <= b / o <= b).
  { intros Ho. split; [apply Z.div_pos; lia|]. apply Z.div_le_upper_bound; nia. }
  destruct (Z.eqb_spec n 0) as [N|N], (Z.eqb_spec o 0) as [O|O]; try lia.
  assert (b / o <= b / n) by (apply Z.div_le_compat_l; lia).
  assert (b / n <= a / n + (b - a)); [|lia].
  pose proof (Z.div_mod a n N) as Da. pose proof (Z.mod_pos_bound a n ltac:(lia)) as Ma.
  apply Z.lt_succ_r. apply Z.div_lt_upper_bound; [lia|]. nia.
Qed.
Lemma part_some a u ts : 0 <= a -> 0 <= daily_part a u ts <= a.
Proof.
  intros Ha. unfold daily_part. assert (0 <= Z.max 0 (u - ts) / 86400) by (apply Z.div_pos; lia). set (n := Z.max 0 (u - ts) / 86400) in *. clearbody n.
  destruct (Z.eqb_spec n 0); [lia|]. split; [apply Z.div_pos; lia|]. apply Z.div_le_upper_bound; nia.
Qed.

Definition less (D : list move) (p q : Z * Z * list Z) : Prop :=
  let '(a, u, l) := p in let '(b, v, k) := q in a <= b /\ u <= v /\ forall d, on_day d D -> In d l -> In d k.
Lemma moved_days x p p1 : moved x p p1 -> (length (snd p) <= length (snd p1))%nat.
Proof. intros H. destruct H; cbn [snd]; try lia. destruct (_ <? _); [rewrite app_length; lia|lia]. Qed.
Lemma mwalk_days l p p' : mwalk l p p' -> (length (snd p) <= length (snd p'))%nat.
Proof. induction 1 as [|x l p p1 p' G M W IH]; [lia|]. apply moved_days in M. lia. Qed.
Lemma mwalk_some l p p' : mwalk l p p' -> 0 <= fst (fst p).
Proof. intros H. destruct H; assumption. Qed.
Lemma in_recorded d e (l : list Z) : In d (if Z.of_nat (length l) <? 1095 then l ++ [e] else l) -> In d l \/ d = e.
Proof. destruct (_ <? _); [|auto]. intros H. apply in_app_iff in H as [H|[H|[]]]; auto. Qed.

Lemma mwalks_less D r q : quicker D r q -> incl q D -> forall p p' s s', mwalk r p p' -> mwalk q s s' ->
  less D p s -> Z.of_nat (length (snd s')) < 1095 -> less D p' s'.
Proof.
  induction 1 as [|x d y c r q Hx Hd Q IH|t u r q Ht Hu Q IH|t r q Ht Q IH]; intros I p p' s s' W V LE F.
  - inversion W; subst. inversion V; subst. exact LE.
  - inversion W as [|? ? ? p1 ? G1 M1 W1]; subst. inversion V as [|? ? ? s1 ? G2 M2 V1]; subst.
    apply (IH (fun z Hz => I z (or_intror Hz)) _ _ _ _ W1 V1); [|exact F].
    inversion M1; subst. inversion M2; subst. destruct LE as (A & U & K). split; [lia|]. split; [exact Hd|exact K].
  - inversion W as [|? ? ? p1 ? G1 M1 W1]; subst. inversion V as [|? ? ? s1 ? G2 M2 V1]; subst.
    apply (IH (fun z Hz => I z (or_intror Hz)) _ _ _ _ W1 V1); [|exact F].
    assert (O : on_day (day_start u) D) by (exists u; split; [apply I; left; reflexivity|reflexivity]).
    assert (B : Z.of_nat (length (snd s)) < 1095) by (pose proof (moved_days _ _ _ M2); pose proof (mwalk_days _ _ _ V1); lia).
    inversion M1 as [|? a e l D1|? a e l D1]; subst; inversion M2 as [|? b f k D2|? b f k D2]; subst; cbn [fst snd] in *; destruct LE as (A & U & K).
    + split; [exact A|]. split; [exact U|exact K].
    + rewrite Ht in D1. destruct (D2 (K _ O D1)).
    + split; [pose proof (part_some a e t G1); lia|]. split; [exact U|]. intros z Hz Hin. apply in_recorded in Hin as [Hin| ->]; [auto|]. rewrite Ht. exact D2.
    + split; [apply left_over; lia|]. split; [exact U|]. intros z Hz Hin. rewrite (proj2 (Z.ltb_lt (Z.of_nat (length k)) 1095) B). apply in_app_iff.
      apply in_recorded in Hin as [Hin| ->]; [left; auto|]. right. left. symmetry. exact Ht.
  - inversion W as [|? ? ? p1 ? G1 M1 W1]; subst. apply (IH I _ _ _ _ W1 V); [|exact F].
    inversion M1 as [|? a e l D1|? a e l D1]; subst; [exact LE|]. destruct s as [[b f] k]. destruct LE as (A & U & K). cbn [fst] in G1.
    split; [pose proof (part_some a e t G1); lia|]. split; [exact U|]. intros z Hz Hin. apply in_recorded in Hin as [Hin| ->]; [auto|contradiction].
Qed.

(** ** Histories *)
Lemma same_pace e1 e2 : env_ok e1 -> env_ok e2 -> forall P1 P2 now1 L1 now1' L1' now2 L2 now2' L2' b c v w v' w',
  reached e1 now1 L1 -> reached e2 now2 L2 ->
  pool_log e1 P1 now1 L1 now1' L1' b -> pool_log e2 P2 now2 L2 now2' L2' c -> moves b = moves c ->
  is_pool e1 L1 P1 v -> is_pool e2 L2 P2 w ->
  p_avail (wp v) = p_avail (wp w) -> p_ends_at (wp v) = p_ends_at (wp w) -> map fst (wp_ci v) = map fst (wp_ci w) ->
  is_pool e1 L1' P1 v' -> is_pool e2 L2' P2 w' ->
  p_avail (wp v') = p_avail (wp w') /\ p_ends_at (wp v') = p_ends_at (wp w') /\ map fst (wp_ci v') = map fst (wp_ci w').
Proof.
  intros H1 H2 P1 P2 now1 L1 now1' L1' now2 L2 now2' L2' b c v w v' w' R1 R2 D1 D2 E V W A U K V' W'.
  destruct (log_pwalk e1 H1 _ _ _ _ _ _ D1 R1 v V) as (v1 & X1 & S1). rewrite (pool_fun e1 _ _ _ _ X1 V') in S1.
  destruct (log_pwalk e2 H2 _ _ _ _ _ _ D2 R2 w W) as (w1 & X2 & S2). rewrite (pool_fun e2 _ _ _ _ X2 W') in S2.
  apply pwalk_mwalk in S1, S2. rewrite E in S1.
  assert (Q : purse_of v = purse_of w) by (unfold purse_of; congruence). rewrite Q in S1. pose proof (mwalk_fun _ _ _ _ S1 S2) as Z. unfold purse_of in Z. injection Z. auto.
Qed.
Lemma quicker_pace e1 e2 : env_ok e1 -> env_ok e2 -> forall P1 P2 now1 L1 now1' L1' now2 L2 now2' L2' b c v w v' w',
  reached e1 now1 L1 -> reached e2 now2 L2 ->
  pool_log e1 P1 now1 L1 now1' L1' b -> pool_log e2 P2 now2 L2 now2' L2' c -> quicker (moves c) (moves b) (moves c) ->
  is_pool e1 L1 P1 v -> is_pool e2 L2 P2 w ->
  p_avail (wp v) <= p_avail (wp w) -> p_ends_at (wp v) <= p_ends_at (wp w) ->
  (forall d, on_day d (moves c) -> has_date d (wp_ci v) -> has_date d (wp_ci w)) ->
  is_pool e1 L1' P1 v' -> is_pool e2 L2' P2 w' -> Z.of_nat (length (wp_ci w')) < 1095 ->
  p_avail (wp v') <= p_avail (wp w') /\ p_ends_at (wp v') <= p_ends_at (wp w').
Proof.
  intros H1 H2 P1 P2 now1 L1 now1' L1' now2 L2 now2' L2' b c v w v' w' R1 R2 D1 D2 Q V W A U K V' W' F.
  destruct (log_pwalk e1 H1 _ _ _ _ _ _ D1 R1 v V) as (v1 & X1 & S1). rewrite (pool_fun e1 _ _ _ _ X1 V') in S1.
  destruct (log_pwalk e2 H2 _ _ _ _ _ _ D2 R2 w W) as (w1 & X2 & S2). rewrite (pool_fun e2 _ _ _ _ X2 W') in S2.
  apply pwalk_mwalk in S1, S2.
  assert (L : less (moves c) (purse_of v') (purse_of w')).
  { refine (mwalks_less _ _ _ Q (fun z Hz => Hz) _ _ _ _ S1 S2 _ _); [|cbn; rewrite map_length; exact F].
    split; [exact A|]. split; [exact U|]. intros d Hd Hin. apply has_date_in. apply K; [exact Hd|]. apply has_date_in. exact Hin. }
  destruct L as (La & Lu & _). split; assumption.
Qed.
