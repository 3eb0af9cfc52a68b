(** The order of unrelated calls does not matter. *)
From stdpp Require Import gmap.
From Verif Require Import Base OMap State Spec EffectSpec Ledger Program ResLemmas TreeLemmas FrameLemmas LedgerLemmas LedgerSpec
  CodecLemmas WfLemmas History HistoryLemmas Changes AccessLemmas ReachThms EffectLemmas EffectMethods EffectThms EffectMore
  Leave Determined CommuteSpec.

(** ** Schedules are determined by their dates and values *)
Lemma asc_head k v t d : ascending ((k, v) :: t) -> has_date d ((k, v) :: t) -> k <= d.
Proof. intros [H _] (x & [E|Hin]); [injection E as <- _; lia|]. specialize (H _ _ Hin). lia. Qed.
Lemma has_cons d k v t : has_date d ((k, v) :: t) <-> d = k \/ has_date d t.
Proof.
  unfold has_date. split.
  - intros (x & [E|H]); [injection E as -> _; auto|right; eauto].
  - intros [->|(x & H)]; [exists v; left; reflexivity|exists x; right; assumption].
Qed.
Lemma sched_ext : forall t t', ascending t -> ascending t' ->
  (forall d, has_date d t <-> has_date d t') -> (forall d, at_date d t = at_date d t') -> t = t'.
Proof.
  induction t as [|[k v] t IH]; intros [|[k' v'] t'] A A' H HV.
  - reflexivity.
  - exfalso. assert (has_date k' []) as (x & []) by (apply H; exists v'; left; reflexivity).
  - exfalso. assert (has_date k []) as (x & []) by (apply H; exists v; left; reflexivity).
  - assert (k = k').
    { apply Z.le_antisymm.
      - eapply asc_head; [exact A|]. apply H. apply has_cons. auto.
      - eapply asc_head; [exact A'|]. apply H. apply has_cons. auto. }
    subst k'. assert (v = v') as <-. { specialize (HV k). cbn in HV. rewrite Z.eqb_refl in HV. assumption. }
    f_equal. destruct A as [B A], A' as [B' A']. apply IH; [assumption|assumption| |].
    + intros d. specialize (H d). rewrite !has_cons in H. split; intros Hd.
      * destruct (proj1 H (or_intror Hd)) as [->|]; [|assumption].
        destruct Hd as (x & Hx). specialize (B _ _ Hx). lia.
      * destruct (proj2 H (or_intror Hd)) as [->|]; [|assumption].
        destruct Hd as (x & Hx). specialize (B' _ _ Hx). lia.
    + intros d. pose proof (HV d) as Hv. cbn in Hv. destruct (Z.eqb_spec k d) as [E|]; [subst d|assumption].
      assert (forall u, (forall q x, In (q, x) u -> k < q) -> at_date k u = 0) as Z0.
      { induction u as [|[q x] u IHu]; intros Hu; [reflexivity|]. cbn.
        pose proof (Hu q x ltac:(left; reflexivity)). destruct (Z.eqb_spec q k); [lia|].
        apply IHu. intros. eapply Hu. right. eassumption. }
      rewrite !Z0 by assumption. reflexivity.
Qed.

Lemma has_upto d b t : has_date d (upto b t) <-> has_date d t /\ d <= b.
Proof.
  unfold has_date. split.
  - intros (v & H). apply in_upto in H. split; [eexists; apply H|apply H].
  - intros ((v & H) & Hd). exists v. apply in_upto. auto.
Qed.
Lemma has_after d b t : has_date d (after b t) <-> has_date d t /\ b < d.
Proof.
  unfold has_date. split.
  - intros (v & H). apply in_after in H. split; [eexists; apply H|apply H].
  - intros ((v & H) & Hd). exists v. apply in_after. auto.
Qed.
Lemma at_upto d b t : at_date d (upto b t) = if d <=? b then at_date d t else 0.
Proof.
  unfold upto.
  induction t as [|[k v] t IH]; cbn; [destruct (_ <=? _); reflexivity|].
  destruct (Z.leb_spec k b); cbn.
  - destruct (Z.eqb_spec k d) as [->|]; [|assumption]. destruct (Z.leb_spec d b); [reflexivity|lia].
  - rewrite IH. destruct (Z.eqb_spec k d) as [->|]; [|reflexivity]. destruct (Z.leb_spec d b); [lia|reflexivity].
Qed.
Lemma at_after d b t : at_date d (after b t) = if d <=? b then 0 else at_date d t.
Proof.
  unfold after.
  induction t as [|[k v] t IH]; cbn; [destruct (_ <=? _); reflexivity|].
  destruct (Z.ltb_spec b k); cbn.
  - destruct (Z.eqb_spec k d) as [->|]; [|assumption]. destruct (Z.leb_spec d b); [lia|reflexivity].
  - rewrite IH. destruct (Z.eqb_spec k d) as [->|]; [|reflexivity]. destruct (Z.leb_spec d b); [reflexivity|lia].
Qed.
Lemma due_same b t t' : ascending t -> ascending t' ->
  (forall d, d <= b -> has_date d t <-> has_date d t') -> (forall d, d <= b -> at_date d t = at_date d t') ->
  due b t = due b t'.
Proof.
  intros A A' H HV. rewrite <- !total_upto. f_equal. apply sched_ext; [apply ascending_upto; assumption..| |].
  - intros d. rewrite !has_upto. specialize (H d). intuition.
  - intros d. rewrite !at_upto. destruct (Z.leb_spec d b); [apply HV; assumption|reflexivity].
Qed.
Lemma due_none b t : (forall d, d <= b -> ~ has_date d t) -> due b t = 0.
Proof.
  intros H. apply due_nil_below. intros k v Hin. destruct (Z_lt_le_dec b k); [assumption|].
  exfalso. apply (H k); [assumption|]. exists v. assumption.
Qed.
Lemma ascending_nodup t : ascending t -> List.NoDup (map fst t).
Proof.
  induction t as [|[k v] t IH]; intros A; cbn; constructor; destruct A as [B A].
  - intros Hin. apply in_map_iff in Hin as ([k' v'] & <- & Hin). specialize (B _ _ Hin). cbn in B. lia.
  - apply IH. assumption.
Qed.
Lemma has_keys d t : has_date d t <-> In d (map fst t).
Proof.
  unfold has_date. rewrite in_map_iff. split.
  - intros (v & H). exists (d, v). auto.
  - intros ([k v] & <- & H). exists v. assumption.
Qed.
Lemma one_longer t t' x : ascending t' -> (forall d, has_date d t' -> has_date d t \/ d = x) ->
  (length t' <= S (length t))%nat.
Proof.
  intros A H. rewrite <- (map_length fst t'), <- (map_length fst t).
  apply (NoDup_incl_length (ascending_nodup _ A) (l' := x :: map fst t)).
  intros d Hd. apply has_keys, H in Hd as [Hd| ->]; [right; apply has_keys; assumption|left; reflexivity].
Qed.

(** ** What calls do to a pool *)
(** a change of the stakes: due entries are taken out first or not, the total moves by
    [delta], and one date of the schedule is moved *)
Inductive effect :=
| Stakes (consume : bool) (delta : Z) (entry : option (Z * Z))
| Funds (x ends : Z).

Definition entry_at (en : option (Z * Z)) (d : Z) : Z :=
  match en with Some (x, v) => if d =? x then v else 0 | None => 0 end.
Definition entry_date (en : option (Z * Z)) (d : Z) : Prop :=
  match en with Some (x, _) => d = x | None => False end.

Definition acts (ts : Z) (f : effect) (w w' : wpool) : Prop :=
  match f with
  | Stakes c delta en =>
      only_total w w' /\
      p_total (wp w') = p_total (wp w) + delta - (if c then due (day_start ts) (wp_diffs w) else 0) /\
      (forall d, at_date d (wp_diffs w') =
         (if c && (d <=? day_start ts) then 0 else at_date d (wp_diffs w)) + entry_at en d) /\
      (forall d, has_date d (wp_diffs w') <->
         (has_date d (wp_diffs w) /\ (c = true -> day_start ts < d)) \/ entry_date en d) /\
      (forall d, entry_date en d -> day_start ts < d)
  | Funds x ends =>
      config w' = config w /\ wp_ci w' = wp_ci w /\ wp_diffs w' = wp_diffs w /\ p_total (wp w') = p_total (wp w) /\
      p_index (wp w') = p_index (wp w) /\ p_avail (wp w') = p_avail (wp w) + x /\
      p_ends_at (wp w') = ends /\ p_ends_at (wp w) <= ends
  end.

Lemma wpool_ext a b :
  config a = config b -> p_index (wp a) = p_index (wp b) -> p_total (wp a) = p_total (wp b) ->
  p_ends_at (wp a) = p_ends_at (wp b) -> p_avail (wp a) = p_avail (wp b) ->
  wp_diffs a = wp_diffs b -> wp_ci a = wp_ci b -> a = b.
Proof.
  destruct a as [[] ? ?], b as [[] ? ?]. unfold config. cbn. intros H. injection H. intros. subst. reflexivity.
Qed.
Lemma only_config w w' : only_total w w' -> config w' = config w /\ p_index (wp w') = p_index (wp w) /\
  p_ends_at (wp w') = p_ends_at (wp w) /\ p_avail (wp w') = p_avail (wp w) /\ wp_ci w' = wp_ci w.
Proof. unfold only_total, config. intros (-> & -> & -> & -> & -> & -> & -> & -> & -> & ->). auto. Qed.

Lemma entry_late en ts d : (forall d, entry_date en d -> day_start ts < d) -> d <= day_start ts -> entry_at en d = 0.
Proof.
  intros H Hd. destruct en as [[x v]|]; cbn in *; [|reflexivity].
  destruct (Z.eqb_spec d x); [specialize (H _ e); lia|reflexivity].
Qed.

(** the due part after a change of the stakes *)
Lemma stakes_due ts c delta en w w' : ascending (wp_diffs w) -> ascending (wp_diffs w') ->
  acts ts (Stakes c delta en) w w' ->
  due (day_start ts) (wp_diffs w') = if c then 0 else due (day_start ts) (wp_diffs w).
Proof.
  intros A A' (_ & _ & HV & HD & HL). destruct c.
  - apply due_none. intros d Hd Hh. apply HD in Hh as [[_ Hh]|Hh]; [specialize (Hh eq_refl); lia|].
    specialize (HL _ Hh). lia.
  - apply due_same; [assumption|assumption| |].
    + intros d Hd. rewrite HD. split; [|intros; left; split; [assumption|discriminate]].
      intros [[H _]|H]; [assumption|]. specialize (HL _ H). lia.
    + intros d Hd. rewrite HV. cbn. rewrite (entry_late _ _ _ HL Hd). lia.
Qed.

Lemma acts_commute ts f g w w1 w12 w2 w21 :
  ascending (wp_diffs w) -> ascending (wp_diffs w1) -> ascending (wp_diffs w2) ->
  ascending (wp_diffs w12) -> ascending (wp_diffs w21) ->
  acts ts f w w1 -> acts ts g w1 w12 -> acts ts g w w2 -> acts ts f w2 w21 -> w12 = w21.
Proof.
  intros A A1 A2 A12 A21 F G G' F'. destruct f as [c1 x1 e1|x1 d1], g as [c2 x2 e2|x2 d2].
  - pose proof (stakes_due _ _ _ _ _ _ A A1 F) as D1. pose proof (stakes_due _ _ _ _ _ _ A A2 G') as D2.
    destruct F as (O1 & T1 & V1 & H1 & N1), G as (O12 & T12 & V12 & H12 & _), G' as (O2 & T2 & V2 & H2 & N2), F' as (O21 & T21 & V21 & H21 & _).
    apply only_config in O1, O12, O2, O21.
    apply wpool_ext; try (intuition congruence).
    + rewrite T12, T21, D1, D2, T1, T2. destruct c1, c2; lia.
    + apply sched_ext; [assumption|assumption| |].
      * intros d. rewrite H12, H21, H1, H2. specialize (N1 d). specialize (N2 d). tauto.
      * intros d. rewrite V12, V21, V1, V2. destruct (Z.leb_spec d (day_start ts)).
        { rewrite (entry_late _ _ _ N1), (entry_late _ _ _ N2) by assumption. destruct c1, c2; cbn; lia. }
        destruct c1, c2; cbn; lia.
  - destruct F as (O1 & T1 & V1 & H1 & N1), F' as (O21 & T21 & V21 & H21 & _).
    destruct G as (G1 & G2 & G3 & G4 & G5 & G6 & G7 & _), G' as (K1 & K2 & K3 & K4 & K5 & K6 & K7 & _).
    apply only_config in O1, O21. rewrite K3 in T21, V21, H21.
    apply wpool_ext; try (intuition congruence).
    rewrite G3. apply sched_ext; [assumption|assumption| |].
    + intros d. rewrite H1, H21. reflexivity.
    + intros d. rewrite V1, V21. reflexivity.
  - destruct G as (O1 & T1 & V1 & H1 & N1), G' as (O21 & T21 & V21 & H21 & _).
    destruct F as (G1 & G2 & G3 & G4 & G5 & G6 & G7 & _), F' as (K1 & K2 & K3 & K4 & K5 & K6 & K7 & _).
    apply only_config in O1, O21. rewrite G3 in T1, V1, H1.
    apply wpool_ext; try (intuition congruence).
    rewrite K3. apply sched_ext; [assumption|assumption| |].
    + intros d. rewrite H1, H21. reflexivity.
    + intros d. rewrite V1, V21. reflexivity.
  - destruct F as (? & ? & ? & ? & ? & ? & ? & ?), F' as (? & ? & ? & ? & ? & ? & ? & ?).
    destruct G as (? & ? & ? & ? & ? & ? & ? & ?), G' as (? & ? & ? & ? & ? & ? & ? & ?).
    apply wpool_ext; try congruence; lia.
Qed.

Lemma acts_longer ts f w w' : ascending (wp_diffs w') -> acts ts f w w' ->
  (length (wp_diffs w') <= S (length (wp_diffs w)))%nat.
Proof.
  intros A H. destruct f as [c x en|x d].
  - destruct H as (_ & _ & _ & H & _). destruct en as [[q v]|].
    + apply (one_longer _ _ q A). intros d Hd. apply H in Hd. cbn in Hd. tauto.
    + apply (one_longer _ _ 0 A). intros d Hd. apply H in Hd. cbn in Hd. tauto.
  - destruct H as (_ & _ & -> & _). lia.
Qed.

(** ** Instructions *)
Definition key_at (ms : list meta) (n : nat) : pubkey := nth n (map mt_key ms) 0.
Lemma key_at_eq ms n k : account_at ms n k -> key_at ms n = k.
Proof. unfold account_at, key_at. intros H. apply nth_error_nth. assumption. Qed.

(** what a call does to its pool *)
Definition effect_of (ts : Z) (ms : list meta) (i : ix) : option effect :=
  match i with
  | FillVault x d => Some (Funds x (day_start d))
  | DepositMining a p _ _ =>
      Some (Stakes false (a * weight_of p + if_other (key_at ms 3) (key_at ms 1) a)
              (Some (expiry p ts, a * (weight_of p - 1))))
  | WithdrawMining a _ _ => Some (Stakes true (- a - if_other (key_at ms 3) (key_at ms 1) a) None)
  | ExtendStake op np st b a _ _ =>
      Some (Stakes false
              ((b + a) * weight_of np + if_other (key_at ms 3) (key_at ms 1) a
               - (if unexpired op st ts then b * weight_of op else b))
              (Some (expiry np ts, (b + a) * (weight_of np - 1))))
  | ChangeDelegate a _ =>
      Some (Stakes false (if_other (key_at ms 5) (key_at ms 1) a - if_other (key_at ms 4) (key_at ms 1) a) None)
  | Slash _ n wt dt =>
      Some (Stakes true (- wt) (match dt with Some x => Some (day_start x, - (wt - n)) | None => None end))
  | _ => None
  end.

Lemma expiry_late p ts : p <> LNone -> day_start ts < expiry p ts.
Proof. intros H. unfold expiry. destruct p; cbn; try contradiction; lia. Qed.

Lemma stakes_none ts (c : bool) delta w w' :
  only_total w w' -> p_total (wp w') = p_total (wp w) + delta - (if c then due (day_start ts) (wp_diffs w) else 0) ->
  wp_diffs w' = (if c then after (day_start ts) (wp_diffs w) else wp_diffs w) ->
  acts ts (Stakes c delta None) w w'.
Proof.
  intros O T D. split; [assumption|]. split; [assumption|]. rewrite D. cbn. split; [|split; [|tauto]]; intros d.
  - destruct c; cbn; [rewrite at_after|]; lia.
  - destruct c; cbn; [rewrite has_after|]; [intuition|]. split; [intros; left; split; [assumption|discriminate]|tauto].
Qed.
Lemma stakes_some ts delta x v w w' :
  only_total w w' -> p_total (wp w') = p_total (wp w) + delta ->
  scheduled 365 x v (wp_diffs w) (wp_diffs w') -> Z.of_nat (length (wp_diffs w)) < 365 -> day_start ts < x ->
  acts ts (Stakes false delta (Some (x, v))) w w'.
Proof.
  intros O T [D _] Hl Hx. destruct D as [D1 D2]; [auto|].
  split; [assumption|]. split; [lia|]. cbn. split; [|split]; intros d.
  - rewrite D1. lia.
  - rewrite D2. split; [intros [?| ->]; [left; split; [assumption|discriminate]|right; reflexivity]|tauto].
  - intros ->. assumption.
Qed.

Section env.
Context (e : env) (Henv : env_ok e).

Lemma call_acts now ts ms i L L' r f P w :
  reached e now L -> now <= ts -> ix_in_range i -> exec e ts ms i L = Ok (L', r) ->
  effect_of ts ms i = Some f -> account_at ms (pool_position i) P -> is_pool e L P w ->
  Z.of_nat (length (wp_diffs w)) < 365 ->
  exists w', is_pool e L' P w' /\ acts ts f w w'.
Proof.
  intros HR Hts Hi X Hf HP Hw Hl. destruct Hw as [_ Hw].
  destruct i; cbn [effect_of] in Hf; try discriminate; injection Hf as <-; cbn [ix_in_range pool_position] in *.
  - destruct (fill_on_ledger e _ _ _ _ _ _ _ X) as (P0 & V & S & w0 & w' & s & v & A0 & _ & _ & [_ W] & W' & _ & _ & F1 & F2 & F3 & _ & F4 & F5 & F6 & F7 & F8 & _).
    rewrite (at_fun _ _ _ _ A0 HP) in *. assert (w0 = w) as -> by congruence.
    exists w'. split; [assumption|]. cbn [acts]. repeat (split; [assumption|]). assumption.
  - destruct (deposit_on_ledger e Henv _ _ _ _ _ _ _ _ _ _ HR Hts (proj1 Hi) X)
      as (P0 & k & D & w0 & m & m1 & w' & m' & A0 & A1 & A3 & [_ W] & _ & W' & _ & Hp & _ & _ & _ & _ & F1 & F2 & F3 & _).
    rewrite (at_fun _ _ _ _ A0 HP) in *. assert (w0 = w) as -> by congruence.
    rewrite (key_at_eq _ _ _ A1), (key_at_eq _ _ _ A3).
    exists w'. split; [assumption|]. apply stakes_some; [assumption|lia|assumption|assumption|apply expiry_late; assumption].
  - destruct (withdraw_on_ledger e Henv _ _ _ _ _ _ _ _ _ HR Hts (proj1 Hi) X)
      as (P0 & k & D & w0 & m & m1 & w' & m' & A0 & A1 & A3 & [_ W] & _ & W' & _ & _ & _ & _ & _ & _ & F1 & F2 & F3 & _).
    rewrite (at_fun _ _ _ _ A0 HP) in *. assert (w0 = w) as -> by congruence.
    rewrite (key_at_eq _ _ _ A1), (key_at_eq _ _ _ A3).
    exists w'. split; [assumption|]. apply stakes_none; [assumption|lia|assumption].
  - destruct (extend_on_ledger e Henv _ _ _ _ _ _ _ _ _ _ _ _ _ HR Hts (proj1 (proj2 Hi)) (proj1 (proj2 (proj2 Hi))) X)
      as (P0 & k & D & w0 & m & m1 & t & w' & m' & A0 & A1 & A3 & [_ W] & _ & W' & _ & _ & Hp & _ & _ & _ & _ & _ & _ & F1 & F2 & F3 & _).
    rewrite (at_fun _ _ _ _ A0 HP) in *. assert (w0 = w) as -> by congruence.
    rewrite (key_at_eq _ _ _ A1), (key_at_eq _ _ _ A3).
    exists w'. split; [assumption|]. apply stakes_some; [assumption|lia|assumption|assumption|apply expiry_late; assumption].
  - destruct (change_on_ledger e Henv _ _ _ _ _ _ _ _ HR Hts (proj1 Hi) X)
      as (P0 & k & O & N & w0 & m & w' & m' & A0 & A1 & A4 & A5 & _ & [_ W] & _ & W' & _ & _ & F1 & F3 & F2 & _).
    rewrite (at_fun _ _ _ _ A0 HP) in *. assert (w0 = w) as -> by congruence.
    rewrite (key_at_eq _ _ _ A1), (key_at_eq _ _ _ A4), (key_at_eq _ _ _ A5).
    exists w'. split; [assumption|]. apply stakes_none; [assumption|lia|assumption].
  - destruct (slash_on_ledger e Henv _ _ _ _ _ _ _ _ _ _ HR Hts (proj1 (proj2 Hi)) (proj1 (proj2 (proj2 Hi))) X)
      as (P0 & k & w0 & m & m1 & w' & m' & A0 & A1 & [_ W] & _ & W' & _ & _ & _ & F1 & _ & _ & F2 & F3).
    rewrite (at_fun _ _ _ _ A0 HP) in *. assert (w0 = w) as -> by congruence.
    exists w'. split; [assumption|]. destruct expiration as [x|].
    + destruct F3 as (_ & _ & (G1 & _ & G2 & G3) & _).
      split; [assumption|]. split; [lia|]. cbn. split; [|split]; intros d.
      * rewrite G3, at_after. destruct (d =? day_start x); lia.
      * rewrite has_keys, G2, <- has_keys, has_after. split; [intros [? ?]; left; auto|].
        intros [[? H]| ->]; [auto|]. apply has_after in G1. assumption.
      * intros ->. apply has_after in G1. apply G1.
    + apply stakes_none; [assumption|lia|apply F3].
Qed.

(** only distributions change the index history of a pool that stays a pool *)
Lemma history_kept ts ms i L L' r k w w' :
  process e ts ms i L = Ok (L', r) -> no_payout i ->
  data_of L k = DPool w -> data_of L' k = DPool w' -> wp_ci w' = wp_ci w.
Proof.
  intros H Hn Hw Hw'. unfold data_of in *.
  destruct i; try contradiction; cbn [process] in H; try (apply no_ret_ok in H as [H _]).
  - apply fill_inv in H as (P & mint & V & auth & S & w0 & w1 & A & _ & _ & _ & _ & _ & _ & Hd & _ & _ & _ & Hf & Ht).
    apply fill_effect in Hf as F. apply spl_transfer_inv in Ht as (s & v & _ & _ & _ & _ & _ & _ & _ & _ & [[_ ->]|(_ & _ & ->)]).
    all: revert Hw'; writes; cases; subst; cbn [with_data a_data]; intros Hw'; try congruence.
    all: unfold data_of in Hd; injection Hw' as <-; assert (w0 = w) as -> by congruence; apply F.
  - apply init_mining_inv in H as (P & k0 & payer & bump & K & A & _ & _ & _ & _ & Hc & ->).
    apply create_account_inv in Hc as (_ & _ & _ & _ & _ & _ & _ & _ & _ & _ & ->).
    revert Hw'; writes; cases; subst; cbn [with_data a_data]; intros Hw'; congruence.
  - apply deposit_inv in H as (P & k0 & auth & D & w0 & m & w1 & m1 & d1 & A & C & _ & _ & He & ->).
    apply deposit_frame in He as [F _]. destruct F as (t & ds & ->). destruct C as [_ _ _ X1 _ _ _ _ _ _]. unfold data_of in X1.
    revert Hw'. destruct d1; cbn [put_dlg]; writes; cases; subst; cbn [with_data a_data]; intros Hw'; try congruence;
      injection Hw' as <-; assert (w0 = w) as -> by congruence; reflexivity.
  - apply withdraw_inv in H as (P & k0 & auth & D & w0 & m & w1 & m1 & d1 & A & C & _ & _ & He & ->).
    apply withdraw_frame in He as [F _]. destruct F as (t & ds & ->). destruct C as [_ _ _ X1 _ _ _ _ _ _]. unfold data_of in X1.
    revert Hw'. destruct d1; cbn [put_dlg]; writes; cases; subst; cbn [with_data a_data]; intros Hw'; try congruence;
      injection Hw' as <-; assert (w0 = w) as -> by congruence; reflexivity.
  - destruct (process_claim e ts ms L) as [[K1 x1]|] eqn:Q1; [|discriminate]. injection H as -> <-.
    apply claim_inv in Q1 as (P & mint & V & k0 & owner & auth & T & w0 & m & m1 & t & A & _ & _ & _ & _ & _ & _ & _ & Ht & _ & _ & _ & Hm & _ & _ & Hne & _ & Hr & Ex & Hc).
    cbv zeta in Hc. destruct Hc as [[_ ->]|[_ Hs]].
    + revert Hw'; writes; cases; subst; cbn [with_data a_data]; intros Hw'; congruence.
    + apply spl_transfer_inv in Hs as (s & v & _ & _ & _ & _ & _ & _ & _ & _ & [[_ ->]|(_ & _ & ->)]);
        revert Hw'; writes; cases; subst; cbn [with_data a_data]; intros Hw'; congruence.
  - apply extend_inv in H as (P & k0 & auth & D & w0 & m & w1 & m1 & d1 & A & C & _ & _ & He & ->).
    apply extend_frame in He as [F _]. destruct F as (t & ds & ->). destruct C as [_ _ _ X1 _ _ _ _ _ _]. unfold data_of in X1.
    revert Hw'. destruct d1; cbn [put_dlg]; writes; cases; subst; cbn [with_data a_data]; intros Hw'; try congruence;
      injection Hw' as <-; assert (w0 = w) as -> by congruence; reflexivity.
  - apply close_inv in H as (k0 & owner & T & auth & P & w0 & m & m1 & A & _ & _ & _ & _ & _ & _ & _ & Hne & Hd & _ & _ & _ & _ & _ & ->).
    revert Hw'; writes; cases; subst; cbn [with_data a_data]; intros Hw'; congruence.
  - apply change_inv in H as (P & k0 & auth & owner & O & N & w0 & m & w1 & m1 & od & nd & A & C & _ & _ & _ & _ & HON & HOP & He & ->).
    apply change_frame in He as [F _]. destruct F as (t & ds & ->). destruct C as [_ _ _ X1 _ _ _ _ _ _]. unfold data_of in X1.
    revert Hw'. destruct od, nd; cbn [put_dlg]; writes; cases; subst; cbn [with_data a_data]; intros Hw'; try congruence;
      injection Hw' as <-; assert (w0 = w) as -> by congruence; reflexivity.
  - apply slash_inv in H as (auth & P & k0 & w0 & m & w1 & m1 & A & C & He & ->).
    apply slash_frame in He as [F _]. destruct F as (t & ds & ->). destruct C as [_ _ _ X1 _ _ _ _ _ _]. unfold data_of in X1.
    revert Hw'. writes; cases; subst; cbn [with_data a_data]; intros Hw'; try congruence;
      injection Hw' as <-; assert (w0 = w) as -> by congruence; reflexivity.
  - apply decrease_inv in H as (auth & P & k0 & w0 & m & m1 & A & C & He & ->).
    revert Hw'; writes; cases; subst; cbn [with_data a_data]; intros Hw'; congruence.
Qed.

(** ** Two calls *)
Lemma acc_dec (a b : account) : {a = b} + {a <> b}.
Proof. exact (decide (a = b)). Qed.

Definition touched (ms : list meta) (i : ix) (k : pubkey) : Prop :=
  exists n, In n (may_change i) /\ account_at ms n k.
Lemma touched_dec ms i k : touched ms i k \/ ~ touched ms i k.
Proof.
  unfold touched, account_at. induction (may_change i) as [|n l IH].
  - right. intros (n & [] & _).
  - destruct (decide (nth_error (map mt_key ms) n = Some k)) as [E|E].
    + left. exists n. split; [left; reflexivity|assumption].
    + destruct IH as [(x & A & B)|IH]; [left; exists x; split; [right; assumption|assumption]|].
      right. intros (x & [<-|A] & B); [contradiction|]. apply IH. eauto.
Qed.

Lemma touched_or_same ts ms i L L' r k :
  exec e ts ms i L = Ok (L', r) ->
  acc L' k = acc L k \/ exists n, In n (may_change i) /\ account_at ms n k.
Proof.
  intros H. destruct (acc_dec (acc L' k) (acc L k)); [left; assumption|right].
  apply (changed_named e _ _ _ _ _ _ _ H n).
Qed.

(** the other call finds its inputs as before *)
Lemma inputs_kept ts ms i ms' j L L1 r :
  unrelated ms i ms' j -> exec e ts ms i L = Ok (L1, r) -> same_inputs ms' j L L1.
Proof.
  intros [U1 U2] X. split.
  - intros n k Hn Hne Hk. destruct (touched_or_same _ _ _ _ _ _ k X) as [E|(n' & Hn' & Hk')]; [congruence|].
    destruct (U1 _ _ _ Hn' Hk' Hn Hk) as [_ ?]. contradiction.
  - intros P w1 w2 HP H1 H2. destruct (touched_or_same _ _ _ _ _ _ P X) as [E|(n' & Hn' & Hk')].
    { unfold data_of in *. rewrite E in H2. congruence. }
    symmetry. apply exec_inv in X as [X _].
    destruct i as [? ?| | | | | | | | | | |]; try (apply (history_kept _ _ _ _ _ _ _ _ _ X I H1 H2)).
    + exfalso. cbn in Hn'. destruct Hn' as [<-|Hn'].
      * apply (U2 P Hk' HP).
      * cbn [process] in X. apply no_ret_ok in X as [X _].
        apply init_pool_inv in X as (P0 & mint & V & payer & auth & bump & w & K1 & K2 & A & HoP & _ & Hz & _ & _ & _ & _ & Hv & Hn1 & Hn2 & Hc & Hi & ->).
        apply create_account_inv in Hc as (_ & _ & _ & _ & _ & Hl & _ & Hl' & _ & _ & _).
        destruct Hn' as [<-|[<-|[]]].
        -- assert (P = V) as -> by (eapply at_fun; [eassumption|at_]). rewrite H1 in Hl. discriminate.
        -- assert (P = payer) as -> by (eapply at_fun; [eassumption|at_]). rewrite H1 in Hl'. discriminate.
    + exfalso. cbn in Hn'. destruct Hn' as [<-|[]]. apply (U2 P Hk' HP).
Qed.

Lemma effect_some ts ms i : In (pool_position i) (may_change i) -> no_payout i -> exists f, effect_of ts ms i = Some f.
Proof. destruct i; cbn; intros H N; try contradiction; try (eexists; reflexivity); exfalso; intuition discriminate. Qed.

(** a pool stays a pool with the same lamports *)
Lemma pool_account ts ms i L L' r P w w' now :
  reached e now L -> now <= ts -> exec e ts ms i L = Ok (L', r) -> no_payout i ->
  is_pool e L P w -> is_pool e L' P w' -> acc L' P = with_data (acc L P) (DPool w').
Proof.
  intros HR Hts X Hn [Ho Hd] [Ho' Hd']. destruct (reached_ok e Henv _ _ HR) as (HL & _ & _).
  apply exec_inv in X as [X _]. pose proof (process_change e now ts ms i L L' r Henv Hts HL X P) as C.
  unfold owner_of, data_of, with_data in *.
  pose proof (eo_sys _ Henv). pose proof (eo_tok _ Henv). pose proof (eo_toksys _ Henv).
  destruct C as [E|w0 w1 A B E G|w0 ? ? ? ? ? ? E|m m' A B|? ? ? _ _ A|? _ _ A B|? A|? ? A B|? ? ? ? A];
    try congruence.
  - rewrite E in Hd' |- *. destruct (acc L P). cbn in *. congruence.
  - rewrite E in Hd' |- *. cbn in Hd'. congruence.
  - subst i. contradiction.
Qed.

Lemma pool_ascending now L P w : reached e now L -> is_pool e L P w -> ascending (wp_diffs w).
Proof.
  intros HR [Ho Hd]. destruct (reached_ok e Henv _ _ HR) as (HL & _ & _).
  apply (ok_pool e _ _ _ _ HL Ho Hd).
Qed.

Theorem calls_commute now ts ms i ms' j L L1 r1 L12 r2 L2 r2' L21 r1' :
  reached e now L -> now <= ts -> is_u64 ts -> ix_in_range i -> ix_in_range j ->
  unrelated ms i ms' j ->
  (forall P, account_at ms (pool_position i) P -> account_at ms' (pool_position j) P -> room_for_two e L P) ->
  exec e ts ms i L = Ok (L1, r1) -> exec e ts ms' j L1 = Ok (L12, r2) ->
  exec e ts ms' j L = Ok (L2, r2') -> exec e ts ms i L2 = Ok (L21, r1') ->
  r1 = r1' /\ r2 = r2' /\ forall k, acc L12 k = acc L21 k.
Proof.
  intros HR Hts Hu Hi Hj U Room X1 X12 X2 X21.
  assert (U' : unrelated ms' j ms i).
  { destruct U as [Ua Ub]. split.
    - intros n n' k A B C D. destruct (Ua _ _ _ C D A B). auto.
    - intros P A B. destruct (Ub P B A). auto. }
  pose proof (inputs_kept _ _ _ _ _ _ _ _ U X1) as I1. pose proof (inputs_kept _ _ _ _ _ _ _ _ U' X2) as I2.
  destruct (determined e ts ms L L2 i L1 L21 r1 r1') as [R1 [O1 Q1]];
    [apply exec_inv in X1; apply X1|apply exec_inv in X21; apply X21|assumption|].
  destruct (determined e ts ms' L L1 j L2 L12 r2' r2) as [R2 [O2 Q2]];
    [apply exec_inv in X2; apply X2|apply exec_inv in X12; apply X12|assumption|].
  split; [assumption|]. split; [congruence|]. intros k.
  assert (Same : forall t m x K K' r, exec e t m x K = Ok (K', r) -> ~ touched m x k -> acc K' k = acc K k).
  { intros t m x K K' r H N. destruct (touched_or_same _ _ _ _ _ _ k H) as [E|T]; [assumption|contradiction]. }
  destruct (touched_dec ms i k) as [(n & Hn & Hk)|Ni], (touched_dec ms' j k) as [(n' & Hn' & Hk')|Nj].
  - destruct U as [Ua Ub]. destruct (Ua _ _ _ Hn Hk Hn' Hk') as [-> ->]. destruct (Ub _ Hk Hk') as [Pi Pj].
    destruct (effect_some ts ms i Hn Pi) as [f Hf], (effect_some ts ms' j Hn' Pj) as [g Hg].
    assert (HP : exists w, is_pool e L k w).
    { destruct i; cbn [effect_of] in Hf; try discriminate; cbn [pool_position] in Hk; apply exec_inv in X1 as [X1 _]; cbn [process] in X1;
        apply no_ret_ok in X1 as [X1 _].
      - apply fill_inv in X1 as (P & mint & V & auth & S & w0 & w1 & A & Ho & _ & _ & _ & _ & _ & Hd & _).
        assert (k = P) as -> by (eapply at_fun; [exact Hk|at_]). exists w0. split; assumption.
      - apply deposit_inv in X1 as (P & k0 & auth & D & w0 & m & w1 & m1 & d1 & A & C & _).
        assert (k = P) as -> by (eapply at_fun; [exact Hk|at_]). exists w0. destruct C. split; assumption.
      - apply withdraw_inv in X1 as (P & k0 & auth & D & w0 & m & w1 & m1 & d1 & A & C & _).
        assert (k = P) as -> by (eapply at_fun; [exact Hk|at_]). exists w0. destruct C. split; assumption.
      - apply extend_inv in X1 as (P & k0 & auth & D & w0 & m & w1 & m1 & d1 & A & C & _).
        assert (k = P) as -> by (eapply at_fun; [exact Hk|at_]). exists w0. destruct C. split; assumption.
      - apply change_inv in X1 as (P & k0 & auth & owner & O & N & w0 & m & w1 & m1 & od & nd & A & C & _).
        assert (k = P) as -> by (eapply at_fun; [exact Hk|at_]). exists w0. destruct C. split; assumption.
      - apply slash_inv in X1 as (auth & P & k0 & w0 & m & w1 & m1 & A & C & _).
        assert (k = P) as -> by (eapply at_fun; [exact Hk|at_]). exists w0. destruct C. split; assumption. }
    destruct HP as [w Hw]. pose proof (Room k Hk Hk' w Hw) as Hl.
    pose proof (reached_snoc e _ _ _ _ _ _ _ HR Hts Hu Hi X1) as HR1.
    pose proof (reached_snoc e _ _ _ _ _ _ _ HR Hts Hu Hj X2) as HR2.
    pose proof (reached_snoc e _ _ _ _ _ _ _ HR1 (Z.le_refl _) Hu Hj X12) as HR12.
    pose proof (reached_snoc e _ _ _ _ _ _ _ HR2 (Z.le_refl _) Hu Hi X21) as HR21.
    destruct (call_acts _ _ _ _ _ _ _ _ _ _ HR Hts Hi X1 Hf Hk Hw ltac:(lia)) as (w1 & W1 & F1).
    destruct (call_acts _ _ _ _ _ _ _ _ _ _ HR Hts Hj X2 Hg Hk' Hw ltac:(lia)) as (w2 & W2 & G2).
    pose proof (pool_ascending _ _ _ _ HR Hw) as A. pose proof (pool_ascending _ _ _ _ HR1 W1) as A1.
    pose proof (pool_ascending _ _ _ _ HR2 W2) as A2.
    pose proof (acts_longer _ _ _ _ A1 F1) as B1. pose proof (acts_longer _ _ _ _ A2 G2) as B2.
    destruct (call_acts _ _ _ _ _ _ _ _ _ _ HR1 (Z.le_refl _) Hj X12 Hg Hk' W1 ltac:(lia)) as (w12 & W12 & G12).
    destruct (call_acts _ _ _ _ _ _ _ _ _ _ HR2 (Z.le_refl _) Hi X21 Hf Hk W2 ltac:(lia)) as (w21 & W21 & F21).
    pose proof (pool_ascending _ _ _ _ HR12 W12) as A12. pose proof (pool_ascending _ _ _ _ HR21 W21) as A21.
    pose proof (acts_commute _ _ _ _ _ _ _ _ A A1 A2 A12 A21 F1 G12 G2 F21) as E.
    rewrite (pool_account _ _ _ _ _ _ _ _ _ _ HR1 (Z.le_refl _) X12 Pj W1 W12).
    rewrite (pool_account _ _ _ _ _ _ _ _ _ _ HR2 (Z.le_refl _) X21 Pi W2 W21).
    rewrite (pool_account _ _ _ _ _ _ _ _ _ _ HR Hts X1 Pi Hw W1).
    rewrite (pool_account _ _ _ _ _ _ _ _ _ _ HR Hts X2 Pj Hw W2). rewrite E. reflexivity.
  - rewrite (Same _ _ _ _ _ _ X12 Nj). destruct (Nat.eq_dec n (pool_position i)) as [->|Hne].
    + apply (Q1 k Hk). symmetry. exact (Same _ _ _ _ _ _ X2 Nj).
    + exact (O1 n k Hn Hne Hk).
  - rewrite (Same _ _ _ _ _ _ X21 Ni). symmetry. destruct (Nat.eq_dec n' (pool_position j)) as [->|Hne].
    + apply (Q2 k Hk'). symmetry. exact (Same _ _ _ _ _ _ X1 Ni).
    + exact (O2 n' k Hn' Hne Hk').
  - rewrite (Same _ _ _ _ _ _ X12 Nj), (Same _ _ _ _ _ _ X1 Ni), (Same _ _ _ _ _ _ X21 Ni), (Same _ _ _ _ _ _ X2 Nj).
    reflexivity.
Qed.
End env.

(** ** Two claims *)
(** a token account with [x] more tokens *)
Definition token_shift (a : account) (x : Z) : account :=
  match a_data a with
  | DToken t => with_data a (DToken (Token (t_mint t) (t_owner t) (t_amount t + x)))
  | _ => a
  end.
Lemma token_shift_0 a : token_shift a 0 = a.
Proof.
  unfold token_shift, with_data. destruct a as [l o d]; cbn. destruct d; try reflexivity.
  destruct t; cbn. rewrite Z.add_0_r. reflexivity.
Qed.
Lemma token_shift_shift a x y : token_shift (token_shift a x) y = token_shift a (x + y).
Proof.
  unfold token_shift, with_data. destruct a as [l o d]; cbn. destruct d; cbn; try reflexivity.
  rewrite Z.add_assoc. reflexivity.
Qed.
Lemma token_shift_data a x : (forall t, a_data a <> DToken t) -> token_shift a x = a.
Proof. unfold token_shift. destruct (a_data a); intros H; try reflexivity. exfalso. eapply H. reflexivity. Qed.

Lemma claim_writes e ts ms L L' r :
  exec e ts ms Claim L = Ok (L', r) ->
  exists P V k T w m m1,
    account_at ms 0 P /\ account_at ms 2 V /\ account_at ms 3 k /\ account_at ms 6 T /\
    data_of L P = DPool w /\ data_of L k = DMining m /\ refresh ts (wp_ci w) m = Ok m1 /\ r = Some (m_unclaimed (wm m1)) /\
    let x := Z.max 0 (m_unclaimed (wm m1)) in
    forall q, acc L' q =
      if q =? k then with_data (acc L k) (DMining (WMining (mining_claim (wm m1)) (wm_diffs m1)))
      else token_shift (acc L q) ((if q =? T then x else 0) - (if q =? V then x else 0)).
Proof.
  intros H. apply exec_inv in H as [H _]. cbn [process] in H.
  destruct (process_claim e ts ms L) as [[L1 x]|] eqn:E; [|discriminate]. injection H as -> <-.
  apply claim_inv in E as (P & mint & V & k & owner & auth & T & w & m & m1 & t & A & _ & _ & _ & _ & _ & _ & _ & Ht & _ & Hw & _ & Hm & _ & _ & Hne & _ & Hr & Ex & Hc).
  exists P, V, k, T, w, m, m1. do 4 (split; [at_|]). do 3 (split; [assumption|]). split; [congruence|].
  cbv zeta in *. intros q. destruct Hc as [[Hx ->]|[Hx Hs]].
  - rewrite Z.max_l by lia. replace ((if q =? T then 0 else 0) - (if q =? V then 0 else 0)) with 0
      by (destruct (q =? T), (q =? V); reflexivity).
    rewrite token_shift_0. writes. rewrite (Z.eqb_sym k q). destruct (Z.eqb_spec q k); congruence.
  - rewrite Z.max_r by lia. rewrite <- Ex.
    apply spl_transfer_inv in Hs as (s & v & Hs & Hv & _ & _ & _ & _ & _ & _ & Hc).
    assert (NS : k <> V) by (intros ->; unfold put_mining in Hs; rewrite data_put in Hs; discriminate).
    assert (NV : k <> T) by (intros ->; unfold put_mining in Hv; rewrite data_put in Hv; discriminate).
    unfold data_of in Hs, Hv. unfold put_mining in Hs, Hv. rewrite acc_put_data_ne in Hs, Hv by assumption.
    destruct Hc as [[<- ->]|(Z3 & _ & ->)].
    + replace ((if q =? V then x else 0) - (if q =? V then x else 0)) with 0 by lia.
      rewrite token_shift_0. writes. rewrite (Z.eqb_sym k q). destruct (Z.eqb_spec q k); congruence.
    + writes. destruct (Z.eqb_spec q k) as [->|]; destruct (Z.eqb_spec T k), (Z.eqb_spec V k), (Z.eqb_spec k k); try congruence.
      rewrite (Z.eqb_sym k q), (Z.eqb_sym T q), (Z.eqb_sym V q).
      destruct (Z.eqb_spec q k), (Z.eqb_spec q T), (Z.eqb_spec q V); subst; try congruence; try contradiction.
      * unfold token_shift. rewrite Hv. do 3 f_equal. lia.
      * unfold token_shift. rewrite Hs. do 3 f_equal.
      * rewrite token_shift_0. reflexivity.
Qed.

Lemma claims_commute e ts ms ms' k k' L L1 r1 L12 r2 L2 r2' L21 r1' :
  account_at ms 3 k -> account_at ms' 3 k' -> k <> k' ->
  exec e ts ms Claim L = Ok (L1, r1) -> exec e ts ms' Claim L1 = Ok (L12, r2) ->
  exec e ts ms' Claim L = Ok (L2, r2') -> exec e ts ms Claim L2 = Ok (L21, r1') ->
  r1 = r1' /\ r2 = r2' /\ forall q, acc L12 q = acc L21 q.
Proof.
  intros Hk Hk' Hne X1 X12 X2 X21.
  destruct (claim_writes _ _ _ _ _ _ X1) as (P & V & k1 & T & w & m & m1 & A0 & A2 & A3 & A6 & W & M & R & -> & E1).
  destruct (claim_writes _ _ _ _ _ _ X21) as (Pb & Vb & kb & Tb & wb & mb & m1b & B0 & B2 & B3 & B6 & Wb & Mb & Rb & -> & E21).
  destruct (claim_writes _ _ _ _ _ _ X2) as (P' & V' & k2 & T' & w' & m' & m1' & C0 & C2 & C3 & C6 & W' & M' & R' & -> & E2).
  destruct (claim_writes _ _ _ _ _ _ X12) as (Pd & Vd & kd & Td & wd & md & m1d & D0 & D2 & D3 & D6 & Wd & Md & Rd & -> & E12).
  rewrite (at_fun _ _ _ _ A3 Hk), (at_fun _ _ _ _ B3 Hk), (at_fun _ _ _ _ C3 Hk'), (at_fun _ _ _ _ D3 Hk') in *.
  rewrite (at_fun _ _ _ _ B0 A0), (at_fun _ _ _ _ B2 A2), (at_fun _ _ _ _ B6 A6) in *.
  rewrite (at_fun _ _ _ _ D0 C0), (at_fun _ _ _ _ D2 C2), (at_fun _ _ _ _ D6 C6) in *.
  cbv zeta in *. unfold data_of in *.
  assert (K1 : forall q, q <> k -> (forall t, a_data (acc L q) <> DToken t) -> acc L1 q = acc L q).
  { intros q Hq Ht. rewrite E1. destruct (Z.eqb_spec q k); [contradiction|]. apply token_shift_data. assumption. }
  assert (K2 : forall q, q <> k' -> (forall t, a_data (acc L q) <> DToken t) -> acc L2 q = acc L q).
  { intros q Hq Ht. rewrite E2. destruct (Z.eqb_spec q k'); [contradiction|]. apply token_shift_data. assumption. }
  assert (Q1 : acc L1 k' = acc L k') by (apply K1; [congruence|rewrite M'; discriminate]).
  assert (Q2 : acc L2 k = acc L k) by (apply K2; [congruence|rewrite M; discriminate]).
  assert (Q3 : acc L1 P' = acc L P') by (apply K1; [intros ->; congruence|rewrite W'; discriminate]).
  assert (Q4 : acc L2 P = acc L P) by (apply K2; [intros ->; congruence|rewrite W; discriminate]).
  rewrite Q1 in Md. rewrite Q2 in Mb. rewrite Q3 in Wd. rewrite Q4 in Wb.
  assert (mb = m) as -> by congruence. assert (wb = w) as -> by congruence.
  assert (md = m') as -> by congruence. assert (wd = w') as -> by congruence.
  assert (m1b = m1) as -> by congruence. assert (m1d = m1') as -> by congruence.
  split; [reflexivity|]. split; [reflexivity|]. intros q.
  rewrite E12, E21. destruct (Z.eqb_spec q k') as [->|Nq'].
  - destruct (Z.eqb_spec k' k); [congruence|]. rewrite Q1, E2, Z.eqb_refl. symmetry. apply token_shift_data. discriminate.
  - destruct (Z.eqb_spec q k) as [->|Nq].
    + rewrite Q2, E1, Z.eqb_refl. apply token_shift_data. discriminate.
    + rewrite E1, E2. destruct (Z.eqb_spec q k), (Z.eqb_spec q k'); try contradiction.
      rewrite !token_shift_shift. f_equal. lia.
Qed.
