(** Lemmas on cumulative histories and exact accrual (Spec.v). *)
From Verif Require Import Base OMap State Spec ResLemmas TreeLemmas.

Lemma growing_last prev t : growing prev t -> prev <= last_from prev t.
Proof.
  revert prev. induction t as [|[k i] r IH]; cbn [growing last_from]; intros prev H; [lia|].
  destruct H as [H1 H2]. specialize (IH _ H2). lia.
Qed.

Lemma growing_in prev t k i : growing prev t -> In (k, i) t -> prev <= i <= last_from prev t.
Proof.
  revert prev. induction t as [|[a b] r IH]; cbn [growing last_from]; intros prev H Hin; [contradiction|].
  destruct H as [H1 H2]. pose proof (growing_last _ _ H2). destruct Hin as [E|E].
  - injection E as -> ->. lia.
  - specialize (IH _ H2 E). lia.
Qed.

Lemma visible_bounds prev d t :
  growing prev t -> prev <= visible_from prev d t <= last_from prev t.
Proof.
  revert prev. induction t as [|[k i] r IH]; cbn [growing last_from visible_from]; intros prev H; [lia|].
  destruct H as [H1 H2]. pose proof (growing_last _ _ H2). specialize (IH _ H2).
  destruct (k <? d); lia.
Qed.

Lemma visible_mono prev d d' t :
  growing prev t -> d <= d' -> visible_from prev d t <= visible_from prev d' t.
Proof.
  revert prev. induction t as [|[k i] r IH]; cbn [growing visible_from]; intros prev H Hd; [lia|].
  destruct H as [H1 H2]. specialize (IH _ H2 Hd). pose proof (visible_bounds _ d' _ H2).
  destruct (Z.ltb_spec k d), (Z.ltb_spec k d'); lia.
Qed.

Lemma visible_all prev d t : dates (fun k => k < d) t -> visible_from prev d t = last_from prev t.
Proof.
  revert prev. induction t as [|[k i] r IH]; cbn [visible_from last_from]; intros prev H; [reflexivity|].
  pose proof (H k i (or_introl eq_refl)). cbv beta in *.
  rewrite (proj2 (Z.ltb_lt k d)) by assumption. apply IH.
  intros ? ? ?; eapply H; right; eauto.
Qed.

(** an entry whose index exceeds the visible one is not before the date *)
Lemma visible_above prev d t k i :
  growing prev t -> ascending t -> In (k, i) t -> visible_from prev d t < i -> d <= k.
Proof.
  revert prev. induction t as [|[a b] r IH]; cbn [growing visible_from]; intros prev H Ha Hin Hlt; [contradiction|].
  destruct H as [H1 H2], Ha as [A1 A2].
  destruct (Z.ltb_spec a d).
  - destruct Hin as [E|E].
    + injection E as -> ->. pose proof (visible_bounds _ d _ H2). lia.
    + eapply IH; eauto.
  - destruct Hin as [E|E].
    + injection E as -> ->. assumption.
    + specialize (A1 _ _ E). lia.
Qed.

Lemma accrual_below j w prev t :
  growing prev t -> last_from prev t <= j -> accrual_from j w prev t = 0.
Proof.
  revert prev. induction t as [|[k i] r IH]; cbn [growing last_from accrual_from]; intros prev H Hl; [reflexivity|].
  destruct H as [H1 H2]. pose proof (growing_last _ _ H2). rewrite IH by assumption.
  rewrite !Z.max_r by lia. lia.
Qed.

Lemma accrual_above j v w prev t :
  growing prev t -> j <= prev -> v <= prev ->
  accrual_from j w prev t = accrual_from v w prev t.
Proof.
  revert prev. induction t as [|[k i] r IH]; cbn [growing accrual_from]; intros prev H Hj Hv; [reflexivity|].
  destruct H as [H1 H2]. rewrite (IH i) by (assumption || lia).
  rewrite !Z.max_l by lia. reflexivity.
Qed.

Lemma accrual_le j w w' prev t :
  growing prev t -> (forall k i, In (k, i) t -> j < i -> w k <= w' k) ->
  accrual_from j w prev t <= accrual_from j w' prev t.
Proof.
  revert prev. induction t as [|[k i] r IH]; cbn [growing accrual_from]; intros prev H Hw; [lia|].
  destruct H as [H1 H2].
  specialize (IH i H2 (fun k i H => Hw k i (or_intror H))).
  destruct (Z_lt_le_dec j i) as [Hi|Hi].
  - pose proof (Hw k i (or_introl eq_refl) Hi).
    assert ((Z.max i j - Z.max prev j) * w k <= (Z.max i j - Z.max prev j) * w' k)
      by (apply Z.mul_le_mono_nonneg_l; lia).
    lia.
  - rewrite !Z.max_r by lia. rewrite Z.sub_diag. lia.
Qed.

Lemma accrual_ext j w w' prev t :
  growing prev t -> (forall k i, In (k, i) t -> j < i -> w k = w' k) ->
  accrual_from j w prev t = accrual_from j w' prev t.
Proof.
  intros Hg Hw.
  pose proof (accrual_le j w w' prev t Hg (fun k i H1 H2 => Z.eq_le_incl _ _ (Hw k i H1 H2))).
  pose proof (accrual_le j w' w prev t Hg
                (fun k i H1 H2 => Z.eq_le_incl _ _ (eq_sym (Hw k i H1 H2)))).
  lia.
Qed.

Lemma accrual_nonneg j w prev t :
  growing prev t -> (forall k i, In (k, i) t -> j < i -> 0 <= w k) ->
  0 <= accrual_from j w prev t.
Proof.
  intros Hg Hw.
  pose proof (accrual_le j (fun _ => 0) w prev t Hg Hw).
  assert (forall prev, accrual_from j (fun _ => 0) prev t = 0) as E.
  { clear. induction t as [|[k i] r IH]; intros prev; cbn [accrual_from]; [reflexivity|].
    rewrite IH. lia. }
  rewrite E in *. assumption.
Qed.

(** Moving the index from [j] to the one visible at [d], while the stake is
    constantly [s] on the entries in between. *)
Lemma accrual_step j w s prev d t :
  growing prev t -> j <= visible_from prev d t ->
  (forall k i, In (k, i) t -> k < d -> j < i -> w k = s) ->
  accrual_from j w prev t =
    (visible_from prev d t - Z.max prev j) * s + accrual_from (visible_from prev d t) w prev t.
Proof.
  revert prev. induction t as [|[k i] r IH]; cbn [growing visible_from]; intros prev H Hj Hw.
  - cbn. rewrite Z.max_l by lia. lia.
  - destruct H as [H1 H2].
    destruct (Z.ltb_spec k d) as [Hk|Hk].
    + pose proof (visible_bounds _ d _ H2).
      cbn [accrual_from].
      rewrite (IH i H2 Hj (fun k i H => Hw k i (or_intror H))).
      rewrite (Z.max_r i (visible_from i d r)) by lia.
      rewrite (Z.max_r prev (visible_from i d r)) by lia.
      destruct (Z_lt_le_dec j i) as [Hi|Hi].
      * rewrite (Hw k i (or_introl eq_refl) Hk Hi). lia.
      * rewrite (Z.max_r i j), (Z.max_r prev j) by lia. lia.
    + rewrite Z.max_l by lia.
      rewrite (accrual_above j prev w prev ((k, i) :: r)); [lia|split; assumption|lia|lia].
Qed.

Lemma accrual_app j w prev t k i :
  accrual_from j w prev (t ++ [(k, i)]) =
  accrual_from j w prev t + (Z.max i j - Z.max (last_from prev t) j) * w k.
Proof.
  revert prev. induction t as [|[a b] r IH]; intros prev; cbn [app accrual_from last_from]; [lia|].
  rewrite IH. lia.
Qed.

Lemma last_app prev t k i : last_from prev (t ++ [(k, i)]) = i.
Proof. revert prev. induction t as [|[a b] r IH]; intros prev; cbn [app last_from]; auto. Qed.

Lemma growing_app prev t k i :
  growing prev t -> last_from prev t <= i -> growing prev (t ++ [(k, i)]).
Proof.
  revert prev. induction t as [|[a b] r IH]; cbn [app growing last_from]; intros prev H Hl.
  - auto.
  - destruct H. split; auto.
Qed.

Lemma visible_app_le prev d t k i :
  growing prev t -> last_from prev t <= i ->
  visible_from prev d t <= visible_from prev d (t ++ [(k, i)]).
Proof.
  revert prev. induction t as [|[a b] r IH]; cbn [app growing last_from visible_from]; intros prev H Hl.
  - destruct (k <? d); lia.
  - destruct H. destruct (a <? d); [auto|lia].
Qed.

Lemma ascending_app t k i :
  ascending t -> dates (fun k' => k' < k) t -> ascending (t ++ [(k, i)]).
Proof.
  induction t as [|[a b] r IH]; cbn [app ascending]; intros Ha Hd.
  - split; [intros ? ? []|exact I].
  - destruct Ha as [H1 H2]. split.
    + intros k' v' Hin. apply in_app_or in Hin as [Hin|[E|[]]]; [eauto|].
      injection E as -> ->. exact (Hd a b (or_introl eq_refl)).
    + apply IH; [assumption|]. intros ? ? ?. eapply Hd. right; eauto.
Qed.

(** insertion of a key above all others is at the end *)
Lemma oput_last k v t : dates (fun k' => k' < k) t -> oput k v t = t ++ [(k, v)].
Proof.
  induction t as [|[a b] r IH]; cbn [oput app]; intros Hd; [reflexivity|].
  pose proof (Hd a b (or_introl eq_refl)). cbv beta in *.
  rewrite (proj2 (Z.ltb_ge k a)) by lia.
  destruct (Z.eqb_spec a k); [lia|]. f_equal. apply IH.
  intros ? ? ?. eapply Hd. right; eauto.
Qed.
