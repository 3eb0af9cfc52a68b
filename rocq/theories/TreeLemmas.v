(** Lemmas on the ordered map of OMap.v in terms of Spec.v. *)
From Verif Require Import Base OMap State Spec ResLemmas.

Lemma ascending_cons k v r :
  ascending ((k, v) :: r) <-> (forall k' v', In (k', v') r -> k < k') /\ ascending r.
Proof. reflexivity. Qed.

Lemma oget_in k t v : oget k t = Some v -> In (k, v) t.
Proof.
  induction t as [|[k' v'] r IH]; cbn [oget]; [discriminate|].
  destruct (Z.eqb_spec k' k); intros H.
  - injection H as ->. subst. left; reflexivity.
  - right; auto.
Qed.

Lemma in_oget k t v : ascending t -> In (k, v) t -> oget k t = Some v.
Proof.
  induction t as [|[k' v'] r IH]; cbn [oget]; [contradiction|].
  intros [H1 H2] [E|E].
  - injection E as -> ->. rewrite Z.eqb_refl. reflexivity.
  - pose proof (H1 _ _ E). destruct (Z.eqb_spec k' k); [lia|]. auto.
Qed.

Lemma oget_none k t : oget k t = None <-> (forall v, ~ In (k, v) t).
Proof.
  induction t as [|[k' v'] r IH]; cbn [oget].
  - split; [intros _ v []|reflexivity].
  - destruct (Z.eqb_spec k' k); split; intros H.
    + discriminate.
    + exfalso. apply (H v'). left. congruence.
    + intros v [E|E]; [congruence|]. exact (proj1 IH H v E).
    + apply (proj2 IH). intros v Hv. apply (H v). right; assumption.
Qed.

Lemma ohas_true k t : ohas k t = true <-> exists v, oget k t = Some v.
Proof.
  unfold ohas. destruct (oget k t); split; intros H; eauto; try discriminate.
  destruct H; discriminate.
Qed.

Lemma ohas_false k t : ohas k t = false <-> oget k t = None.
Proof. unfold ohas. destruct (oget k t); split; congruence. Qed.

Lemma in_oput k v t k' v' :
  In (k', v') (oput k v t) -> (k' = k /\ v' = v) \/ In (k', v') t.
Proof.
  induction t as [|[a b] r IH]; cbn [oput]; intros H.
  - destruct H as [E|[]]. left. split; congruence.
  - destruct (k <? a).
    + destruct H as [E|E]; [left; split; congruence|right; exact E].
    + destruct (a =? k).
      * destruct H as [E|E]; [left; split; congruence|right; right; exact E].
      * destruct H as [E|E]; [right; left; exact E|].
        destruct (IH E) as [?|?]; [left; assumption|right; right; assumption].
Qed.

Lemma oput_in k v t : In (k, v) (oput k v t).
Proof.
  induction t as [|[a b] r IH]; cbn [oput]; [left; reflexivity|].
  destruct (k <? a); [left; reflexivity|].
  destruct (a =? k); [left; reflexivity|right; exact IH].
Qed.

Lemma in_oput_old k v t k' v' :
  k' <> k -> In (k', v') t -> In (k', v') (oput k v t).
Proof.
  intros Hk. induction t as [|[a b] r IH]; cbn [oput]; [contradiction|].
  intros [E|E].
  - injection E as -> ->.
    destruct (k <? k'); [right; left; reflexivity|].
    destruct (Z.eqb_spec k' k); [congruence|left; reflexivity].
  - destruct (k <? a); [right; right; exact E|].
    destruct (a =? k); right; auto.
Qed.

Lemma ascending_oput k v t : ascending t -> ascending (oput k v t).
Proof.
  induction t as [|[a b] r IH]; cbn [oput]; intros H.
  - split; [intros ? ? []|exact I].
  - destruct H as [H1 H2].
    destruct (Z.ltb_spec k a).
    + split; [|split; assumption]. intros k' v' [E|E].
      * congruence.
      * specialize (H1 _ _ E). lia.
    + destruct (Z.eqb_spec a k).
      * subst. split; assumption.
      * split; [|auto]. intros k' v' E. apply in_oput in E as [[-> ->]|E]; [lia|eauto].
Qed.

Lemma ascending_oinsert cap k v t : ascending t -> ascending (oinsert cap k v t).
Proof.
  unfold oinsert. intros H. destruct (ohas k t); [apply ascending_oput; assumption|].
  destruct (_ <? cap); [apply ascending_oput|]; assumption.
Qed.

Lemma oget_oput k v t k' : oget k' (oput k v t) = if k' =? k then Some v else oget k' t.
Proof.
  induction t as [|[a b] r IH]; cbn [oput oget].
  - destruct (Z.eqb_spec k k'), (Z.eqb_spec k' k); try lia; reflexivity.
  - destruct (Z.ltb_spec k a); cbn [oget].
    + destruct (Z.eqb_spec k k'), (Z.eqb_spec k' k); try lia; reflexivity.
    + destruct (Z.eqb_spec a k); cbn [oget].
      * subst. destruct (Z.eqb_spec k k'), (Z.eqb_spec k' k); try lia; reflexivity.
      * rewrite IH. destruct (Z.eqb_spec a k'), (Z.eqb_spec k' k); try lia; reflexivity.
Qed.

Lemma length_oput_new k v t : oget k t = None -> length (oput k v t) = S (length t).
Proof.
  induction t as [|[a b] r IH]; cbn [oput oget length]; intros H; [reflexivity|].
  destruct (Z.eqb_spec a k); [discriminate|].
  destruct (k <? a); cbn [length]; [reflexivity|].
  rewrite IH by assumption. reflexivity.
Qed.

Lemma length_oput_old k v t : ascending t -> oget k t <> None -> length (oput k v t) = length t.
Proof.
  induction t as [|[a b] r IH]; cbn [oput oget length]; intros Ha H; [congruence|].
  destruct Ha as [H1 H2].
  destruct (Z.eqb_spec a k).
  - subst. destruct (Z.ltb_spec k k); [lia|]. reflexivity.
  - destruct (Z.ltb_spec k a); cbn [length].
    + destruct (oget k r) eqn:E; [|congruence]. apply oget_in in E. specialize (H1 _ _ E). lia.
    + rewrite IH; auto.
Qed.

(** sums *)
Lemma at_date_oget d t : at_date d t = match oget d t with Some v => v | None => 0 end.
Proof.
  induction t as [|[k v] r IH]; cbn [at_date oget]; [reflexivity|].
  destruct (k =? d); auto.
Qed.

Lemma due_nil_below d t : dates (fun k => d < k) t -> due d t = 0.
Proof.
  induction t as [|[k v] r IH]; cbn [due]; intros H; [reflexivity|].
  rewrite IH by (intros ? ? ?; eapply H; right; eauto).
  destruct (Z.leb_spec k d); [|reflexivity].
  pose proof (H k v (or_introl eq_refl)). cbv beta in *. lia.
Qed.

Lemma due_all d t : dates (fun k => k <= d) t -> due d t = total t.
Proof.
  induction t as [|[k v] r IH]; cbn [due total]; intros H; [reflexivity|].
  rewrite IH by (intros ? ? ?; eapply H; right; eauto).
  destruct (Z.leb_spec k d); [reflexivity|].
  pose proof (H k v (or_introl eq_refl)). cbv beta in *. lia.
Qed.

Lemma due_bounds d t : values (fun v => 0 <= v) t -> 0 <= due d t <= total t.
Proof.
  induction t as [|[k v] r IH]; cbn [due total]; intros H; [lia|].
  pose proof (H k v (or_introl eq_refl)). cbv beta in *.
  specialize (IH ltac:(intros ? ? ?; eapply H; right; eauto)).
  destruct (k <=? d); lia.
Qed.

Lemma due_mono d d' t : values (fun v => 0 <= v) t -> d <= d' -> due d t <= due d' t.
Proof.
  induction t as [|[k v] r IH]; cbn [due]; intros H Hd; [lia|].
  pose proof (H k v (or_introl eq_refl)). cbv beta in *.
  specialize (IH ltac:(intros ? ? ?; eapply H; right; eauto) Hd).
  destruct (Z.leb_spec k d), (Z.leb_spec k d'); lia.
Qed.

Lemma total_after d t : total (after d t) = total t - due d t.
Proof.
  induction t as [|[k v] r IH]; [reflexivity|]. unfold after in *. cbn [filter fst].
  destruct (Z.ltb_spec d k); cbn [total due]; destruct (Z.leb_spec k d); try lia.
Qed.

Lemma due_after b d t : b <= d -> due d (after b t) = due d t - due b t.
Proof.
  intros Hb. induction t as [|[k v] r IH]; [reflexivity|]. unfold after in *. cbn [filter fst].
  destruct (Z.ltb_spec b k); cbn [due];
    destruct (Z.leb_spec k d), (Z.leb_spec k b); lia.
Qed.

Lemma in_after b t k v : In (k, v) (after b t) <-> In (k, v) t /\ b < k.
Proof.
  unfold after. rewrite filter_In. cbn [fst]. rewrite Z.ltb_lt. tauto.
Qed.

Lemma ascending_after b t : ascending t -> ascending (after b t).
Proof.
  induction t as [|[k v] r IH]; [auto|]. intros [H1 H2]. unfold after in *. cbn [filter fst].
  destruct (b <? k); [|auto]. split; [|auto].
  intros k' v' Hin. apply filter_In in Hin. destruct Hin. eauto.
Qed.

Lemma after_all b t : dates (fun k => b < k) t -> after b t = t.
Proof.
  induction t as [|[k v] r IH]; intros H; [reflexivity|]. unfold after in *. cbn [filter fst].
  pose proof (H k v (or_introl eq_refl)). cbv beta in *.
  rewrite (proj2 (Z.ltb_lt b k)) by assumption. f_equal. apply IH.
  intros ? ? ?; eapply H; right; eauto.
Qed.

Lemma after_after a b t : a <= b -> after b (after a t) = after b t.
Proof.
  intros Hab. induction t as [|[k v] r IH]; [reflexivity|]. unfold after in *. cbn [filter fst].
  destruct (Z.ltb_spec a k); cbn [filter fst]; destruct (Z.ltb_spec b k); try lia; try congruence.
Qed.

Lemma length_after b t : (length (after b t) <= length t)%nat.
Proof.
  induction t as [|[k v] r IH]; [apply le_n|]. unfold after in *. cbn [filter fst length].
  destruct (b <? k); cbn [length]; lia.
Qed.

(** removal of the processed dates *)
Lemma oremove_notin k t : (forall v, ~ In (k, v) t) -> oremove k t = t.
Proof.
  induction t as [|[a b] r IH]; cbn [oremove]; intros H; [reflexivity|].
  destruct (Z.eqb_spec a k).
  - exfalso. apply (H b). left. congruence.
  - f_equal. apply IH. intros v Hv. apply (H v). right; assumption.
Qed.

(** the dates processed by the loops: the longest prefix dated on or before [b] *)
Fixpoint processed (b : Z) (t : tmap) : list Z :=
  match t with
  | [] => []
  | (k, _) :: r => if b <? k then [] else k :: processed b r
  end.

Lemma remove_processed b t : ascending t -> remove_dates (processed b t) t = after b t.
Proof.
  induction t as [|[k v] r IH]; [reflexivity|].
  intros [H1 H2]. cbn [processed]. unfold after. cbn [filter fst].
  destruct (Z.ltb_spec b k).
  - cbn [remove_dates fold_left]. f_equal. symmetry. apply after_all.
    intros k' v' Hin. specialize (H1 _ _ Hin). lia.
  - unfold remove_dates. cbn [fold_left oremove]. rewrite Z.eqb_refl. apply IH. assumption.
Qed.

Lemma due_later_prefix b k v r :
  ascending ((k, v) :: r) -> b < k -> due b ((k, v) :: r) = 0.
Proof.
  intros [H1 _] Hb. apply due_nil_below. intros k' v' [E|E]; [congruence|].
  specialize (H1 _ _ E). lia.
Qed.

Lemma pool_consume_loop_ok b t s s' ds :
  ascending t -> pool_consume_loop b t s = Ok (s', ds) ->
  s' = s - due b t /\ ds = processed b t.
Proof.
  revert s s' ds. induction t as [|[k v] r IH]; cbn [pool_consume_loop]; intros s s' ds Ha H.
  - inv. cbn. split; [lia|reflexivity].
  - destruct (Z.ltb_spec b k).
    + inv. rewrite due_later_prefix by assumption. cbn [processed].
      rewrite (proj2 (Z.ltb_lt b k)) by assumption. split; [lia|reflexivity].
    + inv. apply IH in E0 as [-> ->]; [|apply Ha].
      cbn [due processed]. rewrite (proj2 (Z.leb_le k b)) by assumption.
      rewrite (proj2 (Z.ltb_ge b k)) by assumption. split; [lia|reflexivity].
Qed.

Lemma pool_consume_loop_succeeds b t s :
  ascending t -> values (fun v => 0 <= v) t -> due b t <= s ->
  pool_consume_loop b t s = Ok (s - due b t, processed b t).
Proof.
  revert s. induction t as [|[k v] r IH]; cbn [pool_consume_loop]; intros s Ha Hv Hs.
  - cbn. f_equal. f_equal. lia.
  - destruct (Z.ltb_spec b k).
    + rewrite due_later_prefix by assumption. cbn [processed].
      rewrite (proj2 (Z.ltb_lt b k)) by assumption. f_equal. f_equal. lia.
    + cbn [due] in *. rewrite (proj2 (Z.leb_le k b)) in * by assumption.
      assert (Hvr : values (fun v => 0 <= v) r) by (intros ? ? ?; eapply Hv; right; eauto).
      pose proof (due_bounds b r Hvr).
      rewrite (proj2 (safe_sub_ok s v (s - v))) by lia. cbn [rbind].
      rewrite IH; [|apply Ha|assumption|lia]. cbn [rbind processed].
      rewrite (proj2 (Z.ltb_ge b k)) by assumption. f_equal. f_equal. lia.
Qed.

Lemma pool_consume_ok b s t s' t' :
  ascending t -> pool_consume b s t = Ok (s', t') ->
  s' = s - due b t /\ t' = after b t.
Proof.
  unfold pool_consume. intros Ha H. inv.
  apply pool_consume_loop_ok in E as [-> ->]; [|assumption].
  split; [reflexivity|]. apply remove_processed. assumption.
Qed.

Lemma pool_consume_succeeds b s t :
  ascending t -> values (fun v => 0 <= v) t -> due b t <= s ->
  pool_consume b s t = Ok (s - due b t, after b t).
Proof.
  intros. unfold pool_consume. rewrite pool_consume_loop_succeeds by assumption.
  cbn [rbind]. rewrite remove_processed by assumption. reflexivity.
Qed.

(** history lookup *)
Lemma find_lt_visible d t prev :
  ascending t ->
  (match find_lt d t with Some v => v | None => prev end) = visible_from prev d t.
Proof.
  revert prev. induction t as [|[k i] r IH]; cbn [find_lt visible_from]; intros prev Ha; [reflexivity|].
  destruct (k <? d); [|reflexivity].
  rewrite <- IH by apply Ha. destruct (find_lt d r); reflexivity.
Qed.

Lemma due_oput_new d k v t :
  oget k t = None -> due d (oput k v t) = due d t + (if k <=? d then v else 0).
Proof.
  induction t as [|[a b] r IH]; cbn [oput oget due]; intros H; [lia|].
  destruct (Z.eqb_spec a k); [discriminate|].
  destruct (k <? a); cbn [due]; [lia|]. rewrite IH by assumption. lia.
Qed.

Lemma due_oput_old d k v t v0 :
  ascending t -> oget k t = Some v0 ->
  due d (oput k v t) = due d t + (if k <=? d then v - v0 else 0).
Proof.
  induction t as [|[a b] r IH]; cbn [oput oget due]; intros Ha H; [discriminate|].
  destruct Ha as [H1 H2].
  destruct (Z.eqb_spec a k).
  - injection H as ->. subst. destruct (Z.ltb_spec k k); [lia|]. cbn [due].
    destruct (k <=? d); lia.
  - destruct (Z.ltb_spec k a); cbn [due].
    + apply oget_in in H. specialize (H1 _ _ H). lia.
    + rewrite IH by assumption. lia.
Qed.

Lemma total_oput_new k v t : oget k t = None -> total (oput k v t) = total t + v.
Proof.
  induction t as [|[a b] r IH]; cbn [oput oget total]; intros H; [lia|].
  destruct (Z.eqb_spec a k); [discriminate|].
  destruct (k <? a); cbn [total]; [lia|]. rewrite IH by assumption. lia.
Qed.

Lemma total_oput_old k v t v0 :
  ascending t -> oget k t = Some v0 -> total (oput k v t) = total t + v - v0.
Proof.
  induction t as [|[a b] r IH]; cbn [oput oget total]; intros Ha H; [discriminate|].
  destruct Ha as [H1 H2].
  destruct (Z.eqb_spec a k).
  - injection H as ->. subst. destruct (Z.ltb_spec k k); [lia|]. cbn [total]. lia.
  - destruct (Z.ltb_spec k a); cbn [total].
    + apply oget_in in H. specialize (H1 _ _ H). lia.
    + rewrite IH by assumption. lia.
Qed.

Lemma values_after (P : Z -> Prop) b t : values P t -> values P (after b t).
Proof. intros H k v Hin. apply in_after in Hin. eapply H. apply Hin. Qed.

Lemma dates_after (P : Z -> Prop) b t : dates P t -> dates P (after b t).
Proof. intros H k v Hin. apply in_after in Hin. eapply H. apply Hin. Qed.

Lemma oget_after b t k : ascending t -> b < k -> oget k (after b t) = oget k t.
Proof.
  intros Ha Hb. destruct (oget k t) eqn:E.
  - apply in_oget; [apply ascending_after; assumption|]. apply in_after.
    split; [apply oget_in; assumption|assumption].
  - apply oget_none. intros v Hin. apply in_after in Hin. destruct Hin as [Hin _].
    apply in_oget in Hin; [congruence|assumption].
Qed.

Lemma at_date_le_total k t v : values (fun v => 0 <= v) t -> oget k t = Some v -> 0 <= v <= total t.
Proof.
  induction t as [|[a b] r IH]; cbn [oget total]; intros Hv H; [discriminate|].
  pose proof (Hv a b (or_introl eq_refl)). cbv beta in *.
  assert (Hvr : values (fun v => 0 <= v) r) by (intros ? ? ?; eapply Hv; right; eauto).
  pose proof (due_bounds 0 r Hvr).
  destruct (a =? k); [injection H as ->; lia|]. specialize (IH Hvr H). lia.
Qed.
