(** Running histories with the sum of what their events may lose (for the examples of C49). *)
From stdpp Require Import gmap.
From Verif Require Import Base OMap State Spec Core CoreRun Witness DustSpec.

Definition care_b (x : care) (ts : Z) (o : op) (c : core) : bool :=
  match x, o with
  | FreshOldDelegate, OWithdraw _ _ d => up_to_date_b ts c d
  | FreshOldDelegate, OExtend _ _ _ _ _ _ d => up_to_date_b ts c d
  | FreshOldDelegate, OChange _ d _ _ => up_to_date_b ts c d
  | NoMidnightExit, OWithdraw _ _ _ => no_midnight_b ts c
  | NoMidnightExit, OSlash _ _ _ _ => no_midnight_b ts c
  | HistoryRoom, ODistribute => Z.of_nat (length (wp_ci (c_pool c))) <? 1095
  | _, _ => true
  end.
Definition care_eqb (x y : care) : bool :=
  match x, y with
  | FreshOldDelegate, FreshOldDelegate | NoMidnightExit, NoMidnightExit | HistoryRoom, HistoryRoom => true
  | _, _ => false
  end.
Definition all_cares : list care := [FreshOldDelegate; NoMidnightExit; HistoryRoom].
Definition careful_b (ts : Z) (o : op) (c : core) : bool :=
  exact_b ts o c && forallb (fun x => care_b x ts o c) all_cares.
Definition careful_but_b (x : care) (ts : Z) (o : op) (c : core) : bool :=
  exact_b ts o c && forallb (fun y => care_eqb x y || care_b y ts o c) all_cares.

Lemma care_b_ok x ts o c : care_b x ts o c = true -> care_ok x ts o c.
Proof.
  assert (Hup : forall d, up_to_date_b ts c d = true -> up_to_date ts c d).
  { intros d H y m E Hy. subst d. cbn in H. unfold mining_is_b in H. rewrite Hy in H. lia. }
  assert (Hmid : no_midnight_b ts c = true -> no_midnight ts c).
  { unfold no_midnight_b, no_midnight. intros H i Hin. apply negb_true_iff in H.
    assert (existsb (fun kv : Z * Z => fst kv =? ts) (wp_ci (c_pool c)) = true); [|congruence].
    apply existsb_exists. exists (ts, i). split; [assumption|]. apply Z.eqb_refl. }
  destruct x, o; cbn [care_b care_ok]; auto. intros; lia.
Qed.

Lemma all_cares_in x : In x all_cares.
Proof. destruct x; cbn; auto. Qed.

Lemma careful_b_ok ts o c : careful_b ts o c = true -> careful ts o c.
Proof.
  unfold careful_b, careful. intros H. apply andb_true_iff in H as [H1 H2].
  split; [apply exact_b_ok; assumption|].
  intros x. rewrite forallb_forall in H2. apply care_b_ok, H2, all_cares_in.
Qed.

Lemma careful_but_b_ok x ts o c : careful_but_b x ts o c = true -> careful_but x ts o c.
Proof.
  unfold careful_but_b, careful_but. intros H. apply andb_true_iff in H as [H1 H2].
  split; [apply exact_b_ok; assumption|].
  intros y Hy. rewrite forallb_forall in H2. specialize (H2 y (all_cares_in y)).
  apply orb_true_iff in H2 as [H2|H2]; [destruct x, y; cbn in H2; congruence|].
  apply care_b_ok; assumption.
Qed.

Fixpoint run_dust (b : Z -> op -> core -> bool) (l : list (Z * op)) (c : core) (x : Z) : res (core * Z) :=
  match l with
  | [] => Ok (c, x)
  | (ts, o) :: r =>
      if (c_now c <=? ts) && is_u64b ts && op_wf_b o && b ts o c then
        let? c' := core_step ts o c in run_dust b r c' (x + dust ts o c)
      else Err EInvalidArgument
  end.

Lemma run_dust_leaky b (P : Z -> op -> core -> Prop) l c0 c x c' x' :
  (forall ts o c, b ts o c = true -> P ts o c) ->
  leaky P c0 c x -> run_dust b l c x = Ok (c', x') -> leaky P c0 c' x'.
Proof.
  intros Hb. revert c x. induction l as [|[ts o] r IH]; cbn [run_dust]; intros c x H0 H.
  - injection H as <- <-. assumption.
  - destruct (_ && _) eqn:E in H; [|discriminate].
    apply andb_true_iff in E as [E Hp]. apply andb_true_iff in E as [E Hwf].
    apply andb_true_iff in E as [Ht Hts].
    destruct (core_step ts o c) as [c1|] eqn:Hs; cbn [rbind] in H; [|discriminate].
    eapply IH; [|exact H]. apply (l_step _ _ c); auto.
    + lia.
    + apply is_u64b_ok; assumption.
    + apply op_wf_b_ok; assumption.
Qed.
