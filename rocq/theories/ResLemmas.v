(** Inversion lemmas and tactics for the result monad and checked arithmetic. *)
From Verif Require Import Base.

Lemma rbind_ok {A B} (x : res A) (f : A -> res B) b :
  rbind x f = Ok b -> exists a, x = Ok a /\ f a = Ok b.
Proof. destruct x; simpl; [eauto|discriminate]. Qed.

Lemma ensure_ok b e u : ensure b e = Ok u -> b = true.
Proof. destruct b; [reflexivity|discriminate]. Qed.

Lemma safe_sub_ok a b c : safe_sub a b = Ok c <-> b <= a /\ c = a - b.
Proof.
  unfold safe_sub. destruct (Z.leb_spec b a); split; intros H'.
  - injection H'; lia.
  - f_equal; lia.
  - discriminate.
  - lia.
Qed.

Lemma safe_add64_ok a b c : safe_add64 a b = Ok c <-> a + b < U64 /\ c = a + b.
Proof.
  unfold safe_add64. destruct (Z.ltb_spec (a + b) U64); split; intros H'.
  - injection H'; lia.
  - f_equal; lia.
  - discriminate.
  - lia.
Qed.

Lemma safe_add128_ok a b c : safe_add128 a b = Ok c <-> a + b < U128 /\ c = a + b.
Proof.
  unfold safe_add128. destruct (Z.ltb_spec (a + b) U128); split; intros H'.
  - injection H'; lia.
  - f_equal; lia.
  - discriminate.
  - lia.
Qed.

Lemma safe_mul64_ok a b c : safe_mul64 a b = Ok c <-> a * b < U64 /\ c = a * b.
Proof.
  unfold safe_mul64. destruct (Z.ltb_spec (a * b) U64); split; intros H'.
  - injection H'; lia.
  - destruct H' as [_ ->]. reflexivity.
  - discriminate.
  - lia.
Qed.

Lemma safe_mul128_ok a b c : safe_mul128 a b = Ok c <-> a * b < U128 /\ c = a * b.
Proof.
  unfold safe_mul128. destruct (Z.ltb_spec (a * b) U128); split; intros H'.
  - injection H'; lia.
  - destruct H' as [_ ->]. reflexivity.
  - discriminate.
  - lia.
Qed.

Lemma safe_div_ok a b c : safe_div a b = Ok c <-> b <> 0 /\ c = a / b.
Proof.
  unfold safe_div. destruct (Z.eqb_spec b 0); split; intros H'.
  - discriminate.
  - lia.
  - injection H'; auto.
  - destruct H' as [_ ->]. reflexivity.
Qed.

Lemma try_u64_ok a c : try_u64 a = Ok c <-> a < U64 /\ c = a.
Proof.
  unfold try_u64. destruct (Z.ltb_spec a U64); split; intros H'.
  - injection H'; auto.
  - f_equal; lia.
  - discriminate.
  - lia.
Qed.

Lemma plain_add64_ok a b c : plain_add64 a b = Ok c <-> a + b < U64 /\ c = a + b.
Proof.
  unfold plain_add64. destruct (Z.ltb_spec (a + b) U64); split; intros H'.
  - injection H'; lia.
  - f_equal; lia.
  - discriminate.
  - lia.
Qed.

Lemma bod_le ts : bod ts <= ts \/ ts < 0.
Proof. unfold bod, DAY. pose proof (Z.mod_pos_bound ts 86400). lia. Qed.

Lemma bod_bounds ts : ts - DAY < bod ts <= ts.
Proof. unfold bod, DAY. pose proof (Z.mod_pos_bound ts 86400). lia. Qed.

Lemma bod_aligned ts : bod ts mod DAY = 0.
Proof.
  unfold bod. rewrite Zminus_mod, Zmod_mod, Z.sub_diag. reflexivity.
Qed.

Lemma bod_nonneg ts : 0 <= ts -> 0 <= bod ts.
Proof.
  intros. unfold bod, DAY. pose proof (Z.mod_le ts 86400). lia.
Qed.

Lemma bod_mono a b : a <= b -> bod a <= bod b.
Proof.
  intros. unfold bod, DAY.
  pose proof (Z.div_mod a 86400). pose proof (Z.div_mod b 86400).
  pose proof (Z.div_le_mono a b 86400). lia.
Qed.

Lemma bod_idem a : a mod DAY = 0 -> bod a = a.
Proof. unfold bod. lia. Qed.

(** an aligned date beyond the start of today is beyond now *)
Lemma aligned_after ts d : d mod DAY = 0 -> bod ts < d -> bod ts + DAY <= d.
Proof.
  unfold bod, DAY. intros.
  pose proof (Z.div_mod ts 86400). pose proof (Z.div_mod d 86400).
  assert (ts / 86400 < d / 86400) by lia. lia.
Qed.

(** decompose hypotheses [rbind .. = Ok ..] *)
Ltac inv_bind H :=
  let a := fresh "a" in let E := fresh "E" in
  apply rbind_ok in H; destruct H as (a & E & H); cbv beta in H.

Ltac inv1 :=
  match goal with
  | H : Ok _ = Ok _ |- _ => injection H; clear H; intros; subst
  | H : Err _ = Ok _ |- _ => discriminate H
  | H : Ok _ = Err _ |- _ => discriminate H
  | H : rbind _ _ = Ok _ |- _ => inv_bind H
  | H : ensure _ _ = Ok _ |- _ => apply ensure_ok in H
  | p : (_ * _)%type |- _ => destruct p
  | u : unit |- _ => destruct u
  | H : safe_sub _ _ = Ok _ |- _ => apply safe_sub_ok in H; destruct H as [H ->]
  | H : safe_add64 _ _ = Ok _ |- _ => apply safe_add64_ok in H; destruct H as [H ->]
  | H : safe_add128 _ _ = Ok _ |- _ => apply safe_add128_ok in H; destruct H as [H ->]
  | H : safe_mul64 _ _ = Ok _ |- _ => apply safe_mul64_ok in H; destruct H as [H ->]
  | H : safe_mul128 _ _ = Ok _ |- _ => apply safe_mul128_ok in H; destruct H as [H ->]
  | H : safe_div _ _ = Ok _ |- _ => apply safe_div_ok in H; destruct H as [H ->]
  | H : try_u64 _ = Ok _ |- _ => apply try_u64_ok in H; destruct H as [H ->]
  | H : plain_add64 _ _ = Ok _ |- _ => apply plain_add64_ok in H; destruct H as [H ->]
  | H : negb _ = true |- _ => apply negb_true_iff in H
  | H : andb _ _ = true |- _ => apply andb_true_iff in H; destruct H
  | H : (_ =? _) = true |- _ => apply Z.eqb_eq in H
  | H : (_ =? _) = false |- _ => apply Z.eqb_neq in H
  | H : (_ <? _) = true |- _ => apply Z.ltb_lt in H
  | H : (_ <? _) = false |- _ => apply Z.ltb_ge in H
  | H : (_ <=? _) = true |- _ => apply Z.leb_le in H
  | H : (_ <=? _) = false |- _ => apply Z.leb_gt in H
  end.
Ltac inv := repeat inv1.
