(** The walk of Bst.v on binary search trees of any shape. *)
From Verif Require Import Base OMap Spec Bst.

(** binary trees, as specification *)
Inductive tree := Leaf | Br (l : tree) (k v : Z) (r : tree).

Fixpoint elements (t : tree) : list (Z * Z) :=
  match t with Leaf => [] | Br l k v r => elements l ++ (k, v) :: elements r end.
Fixpoint height (t : tree) : nat :=
  match t with Leaf => O | Br l _ _ r => S (Nat.max (height l) (height r)) end.

(** the arena holds tree [t] at address [id] *)
Fixpoint holds (a : arena) (id : Z) (t : tree) : Prop :=
  match t with
  | Leaf => id = SENTINEL
  | Br l k v r =>
      id <> SENTINEL /\ n_key (a id) = k /\ n_value (a id) = v /\
      holds a (n_left (a id)) l /\ holds a (n_right (a id)) r
  end.

(** [o] is the value of the greatest key strictly below [key] *)
Definition latest_before (key : Z) (t : list (Z * Z)) (o : option Z) : Prop :=
  match o with
  | None => forall k v, In (k, v) t -> key <= k
  | Some x => exists k, In (k, x) t /\ k < key /\ forall k' v', In (k', v') t -> k' < key -> k' <= k
  end.

Lemma ascending_split a k v b :
  ascending (a ++ (k, v) :: b) ->
  ascending a /\ ascending b /\ (forall k' v', In (k', v') a -> k' < k) /\
  (forall k' v', In (k', v') b -> k < k').
Proof.
  induction a as [|[k0 v0] a IH]; cbn; intros H.
  - destruct H. repeat split; auto. intros ? ? [].
  - destruct H as [H1 H2]. specialize (IH H2) as (A & B & C & D).
    repeat split; auto.
    + intros k' v' Hin. eapply H1. apply in_app_iff. left. eassumption.
    + intros k' v' [E|Hin].
      * injection E as <- <-. eapply H1. apply in_app_iff. right. left. reflexivity.
      * eauto.
Qed.

Lemma walk_spec a key : forall fuel id t res,
  holds a id t -> ascending (elements t) -> (height t <= fuel)%nat ->
  (walk fuel a id key res = res /\ (forall k v, In (k, v) (elements t) -> key <= k)) \/
  (exists x, walk fuel a id key res = Some x /\ latest_before key (elements t) (Some x)).
Proof.
  intros fuel id t. revert fuel id. induction t as [|l IHl k v r IHr]; intros fuel id res Hh Ha Hf.
  - cbn in Hh. subst. left. split; [destruct fuel; reflexivity|]. intros ? ? [].
  - cbn in Hh. destruct Hh as (Hid & Hk & Hv & Hl & Hr). cbn in Ha, Hf.
    destruct fuel as [|f]; [lia|]. cbn [walk].
    destruct (Z.eqb_spec id SENTINEL); [contradiction|].
    apply ascending_split in Ha as (Al & Ar & Lk & Rk). cbn [elements].
    rewrite Hk, Hv. destruct (Z.ltb_spec k key).
    + right. destruct (IHr f _ (Some v) Hr Ar ltac:(lia)) as [[E H1]|(x & E & k' & H1 & H2 & H3)].
      * exists v. split; [assumption|]. exists k. split; [apply in_app_iff; right; left; reflexivity|].
        split; [assumption|]. intros k' v' Hin Hlt. apply in_app_iff in Hin as [Hin|[Hin|Hin]].
        -- apply Lk in Hin. lia.
        -- injection Hin as -> ->. lia.
        -- apply H1 in Hin. lia.
      * exists x. split; [assumption|]. exists k'. split; [apply in_app_iff; right; right; assumption|].
        split; [assumption|]. intros k2 v2 Hin Hlt. apply in_app_iff in Hin as [Hin|[Hin|Hin]].
        -- apply Lk in Hin. apply Rk in H1. lia.
        -- injection Hin as -> ->. apply Rk in H1. lia.
        -- eauto.
    + destruct (IHl f _ res Hl Al ltac:(lia)) as [[E H1]|(x & E & k' & H1 & H2 & H3)].
      * left. split; [assumption|]. intros k' v' Hin. apply in_app_iff in Hin as [Hin|[Hin|Hin]].
        -- eauto.
        -- injection Hin as -> ->. lia.
        -- apply Rk in Hin. lia.
      * right. exists x. split; [assumption|]. exists k'. split; [apply in_app_iff; left; assumption|].
        split; [assumption|]. intros k2 v2 Hin Hlt. apply in_app_iff in Hin as [Hin|[Hin|Hin]].
        -- eauto.
        -- injection Hin as -> ->. lia.
        -- apply Rk in Hin. lia.
Qed.

Lemma find_max_ok a id t key fuel :
  holds a id t -> ascending (elements t) -> (height t <= fuel)%nat ->
  latest_before key (elements t) (find_max_value_limited_by_key fuel a id key).
Proof.
  intros Hh Ha Hf. unfold find_max_value_limited_by_key.
  destruct (walk_spec a key fuel id t None Hh Ha Hf) as [[E H]|(x & E & H)]; rewrite E; exact H.
Qed.

Lemma find_lt_ok key t : ascending t -> latest_before key t (find_lt key t).
Proof.
  induction t as [|[k v] r IH]; intros H; cbn [find_lt].
  - intros ? ? [].
  - destruct H as [H1 H2]. specialize (IH H2). destruct (Z.ltb_spec k key).
    + destruct (find_lt key r) as [x|].
      * destruct IH as (k' & A & B & C). exists k'. split; [right; assumption|]. split; [assumption|].
        intros k2 v2 [E|Hin] Hlt; [injection E as <- <-; apply H1 in A; lia|eauto].
      * exists k. split; [left; reflexivity|]. split; [assumption|].
        intros k2 v2 [E|Hin] Hlt; [injection E as <- <-; lia|]. apply IH in Hin. lia.
    + intros k2 v2 [E|Hin]; [injection E as <- <-; lia|]. apply H1 in Hin. lia.
Qed.

Lemma ascending_inj t k v v' : ascending t -> In (k, v) t -> In (k, v') t -> v = v'.
Proof.
  induction t as [|[k0 v0] r IH]; intros H; [intros []|]. destruct H as [H1 H2].
  intros [E|A] [E'|B]; try congruence.
  - injection E as <- <-. apply H1 in B. lia.
  - injection E' as <- <-. apply H1 in A. lia.
  - auto.
Qed.

Lemma latest_unique key t o o' :
  ascending t -> latest_before key t o -> latest_before key t o' -> o = o'.
Proof.
  intros Ha H H'. destruct o as [x|], o' as [y|]; cbn in *; auto.
  - destruct H as (k & A & B & C), H' as (k' & A' & B' & C').
    assert (k = k') by (specialize (C _ _ A' B'); specialize (C' _ _ A B); lia). subst.
    f_equal. eapply ascending_inj; eassumption.
  - destruct H as (k & A & B & C). apply H' in A. lia.
  - destruct H' as (k & A & B & C). apply H in A. lia.
Qed.

(** the walk agrees with the model's lookup *)
Lemma walk_is_find_lt a id t key fuel :
  holds a id t -> ascending (elements t) -> (height t <= fuel)%nat ->
  find_max_value_limited_by_key fuel a id key = find_lt key (elements t).
Proof.
  intros. eapply latest_unique; [eassumption|apply find_max_ok; assumption|apply find_lt_ok; assumption].
Qed.

(** ** a concrete tree: keys 1..5, root 2, right-leaning *)
Definition arena5 : arena := fun id =>
  if id =? 1 then Node 2 3 2 20 else if id =? 2 then Node 0 0 1 10
  else if id =? 3 then Node 4 5 4 40 else if id =? 4 then Node 0 0 3 30
  else if id =? 5 then Node 0 0 5 50 else Node 0 0 0 0.
Definition tree5 : tree :=
  Br (Br Leaf 1 10 Leaf) 2 20 (Br (Br Leaf 3 30 Leaf) 4 40 (Br Leaf 5 50 Leaf)).
