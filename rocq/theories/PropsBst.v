(** C35: the history lookup. *)
From Verif Require Import Base OMap Spec Bst BstLemmas.

Theorem C35_lookup a id t key fuel :
  holds a id t -> ascending (elements t) -> (height t <= fuel)%nat ->
  latest_before key (elements t) (find_max_value_limited_by_key fuel a id key).
Proof. exact (find_max_ok a id t key fuel). Qed.

(** the answer is unique, so the lookup does not depend on the shape *)
Theorem C35_unique key t o o' :
  ascending t -> latest_before key t o -> latest_before key t o' -> o = o'.
Proof. exact (latest_unique key t o o'). Qed.

(** and it is the lookup used by the rest of the model *)
Theorem C35_model a id t key fuel :
  holds a id t -> ascending (elements t) -> (height t <= fuel)%nat ->
  find_max_value_limited_by_key fuel a id key = find_lt key (elements t).
Proof. exact (walk_is_find_lt a id t key fuel). Qed.

Example C35_case :
  holds arena5 1 tree5 /\ ascending (elements tree5) /\
  map (find_max_value_limited_by_key 3 arena5 1) [3; 6; 1; 0] = [Some 20; Some 50; None; None].
Proof.
  split; [cbn; repeat split; discriminate|]. split; [|reflexivity].
  cbn. repeat split; intros k v H; repeat (destruct H as [H|H]; [injection H as <- <-; reflexivity|]); destruct H.
Qed.

Print Assumptions C35_lookup.
Print Assumptions C35_unique.
Print Assumptions C35_model.
