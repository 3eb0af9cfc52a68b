(** The ordered map used by the program: sokoban's [RedBlackTree<u64, V, CAP>]
    (dependency; used through state/mod.rs 19-21).  It is modelled as an
    association list sorted by key.  Tree shape is irrelevant to the
    operations used, except for [find_max_value_limited_by_key], which walks the
    tree itself: see Bst.v, where the walk is proved equal to [find_lt]. *)
From Verif Require Import Base.

(** key -> value, ascending keys *)
Definition tmap := list (Z * Z).

(** [RedBlackTree::get] (dependency): reward_pool.rs 223, 235-238 *)
Fixpoint oget (k : Z) (t : tmap) : option Z :=
  match t with
  | [] => None
  | (k', v) :: r => if k' =? k then Some v else oget k r
  end.

(** [RedBlackTree::contains] (dependency): reward_pool.rs 144 *)
Definition ohas (k : Z) (t : tmap) : bool :=
  match oget k t with Some _ => true | None => false end.

(** insertion in key order, overwriting an existing key *)
Fixpoint oput (k v : Z) (t : tmap) : tmap :=
  match t with
  | [] => [(k, v)]
  | (k', v') :: r =>
      if k <? k' then (k, v) :: t
      else if k' =? k then (k, v) :: r
      else (k', v') :: oput k v r
  end.

(** [RedBlackTree::insert] (dependency): when the key is absent and the tree is
    full it returns None and changes nothing; the program ignores the
    result (reward_pool.rs 127, 230-233, 246-248). *)
Definition oinsert (cap : Z) (k v : Z) (t : tmap) : tmap :=
  if ohas k t then oput k v t
  else if Z.of_nat (length t) <? cap then oput k v t
  else t.

(** [RedBlackTree::remove] (dependency): mining.rs 201, reward_pool.rs 108 *)
Fixpoint oremove (k : Z) (t : tmap) : tmap :=
  match t with
  | [] => []
  | (k', v) :: r => if k' =? k then r else (k', v) :: oremove k r
  end.

(** [find_max_value_limited_by_key], state/mod.rs 56-81, on the sorted list:
    the value of the greatest key strictly below [key].
    Simplified: the tree walk is modelled and proved equivalent in Bst.v. *)
Fixpoint find_lt (key : Z) (t : tmap) : option Z :=
  match t with
  | [] => None
  | (k, v) :: r =>
      if k <? key then
        match find_lt key r with Some v' => Some v' | None => Some v end
      else None
  end.
