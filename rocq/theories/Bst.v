(** find_max_value_limited_by_key as the walk it is, over the node arena of the tree. *)
From Verif Require Import Base OMap.

(** a node of sokoban's RedBlackTree (dependency): the registers read by get_left,
    get_right and get_node *)
Record node := Node { n_left : Z; n_right : Z; n_key : Z; n_value : Z }.
(** the arena: node by address *)
Definition arena := Z -> node.
(** sokoban::SENTINEL (dependency), used at state/mod.rs 67 *)
Definition SENTINEL : Z := 0.

(** the loop of state/mod.rs 67-78; [fuel] bounds the number of iterations *)
Fixpoint walk (fuel : nat) (a : arena) (current : Z) (key : Z) (result : option Z) : option Z :=
  match fuel with
  | O => result
  | S f =>
      if current =? SENTINEL then result
      else if n_key (a current) <? key
           then walk f a (n_right (a current)) key (Some (n_value (a current)))
           else walk f a (n_left (a current)) key result
  end.

(** state/mod.rs 56-81 *)
Definition find_max_value_limited_by_key (fuel : nat) (a : arena) (root key : Z) : option Z :=
  walk fuel a root key None.
