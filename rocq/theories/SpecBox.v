(** What a box position covers: boxes are named by paths of indices. *)
From Coq Require Import ZArith List.
From Verif Require Import Base BoxPosition.
Import ListNotations.
Local Open Scope Z_scope.

(** The boxes of a position: a box and everything in it, or a run of neighbours; a place in
    front of a box or behind it is taken for that box. *)
Definition covers (b : box_position) (path : list Z) : Prop :=
  match b with
  | BAt p | BBefore p | BAfter p => exists inner, path = p ++ inner
  | BSpanning index (x, y) => exists i inner, path = index ++ i :: inner /\ x <= i <= y
  end.

(** [p] comes before [q] in reading order, or contains it. *)
Inductive in_order : list Z -> list Z -> Prop :=
| io_prefix : forall p q, in_order p (p ++ q)
| io_before : forall c i j p q, i < j -> in_order (c ++ i :: p) (c ++ j :: q).
Definition start_path (b : box_position) : list Z := match b with BAt p | BBefore p | BAfter p => p | BSpanning p (x, _) => p ++ [x] end.
