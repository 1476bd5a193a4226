(** Specifications for the utility properties (C26, C27, C37, C39), written without
    reference to the model's helpers. *)
From Coq Require Import ZArith List Bool.
From Verif Require Import Base Source.
Import ListNotations.
Local Open Scope Z_scope.

(** ** Grouping by adjacent pairs *)

(** [x] is immediately followed by [y] in [l]. *)
Definition adjacent {T} (x y : T) (l : list T) : Prop := exists p q, l = p ++ x :: y :: q.

(** [gs] cuts [l] into non-empty groups, with [P] holding between neighbours of one group
    and failing across every cut. *)
Definition grouped {T} (P : T -> T -> bool) (l : list T) (gs : list (list T)) : Prop :=
  concat gs = l /\
  (forall g, In g gs -> g <> []) /\
  (forall g x y, In g gs -> adjacent x y g -> P x y = true) /\
  (forall g h p x y q, adjacent g h gs -> g = p ++ [x] -> h = y :: q -> P x y = false).

(** ** Lines *)

Definition no_break (l : list Z) : Prop := ~ In 10 l /\ ~ In 13 l.
Definition line_break (s : list Z) : Prop := s = [10] \/ s = [13] \/ s = [13; 10].

(** A text cut into lines: every line but the last ends in a line break; the last may
    end without one, and then it is not empty.  CR LF is never cut in two. *)
Inductive lines_of : list Z -> list (list Z * list Z) -> Prop :=
| lines_end : lines_of [] []
| lines_last : forall l, l <> [] -> no_break l -> lines_of l [(l, [])]
| lines_more : forall l s r ls,
    no_break l -> line_break s -> lines_of r ls ->
    (s = [13] -> forall r', r <> 10 :: r') ->
    lines_of (l ++ s ++ r) ((l, s) :: ls).

(** ** Spans *)

(** Lexicographic order of (line, column) positions. *)
Definition pos_le (p q : Z * Z) : Prop := fst p < fst q \/ (fst p = fst q /\ snd p <= snd q).

(** The position [p] lies in the closed span from [a] to [b]. *)
Definition in_span (a b p : Z * Z) : Prop := pos_le a p /\ pos_le p b.

(** ** Orders *)

(** A comparison function whose answers agree when the arguments are swapped. *)
Definition antisymmetric {A} (cmp : A -> A -> comparison) : Prop :=
  forall a b, cmp b a = CompOpp (cmp a b).
Definition transitive_lt {A} (cmp : A -> A -> comparison) : Prop :=
  forall a b c, cmp a b = Lt -> cmp b c = Lt -> cmp a c = Lt.
