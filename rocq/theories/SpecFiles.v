(** What a tag ([a::tag]) and an unquoted file name ([<<file]) are. *)
From Coq Require Import String ZArith List Bool.
From Verif Require Import Base Source GenLongNames LongNames CharDecoder SpecText SpecReader SpecTokenizer SpecLex.
Import ListNotations.
Local Open Scope Z_scope.

(** The bytes of a file name: letters, digits and [`/.\!-_:*~?]. *)
Definition file_byte (b : Z) : Prop := 65 <= b <= 90 \/ 97 <= b <= 122 \/ digit_byte b \/ In b (bytes_of_string "`/.\!-_:*~?").
(** Blanks and line breaks, in ASCII and beyond. *)
Definition blank (p : Z) : Prop := 9 <= p <= 13 \/ p = 32 \/ exists name, In (name, p) LN_TABLE /\ (In name blank_names \/ In name line_break_names).

(** [file_part d w d']: the text [w] belongs to a file name in which [d] brackets are open,
    and leaves [d'] open.  Between brackets everything but a blank is allowed. *)
Inductive file_part : nat -> list Z -> nat -> Prop :=
| fp_nil : forall d, file_part d [] d
| fp_byte : forall b w d', file_byte b -> file_part 0 w d' -> file_part 0 (b :: w) d'
| fp_open : forall d w d', file_part (S d) w d' -> file_part d (91 :: w) d'
| fp_close : forall d w d', file_part d w d' -> file_part (S d) (93 :: w) d'
| fp_inside : forall d p w d', scalar p -> p <> BOM_CHAR -> ~ blank p -> p <> 91 -> p <> 93 -> file_part (S d) w d' -> file_part (S d) (utf8 p ++ w) d'.
(** A file name may start with a dollar sign. *)
Definition file_text (w : list Z) (d : nat) : Prop := (w <> [] /\ file_part 0 w d) \/ exists r, w = 36 :: r /\ file_part 0 r d.

(** What cannot go on with a file name, and what cannot start one. *)
Definition ends_file (e : list Z) : Prop := ~ starts_with (fun b => file_byte b \/ b = 91) e.
Definition no_file (e : list Z) : Prop := ~ starts_with (fun b => file_byte b \/ In b [91; 36; 34; 32; 9; 10; 13]) e.
Definition starts_blank (e : list Z) : Prop := exists p r, e = utf8 p ++ r /\ scalar p /\ blank p.
