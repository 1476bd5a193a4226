(** What can be said about abstract syntax trees without looking at how they are made. *)
From Coq Require Import ZArith List Bool.
From Verif Require Import Base Source GenTokenKind GenOps Tokenizer Cst SpecCst Ast Abstract.
Import ListNotations.
Local Open Scope Z_scope.

(** ** Trees that cannot be abstracted *)

(** Parentheses with nothing or more than one thing in them, perhaps behind further
    parentheses and minus signs.  The sign in front of such a thing is looked through. *)
Fixpoint hollow (n : cst) : bool :=
  match n with
  | Op KGroup op ch =>
      if op =? GOP_CodeParser_GroupParen then match ch with [_; c; _] => hollow c | _ => true end else false
  | Op KPrefix op ch =>
      if op =? PREOP_Minus then match ch with [_; c] => hollow c | _ => true end else false
  | _ => false
  end.

Definition a_string (n : cst) : Prop := exists t, n = Tok t /\ t_kind t = TK_String.

(** The child at position [2 k + 1] of an infix node is a separator. *)
Definition separator (ch : list cst) (k : nat) (t : token) : Prop := nth_error ch (2 * k + 1) = Some (Tok t).
Definition after_separator (ch : list cst) (k : nat) (n : cst) : Prop := nth_error ch (2 * k + 2) = Some n.

(** a product with another separator than a star: [a b] *)
Definition loose (n : cst) : Prop :=
  exists ch k t, n = Op KInfix IOP_Times ch /\ separator ch k t /\ t_kind t <> TK_Star.

(** The nodes (of a tree without trivia) at which abstraction gives up.  With the quirk
    [q_infix_binary_at] and in debug builds there are more. *)
Inductive trouble (o : aopts) : cst -> Prop :=
(** a file name that is missing: [<<], [a >>] *)
| trouble_get : forall t a, ~ a_string a -> trouble o (Op KPrefix PREOP_Get [t; a])
| trouble_put : forall op a t b, op = BOP_Put \/ op = BOP_PutAppend -> ~ a_string b -> trouble o (Op KBinary op [a; t; b])
(** the negative of a hollow thing: [-()], [a - ()] *)
| trouble_minus : forall t a, hollow a = true -> trouble o (Op KPrefix PREOP_Minus [t; a])
| trouble_subtract : forall ch k t a, separator ch k t -> t_kind t = TK_Minus \/ t_kind t = TK_LongName_Minus ->
    after_separator ch k a -> hollow a = true -> trouble o (Op KInfix IOP_Plus ch)
(** brackets that make no sense, with more than one thing in them *)
| trouble_naked : forall op a b c d r,
    op = GOP_CodeParser_GroupSquare \/ op = GOP_CodeParser_GroupTypeSpecifier \/ op = GOP_CodeParser_GroupDoubleBracket ->
    trouble o (Op KGroup op (a :: b :: c :: d :: r))
(** [f[ [a] ) ]] *)
| trouble_part : forall h a ch b c r,
    trouble o (Call h false CALLOP_CodeParser_GroupSquare (a :: Op KGroup GOP_CodeParser_GroupSquare ch :: b :: c :: r))
(** the application of a symbol by something else than [@] *)
| trouble_at : forall s t a, q_infix_binary_at o = true -> t_kind s = TK_Symbol -> t_kind t <> TK_At ->
    trouble o (Op KBinary BOP_CodeParser_BinaryAt [Tok s; Tok t; a])
(** debug assertions: derivatives have no source; the factors of a negated product, or of one
    that is a factor itself, are thought to be separated by stars *)
| trouble_prime : forall ch, a_dbg o = true -> trouble o (Op KPostfix POSTOP_Derivative ch)
| trouble_negative : forall t a, a_dbg o = true -> loose a -> trouble o (Op KPrefix PREOP_Minus [t; a])
| trouble_difference : forall ch k t a, a_dbg o = true -> separator ch k t -> t_kind t = TK_Minus \/ t_kind t = TK_LongName_Minus ->
    after_separator ch k a -> loose a -> trouble o (Op KInfix IOP_Plus ch)
| trouble_factor : forall ch a, a_dbg o = true -> In a ch -> loose a -> trouble o (Op KInfix IOP_Times ch)
| trouble_dividend : forall a t b, a_dbg o = true -> loose a -> trouble o (Op KBinary BOP_Divide [a; t; b]).

(** there is no such node in the tree *)
Definition untroubled (o : aopts) (n : cst) : Prop := forall ns m, preorder n ns -> In m ns -> ~ trouble o m.
