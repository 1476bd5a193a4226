(** Where an expression ends: at the end of a line, or where nothing can go on. *)
From Coq Require Import ZArith List Bool.
From Verif Require Import Base GenTokenKind GenOps TokenKind Tokenizer Cst SpecCst Parser SpecParser SpecParse.
Import ListNotations.
Local Open Scope Z_scope.

(** ** Ends of lines inside a tree *)
(** the token for the end of a line outside of all brackets *)
Definition line_end (n : cst) : Prop := exists t, n = Tok t /\ t_kind t = TK_ToplevelNewline.
(** a line ends between part [i-1] and part [i] of a list of children *)
Definition breaks (ch : list cst) (i : nat) : Prop := exists l n r, ch = l ++ n :: r /\ line_end n /\ length (parts l) = i.

Definition fake_times (ps : list cst) (i : nat) : Prop := exists t, nth_error ps i = Some (Tok t) /\ t_kind t = TK_Fake_ImplicitTimes.
(** the operator of a chain next to the place before part [i] *)
Definition operator_at (i : nat) : nat := if Nat.odd i then i else (i - 1)%nat.
(** between which parts of a node a line may end; not at either edge *)
Definition may_break (kd : opkind) (op : Z) (ps : list cst) (i : nat) : Prop :=
  (i < length ps)%nat /\
  match kd with
  | KPrefix | KPrefixBinary => (1 <= i)%nat
  | KBinary => i = 2%nat /\ op <> BOP_Span
  | KTernary => (2 <= i)%nat /\ op <> TOP_Span
  | KInfix => (2 <= i)%nat /\ (op = IOP_CompoundExpression \/ op = IOP_MessageName -> Nat.odd i = true) /\ ~ fake_times ps (operator_at i)
  | KPostfix | KCompound | KGroup | KGroupMissingCloser | KGroupMissingOpener => False
  end.
Definition newline_ok (n : cst) : Prop :=
  match n with
  | Op kd op ch => forall i, breaks ch i -> may_break kd op (parts ch) i
  | SynErr _ ch => forall i, breaks ch i -> i = 2%nat
  | Call (Concrete l) _ _ ch => forall i, ~ breaks l i /\ ~ breaks ch i
  | _ => True
  end.

(** ** Ends of lines inside brackets *)
(** file names are read in their own way *)
Definition file_node (n : cst) : Prop := exists ch, n = Op KPrefix PREOP_Get ch \/ n = Op KBinary BOP_Put ch \/ n = Op KBinary BOP_PutAppend ch.
Definition no_line_end (n : cst) : Prop := file_node n \/ forall m, In m (children n) -> ~ line_end m.
Definition inside (n : cst) : list cst :=
  match n with
  | Op KGroup _ ch | Op KGroupMissingCloser _ ch | Call _ _ _ ch => ch
  | _ => []
  end.
Definition brackets_ok (n : cst) : Prop := forall m, In m (inside n) -> ~ line_end m /\ everywhere no_line_end m.

(** ** Neighbours *)
Definition error_leaf (n : cst) : Prop := exists t, n = Tok t /\ isError (t_kind t) = true.
(** an error token, or a sequence of things with commas that ends with one *)
Inductive broken : cst -> Prop :=
| broken_leaf : forall n, error_leaf n -> broken n
| broken_comma : forall ch l b, parts ch = l ++ [b] -> broken b -> broken (Op KInfix IOP_CodeParser_Comma ch).
Definition beside (a b : cst) : Prop := broken a \/ error_leaf b.
Definition apart (l : list cst) : Prop := forall l1 a b l2, l = l1 ++ a :: b :: l2 -> beside a b.
(** two expressions side by side in brackets *)
Definition neighbours_ok (n : cst) : Prop :=
  match n with
  | Op KGroup _ ch | Call _ false _ ch => forall t mid u, parts ch = t :: mid ++ [u] -> apart mid
  | Op KGroupMissingCloser _ ch | Call _ true _ ch => forall t mid, parts ch = t :: mid -> apart mid
  | _ => True
  end.
(** two expressions side by side outside of all brackets, in the same line *)
Definition separate (l : list cst) : Prop :=
  forall l1 a mid b l2, l = l1 ++ a :: mid ++ b :: l2 -> trivia_leaf a = false -> trivia_leaf b = false ->
    Forall (fun m => trivia_leaf m = true /\ ~ line_end m) mid -> beside a b.
