(** What the printed form of a tree shows. *)
From Coq Require Import ZArith List Bool.
From Verif Require Import Base Source GenTokenKind GenOps TokenKind Tokenizer Cst.
Import ListNotations.
Local Open Scope Z_scope.

(** Two things in a tree are not shown: whether a newline ends an expression or is inside one,
    and, of a token, the rest of the input after its text (a pointer, in the code). *)
Definition shown_kind (k : Z) : Z := if k =? TK_ToplevelNewline then TK_InternalNewline else k.
Definition shown_token (t : token) : token := mktok (shown_kind (t_kind t)) [] (t_text t) (t_src t).
Fixpoint shown (n : cst) : cst :=
  match n with
  | Tok t => Tok (shown_token t)
  | Call (Concrete l) m op body => Call (Concrete (map shown l)) m op (map shown body)
  | Call (Aggregate x) m op body => Call (Aggregate (shown x)) m op (map shown body)
  | SynErr e ch => SynErr e (map shown ch)
  | Op k op ch => Op k op (map shown ch)
  | BoxN b ch src => BoxN b (map shown ch) src
  | CodeN a b src => CodeN a b src
  end.

(** lines and columns are counted from one *)
Definition counted (l : loc) : Prop := match l with LineCol a b => 1 <= a /\ 1 <= b | CharIdx a => 1 <= a end.
Definition unquoted (t : token) : Prop := ~ In 34 (t_text t).
Definition counted_token (t : token) : Prop := counted (sp_start (t_src t)) /\ counted (sp_end (t_src t)).
