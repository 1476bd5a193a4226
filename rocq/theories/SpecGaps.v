(** Where the tokens that stand for something missing may stand, and what may stand beside a
    colon, said without looking at how the trees are made. *)
From Coq Require Import ZArith List Bool.
From Verif Require Import Base Source GenTokenKind GenPrec GenOps GenParselets TokenKind Parselets Tokenizer Cst SpecCst SpecTokenizer Parser SpecParser.
Import ListNotations.
Local Open Scope Z_scope.

(** ** Placeholders *)

(** The kinds of token that the parser makes up for an operand that is missing, and of the
    closing brackets that close nothing. *)
Definition PLACEHOLDERS : list Z :=
  [TK_Fake_ImplicitNull; TK_Fake_ImplicitOne; TK_Fake_ImplicitAll; TK_Error_PrefixImplicitNull;
   TK_Error_InfixImplicitNull; TK_Error_ExpectedOperand; TK_Error_UnexpectedCloser].
Definition placeholder (n : cst) : option Z :=
  match n with Tok t => if zin (t_kind t) PLACEHOLDERS then Some (t_kind t) else None | _ => None end.

(** The placeholders that may be the [i]-th part (from zero, operators counted) of a node. *)
Definition seat (kd : opkind) (op : Z) (i : nat) : list Z :=
  match kd with
  | KGroup | KGroupMissingCloser => [TK_Error_UnexpectedCloser]
  | KCompound | KGroupMissingOpener => []
  | KPrefix => if op =? PREOP_Get then [] else [TK_Error_ExpectedOperand]
  | KPrefixBinary => match i with 1%nat => [TK_Fake_ImplicitOne] | _ => [] end
  | KPostfix => [TK_Error_ExpectedOperand]
  | KBinary =>
      if op =? BOP_Span then match i with O => [TK_Fake_ImplicitOne] | _ => [TK_Fake_ImplicitAll] end
      else if zin op [BOP_Put; BOP_PutAppend; BOP_Unset] then match i with O => [TK_Error_ExpectedOperand] | _ => [] end
      else [TK_Error_ExpectedOperand]
  | KTernary =>
      if op =? TOP_Span then match i with O => [TK_Fake_ImplicitOne] | 2%nat => [TK_Fake_ImplicitAll] | _ => [] end
      else [TK_Error_ExpectedOperand]
  | KInfix =>
      if op =? IOP_CodeParser_Comma then match i with O => [TK_Error_PrefixImplicitNull] | _ => [TK_Error_InfixImplicitNull] end
      else if op =? IOP_CompoundExpression then match i with O => [TK_Error_ExpectedOperand] | _ => [TK_Fake_ImplicitNull] end
      else if op =? IOP_MessageName then match i with O => [TK_Error_ExpectedOperand] | _ => [] end
      else [TK_Error_ExpectedOperand]
  end.

Definition sits (ks : list Z) (a : cst) : Prop := forall k, placeholder a = Some k -> In k ks.
Definition placeholders_ok (n : cst) : Prop :=
  match n with
  | Op kd op ch => forall i a, nth_error (parts ch) i = Some a -> sits (seat kd op i) a
  | SynErr _ ch => Forall (sits [TK_Error_ExpectedOperand]) (parts ch)
  | Call (Concrete l) _ _ ch => Forall (sits []) (parts l) /\ Forall (sits [TK_Error_UnexpectedCloser]) (parts ch)
  | _ => True
  end.

(** ** Colons *)

(** what the colon operator makes: [x:p], [p:v], and neither *)
Definition pattern_node (n : cst) : Prop := exists ch, n = Op KBinary BOP_Pattern ch.
Definition optional_node (n : cst) : Prop := exists ch, n = Op KBinary BOP_Optional ch.
Definition colon_error (n : cst) : Prop := exists ch, n = SynErr ExpectedSymbol ch.
Definition colon_node (n : cst) : Prop := pattern_node n \/ optional_node n \/ colon_error n.

(** the left side of [x:p]: a symbol, or a token that stands for something wrong *)
Definition names (a : cst) : Prop := exists t, a = Tok t /\ (t_kind t = TK_Symbol \/ isError (t_kind t) = true).
(** the left side of [p:v]: a pattern [x:p], a blank, or a named blank *)
Definition BLANKS : list Z :=
  [COP_Blank; COP_BlankSequence; COP_BlankNullSequence;
   COP_CodeParser_PatternBlank; COP_CodeParser_PatternBlankSequence; COP_CodeParser_PatternBlankNullSequence].
Definition blank_like (a : cst) : Prop :=
  pattern_node a \/ (exists t, a = Tok t /\ In (t_kind t) [TK_Under; TK_UnderUnder; TK_UnderUnderUnder]) \/
  (exists op ch, a = Op KCompound op ch /\ In op BLANKS).
Definition colon_sides (n : cst) : Prop := forall ch a r,
  (n = Op KBinary BOP_Pattern ch -> parts ch = a :: r -> names a) /\
  (n = Op KBinary BOP_Optional ch -> parts ch = a :: r -> blank_like a) /\
  (n = SynErr ExpectedSymbol ch -> parts ch = a :: r -> ~ names a /\ ~ blank_like a).

(** [m] is [n] or part of [n], and not inside brackets in it *)
Inductive exposed : cst -> cst -> Prop :=
| exposed_here : forall n, exposed n n
| exposed_op : forall kd op ch c m, kd <> KGroup -> kd <> KGroupMissingCloser -> In c ch -> exposed c m -> exposed (Op kd op ch) m
| exposed_error : forall e ch c m, In c ch -> exposed c m -> exposed (SynErr e ch) m
| exposed_head : forall l missing op ch c m, In c l -> exposed c m -> exposed (Call (Concrete l) missing op ch) m.
(** no colon outside brackets *)
Definition no_colon (n : cst) : Prop := forall m, exposed n m -> ~ colon_node m.

(** After [x:] the next colon outside brackets ends the operand. *)
Definition colon_right (n : cst) : Prop := forall ch a t b,
  n = Op KBinary BOP_Pattern ch \/ n = SynErr ExpectedSymbol ch -> parts ch = [a; Tok t; b] -> no_colon b.
(** A colon takes as little as possible to its left: an operand that has no operator that could
    have gone on at its right end, or what another colon has made. *)
Definition colon_left (n : cst) : Prop := forall ch a r,
  n = Op KBinary BOP_Pattern ch \/ n = Op KBinary BOP_Optional ch \/ n = SynErr ExpectedSymbol ch -> parts ch = a :: r ->
  (forall q, ~ open_at_end a q) \/ pattern_node a \/ colon_error a.
