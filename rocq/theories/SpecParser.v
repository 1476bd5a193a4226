(** What the trees of the parser look like, said without looking at how they are made. *)
From Coq Require Import ZArith List Bool.
From Verif Require Import Base Source GenTokenKind GenPrec GenOps GenParselets TokenKind Parselets Tokenizer Cst SpecCst SpecTokenizer Parser.
Import ListNotations.
Local Open Scope Z_scope.

(** ** Children *)

Definition trivia_leaf (n : cst) : bool := match n with Tok t => isTrivia (t_kind t) | _ => false end.
(** the children that are not white space, line breaks or comments *)
Definition parts (l : list cst) : list cst := filter (fun n => negb (trivia_leaf n)) l.

(** the kinds of the empty tokens the parser puts where an operand or operator is missing *)
Definition INSERTED : list Z :=
  [TK_Fake_ImplicitOne; TK_Fake_ImplicitAll; TK_Fake_ImplicitTimes; TK_Fake_ImplicitNull;
   TK_Error_InfixImplicitNull; TK_Error_PrefixImplicitNull; TK_Error_ExpectedOperand].

(** A token that can stand alone as an operand: one the grammar makes a leaf of, an error
    token, or one inserted for a missing operand. *)
Definition leaf_kind (k : Z) : bool :=
  match prefix_of k with
  | PP_Leaf | PP_UnderDot | PP_Under _ _ | PP_Symbol | PP_Hash | PP_HashHash | PP_Percent | PP_PrefixError => negb (isTrivia k)
  | _ => zin k [TK_Fake_ImplicitOne; TK_Fake_ImplicitAll; TK_Fake_ImplicitNull; TK_Error_InfixImplicitNull; TK_Error_PrefixImplicitNull]
  end.
Definition operand (n : cst) : bool :=
  match n with Tok t => leaf_kind (t_kind t) | BoxN _ _ _ | CodeN _ _ _ => false | _ => true end.

(** ** Groups without a closer at the right edge of a node *)

Fixpoint open_ended (n : cst) : bool :=
  let last_open := fold_left (fun (b : bool) m => if trivia_leaf m then b else open_ended m) in
  match n with
  | Op KGroupMissingCloser _ _ => true
  | Op KGroup _ _ => false
  | Op _ _ ch | SynErr _ ch => last_open ch false
  | Call _ missing _ _ => missing
  | _ => false
  end.
(** the closing brackets the unterminated groups at the right edge of a node are waiting for *)
Definition closer_of (t : token) : list Z := match GroupOpenerToCloser (t_kind t) with Ok c => [c] | _ => [] end.
Fixpoint dangling (n : cst) : list Z :=
  let last_dangling := fold_left (fun (b : list Z) m => if trivia_leaf m then b else dangling m) in
  match n with
  | Op KGroup _ _ | Call _ false _ _ => []
  | Op KGroupMissingCloser _ (Tok t :: mid) | Call _ true _ (Tok t :: mid) => closer_of t ++ last_dangling mid []
  | Op _ _ ch | SynErr _ ch | Call _ true _ ch => last_dangling ch []
  | _ => []
  end.
Definition last_dangling (l : list cst) : list Z := last (map dangling l) [].
(** only the last one may be open ended *)
Definition settled (l : list cst) : Prop := Forall (fun n => open_ended n = false) (removelast l).

(** ** Precedence *)

(** the precedence of the operator token of an infix, binary, ternary or postfix node.
    Not for [:], which has two, and not for a span without its first operand, which can
    stand anywhere. *)
Definition root_precedence (n : cst) : option Z :=
  match n with
  | Call _ _ _ _ => Some PREC_CALL
  | Op (KBinary | KTernary | KInfix | KPostfix) _ ch | SynErr _ ch =>
      match parts ch with
      | a :: Tok t :: _ =>
          match infix_of (t_kind t) with
          | IP_BinaryOperator p _ | IP_InfixOperator p _ | IP_PostfixOperator p _ => Some p
          | IP_Times => Some PREC_STAR
          | IP_Comma => Some PREC_COMMA
          | IP_Semi => Some PREC_SEMI
          | IP_Tilde => Some PREC_TILDE
          | IP_SlashColon => Some PREC_SLASHCOLON
          | IP_Equal => Some PREC_EQUAL
          | IP_ColonEqual => Some PREC_COLONEQUAL
          | IP_ColonColon => Some PREC_COLONCOLON
          | IP_GreaterGreater => Some PREC_GREATERGREATER
          | IP_GreaterGreaterGreater => Some PREC_GREATERGREATERGREATER
          | IP_SemiSemi =>
              match a with
              | Tok f => if t_kind f =? TK_Fake_ImplicitOne then None else Some PREC_SEMISEMI
              | _ => Some PREC_SEMISEMI
              end
          | _ => None
          end
      | _ => None
      end
  | _ => None
  end.

(** The node binds at least as tightly as [p]: an operand to the right of an operator of
    precedence [p] may look like this.  Precedences with the lowest bit set associate to
    the right. *)
Definition binds (p : Z) (n : cst) : Prop :=
  forall q, root_precedence n = Some q -> p < q \/ (p = q /\ Z.odd p = true).

(** ** The shape of a node *)

(** prefix operators: the operator of the node and the precedence for its operand *)
Definition prefix_entry (p : prefix_parselet) (op prec : Z) : Prop :=
  match p with
  | PP_PrefixOperator prec' op' => op = op' /\ prec = prec'
  | PP_Integral _ op' => op = op' /\ prec = PREC_CLASS_INTEGRATIONOPERATORS
  | PP_LessLess => op = PREOP_Get /\ prec = PREC_HIGHEST
  | _ => False
  end.
(** binary operators: the operator of the node and the precedence for the right operand *)
Definition binary_entry (p : infix_parselet) (op prec : Z) : Prop :=
  match p with
  | IP_BinaryOperator prec' op' => op = op' /\ prec = prec'
  | IP_Equal => op = BOP_Set /\ prec = PREC_EQUAL
  | IP_ColonEqual => op = BOP_SetDelayed /\ prec = PREC_COLONEQUAL
  | IP_Colon => (op = BOP_Pattern /\ prec = PREC_FAKE_PATTERNCOLON) \/ (op = BOP_Optional /\ prec = PREC_FAKE_OPTIONALCOLON)
  | IP_SemiSemi => op = BOP_Span /\ prec = PREC_SEMISEMI
  | IP_GreaterGreater => op = BOP_Put /\ prec = PREC_GREATERGREATER
  | IP_GreaterGreaterGreater => op = BOP_PutAppend /\ prec = PREC_GREATERGREATERGREATER
  | _ => False
  end.
(** ternary operators: the two operator tokens and the precedences for the operands after them *)
Definition ternary_entry (op k1 k2 p1 p2 : Z) : Prop :=
  (op = TOP_CodeParser_TernaryTilde /\ k1 = TK_Tilde /\ k2 = TK_Tilde /\ p1 = PREC_TILDE /\ p2 = PREC_TILDE) \/
  (op = TOP_Span /\ k1 = TK_SemiSemi /\ k2 = TK_SemiSemi /\ p1 = PREC_SEMISEMI /\ p2 = PREC_SEMISEMI) \/
  (op = TOP_TagSet /\ k1 = TK_SlashColon /\ k2 = TK_Equal /\ p1 = PREC_SLASHCOLON /\ p2 = PREC_EQUAL) \/
  (op = TOP_TagSetDelayed /\ k1 = TK_SlashColon /\ k2 = TK_ColonEqual /\ p1 = PREC_SLASHCOLON /\ p2 = PREC_COLONEQUAL).
(** infix operators: the separators and the precedence for the operands after them *)
Definition infix_entry (p : infix_parselet) (op prec : Z) : Prop :=
  match p with
  | IP_InfixOperator prec' op' => op = op' /\ prec = prec'
  | IP_Times => op = IOP_Times /\ prec = PREC_STAR
  | IP_Comma => op = IOP_CodeParser_Comma /\ prec = PREC_COMMA
  | IP_Semi => op = IOP_CompoundExpression /\ prec = PREC_SEMI
  | IP_ColonColon => op = IOP_MessageName /\ prec = PREC_COLONCOLON
  | _ => False
  end.
(** operand, separator, operand, ..., separator, operand; the operands after a separator
    bind at least as tightly as the first separator ([\[ImplicitPlus]] and [+] belong to the
    same operator but have different precedences) *)
Inductive alternate (op prec : Z) : list cst -> Prop :=
| alt_one : forall a t b, operand a = true -> infix_entry (infix_of (t_kind t)) op prec -> operand b = true -> binds prec b ->
    alternate op prec [a; Tok t; b]
| alt_more : forall l t b prec', alternate op prec l -> infix_entry (infix_of (t_kind t)) op prec' -> operand b = true -> binds prec b ->
    alternate op prec (l ++ [Tok t; b]).

(** compounds: two tokens, or a symbol and a blank, side by side *)
Definition blank_entry (k bop pbop : Z) : Prop :=
  (k = TK_Under /\ bop = COP_Blank /\ pbop = COP_CodeParser_PatternBlank) \/
  (k = TK_UnderUnder /\ bop = COP_BlankSequence /\ pbop = COP_CodeParser_PatternBlankSequence) \/
  (k = TK_UnderUnderUnder /\ bop = COP_BlankNullSequence /\ pbop = COP_CodeParser_PatternBlankNullSequence).
Definition blank_of (bop : Z) (t : token) (n : cst) : Prop :=
  n = Tok t \/ exists u, n = Op KCompound bop [Tok t; Tok u] /\ (t_kind u = TK_Symbol \/ t_kind u = TK_Error_ExpectedLetterlike).
Inductive compound_ok : Z -> list cst -> Prop :=
| comp_blank : forall t u bop pbop, blank_entry (t_kind t) bop pbop -> (t_kind u = TK_Symbol \/ t_kind u = TK_Error_ExpectedLetterlike) ->
    compound_ok bop [Tok t; Tok u]
| comp_pattern : forall s t n bop pbop, t_kind s = TK_Symbol -> blank_entry (t_kind t) bop pbop -> blank_of bop t n ->
    compound_ok pbop [Tok s; n]
| comp_optional : forall s t, t_kind s = TK_Symbol -> t_kind t = TK_UnderDot ->
    compound_ok COP_CodeParser_PatternOptionalDefault [Tok s; Tok t]
| comp_slot : forall t u, t_kind t = TK_Hash -> t_kind u = TK_Integer \/ t_kind u = TK_String -> compound_ok COP_Slot [Tok t; Tok u]
| comp_slots : forall t u, t_kind t = TK_HashHash -> t_kind u = TK_Integer -> compound_ok COP_SlotSequence [Tok t; Tok u]
| comp_out : forall t u, t_kind t = TK_Percent -> t_kind u = TK_Integer -> compound_ok COP_Out [Tok t; Tok u].

(** groups: the opener belongs to the operator, and the closer to the opener and not to an
    unterminated group inside *)
Definition opens (op : Z) (t : token) : Prop := exists opener, prefix_of (t_kind t) = PP_Group opener op.
Definition closes (t u : token) : Prop := GroupOpenerToCloser (t_kind t) = Ok (TokenToCloser (t_kind u)).
Definition closed_group (op : Z) (ch : list cst) : Prop :=
  exists t mid u, ch = Tok t :: mid ++ [Tok u] /\ opens op t /\ closes t u /\
    Forall (fun n => operand n = true) (parts mid) /\ settled (parts mid) /\
    ~ In (TokenToCloser (t_kind u)) (last_dangling (parts mid)).
Definition unclosed_group (op : Z) (ch : list cst) : Prop :=
  exists t mid, ch = Tok t :: mid /\ opens op t /\
    Forall (fun n => operand n = true) (parts mid) /\ settled (parts mid).

Inductive node_ok : cst -> Prop :=
| ok_token : forall t, node_ok (Tok t)
| ok_prefix : forall op ch t a prec, parts ch = [Tok t; a] -> prefix_entry (prefix_of (t_kind t)) op prec ->
    operand a = true -> binds prec a -> node_ok (Op KPrefix op ch)
| ok_prefix_binary : forall op ch t a b op2, parts ch = [Tok t; a; b] -> prefix_of (t_kind t) = PP_Integral op op2 ->
    operand a = true -> operand b = true -> open_ended a = false ->
    binds PREC_CLASS_INTEGRATIONOPERATORS a -> binds PREC_CLASS_INTEGRATIONOPERATORS b ->
    node_ok (Op KPrefixBinary op ch)
| ok_postfix : forall op ch a t prec, parts ch = [a; Tok t] -> infix_of (t_kind t) = IP_PostfixOperator prec op ->
    operand a = true -> open_ended a = false -> node_ok (Op KPostfix op ch)
| ok_binary : forall op ch a t b prec, parts ch = [a; Tok t; b] -> binary_entry (infix_of (t_kind t)) op prec ->
    operand a = true -> open_ended a = false -> operand b = true -> binds prec b -> node_ok (Op KBinary op ch)
| ok_unset : forall ch a t u, parts ch = [a; Tok t; Tok u] -> t_kind t = TK_Equal -> t_kind u = TK_Dot ->
    operand a = true -> open_ended a = false -> node_ok (Op KBinary BOP_Unset ch)
| ok_ternary : forall op ch a t b u c p1 p2, parts ch = [a; Tok t; b; Tok u; c] -> ternary_entry op (t_kind t) (t_kind u) p1 p2 ->
    operand a = true -> operand b = true -> operand c = true -> open_ended a = false -> open_ended b = false ->
    binds p1 b -> binds p2 c -> node_ok (Op KTernary op ch)
| ok_tag_unset : forall ch a t b u v, parts ch = [a; Tok t; b; Tok u; Tok v] ->
    t_kind t = TK_SlashColon -> t_kind u = TK_Equal -> t_kind v = TK_Dot ->
    operand a = true -> operand b = true -> open_ended a = false -> open_ended b = false ->
    binds PREC_SLASHCOLON b -> node_ok (Op KTernary TOP_TagUnset ch)
| ok_infix : forall op prec ch, alternate op prec (parts ch) -> settled (parts ch) -> node_ok (Op KInfix op ch)
| ok_compound : forall op ch, compound_ok op ch -> node_ok (Op KCompound op ch)
| ok_group : forall op ch, closed_group op ch -> node_ok (Op KGroup op ch)
| ok_group_missing_closer : forall op ch, unclosed_group op ch -> node_ok (Op KGroupMissingCloser op ch)
| ok_call : forall l h op op' ch, parts l = [h] -> operand h = true -> open_ended h = false ->
    try_to_call_operator op = Ok op' -> closed_group op ch -> node_ok (Call (Concrete l) false op' ch)
| ok_call_missing_closer : forall l h op op' ch, parts l = [h] -> operand h = true -> open_ended h = false ->
    try_to_call_operator op = Ok op' -> unclosed_group op ch -> node_ok (Call (Concrete l) true op' ch)
| ok_error : forall e ch a t b, parts ch = [a; Tok t; b] ->
    t_kind t = match e with ExpectedSymbol => TK_Colon | ExpectedSet => TK_SlashColon | ExpectedTilde => TK_Tilde end ->
    operand a = true -> operand b = true -> open_ended a = false -> node_ok (SynErr e ch).

(** ** Left operands *)

(** An operand after which the parser does not look for an operator: an error token, a token
    inserted for a missing operand, or a list separated by commas. *)
Definition dead_end (n : cst) : bool :=
  match n with
  | Tok t => isError (t_kind t) || zin (t_kind t) INSERTED
  | Op KInfix op _ => op =? IOP_CodeParser_Comma
  | _ => false
  end.
Definition error_precedence (e : syntax_error) : Z :=
  match e with ExpectedSymbol => PREC_FAKE_PATTERNCOLON | ExpectedSet => PREC_SLASHCOLON | ExpectedTilde => PREC_TILDE end.

(** [b] is the last operand of [n], and [q] the precedence of the operator to its left.  The
    words after [<<], [>>], [>>>] and [::] are not operands in this sense. *)
Inductive last_operand : cst -> Z -> cst -> Prop :=
| last_prefix : forall op ch t b q, parts ch = [Tok t; b] -> prefix_entry (prefix_of (t_kind t)) op q -> op <> PREOP_Get ->
    last_operand (Op KPrefix op ch) q b
| last_prefix_binary : forall op ch t a b, parts ch = [Tok t; a; b] -> last_operand (Op KPrefixBinary op ch) PREC_CLASS_INTEGRATIONOPERATORS b
| last_binary : forall op ch a t b q, parts ch = [a; Tok t; b] -> binary_entry (infix_of (t_kind t)) op q -> op <> BOP_Put -> op <> BOP_PutAppend ->
    last_operand (Op KBinary op ch) q b
| last_ternary : forall op ch a t b u c p q, parts ch = [a; Tok t; b; Tok u; c] -> ternary_entry op (t_kind t) (t_kind u) p q ->
    last_operand (Op KTernary op ch) q c
| last_infix : forall op ch a t l b q, parts ch = a :: Tok t :: l ++ [b] -> infix_entry (infix_of (t_kind t)) op q -> op <> IOP_MessageName ->
    last_operand (Op KInfix op ch) q b
| last_error : forall e ch a t b, parts ch = [a; Tok t; b] -> last_operand (SynErr e ch) (error_precedence e) b.

(** At its right end [n] has the last operand of an operator of precedence [q], which might have
    gone on. *)
Inductive open_at_end : cst -> Z -> Prop :=
| open_here : forall n q b, last_operand n q b -> dead_end b = false -> open_at_end n q
| open_below : forall n q b q', last_operand n q b -> open_at_end b q' -> open_at_end n q'.

(** An operator of precedence [p] does not go on with the last operand of an operator of
    precedence [q]: it is looser, or equally tight and associates to the left. *)
Definition ends_operand (q p : Z) : Prop := p < q \/ (p = q /\ Z.odd q = false).

(** the precedence with which an operator takes what stands to its left *)
Definition joining_precedence (k : Z) : option Z :=
  match infix_of k with
  | IP_BinaryOperator p _ | IP_InfixOperator p _ | IP_PostfixOperator p _ => Some p
  | IP_Times => Some PREC_STAR
  | IP_Call _ _ => Some PREC_CALL
  | IP_Comma => Some PREC_COMMA
  | IP_Semi => Some PREC_SEMI
  | IP_SemiSemi => Some PREC_SEMISEMI
  | IP_Tilde => Some PREC_TILDE
  | IP_Colon => Some PREC_FAKE_OPTIONALCOLON
  | IP_SlashColon => Some PREC_SLASHCOLON
  | IP_Equal => Some PREC_EQUAL
  | IP_ColonEqual => Some PREC_COLONEQUAL
  | IP_ColonColon => Some PREC_COLONCOLON
  | IP_GreaterGreater => Some PREC_GREATERGREATER
  | IP_GreaterGreaterGreater => Some PREC_GREATERGREATERGREATER
  | IP_InfixImplicitTimes | IP_InfixAssertFalse | IP_InfixDifferentialD | IP_InfixToplevelNewline => None
  end.

(** [a] is an operand of [n] to the left of an operator of [n], [k] the kind of the operator token
    (for a call, any kind of bracket: they all bind alike).  After the first operand no line at
    top level may end between the two. *)
Inductive left_operand : cst -> cst -> Z -> Prop :=
| left_op : forall kd op ch a t r, In kd [KBinary; KTernary; KInfix; KPostfix] -> parts ch = a :: Tok t :: r -> left_operand (Op kd op ch) a (t_kind t)
| left_later : forall kd op pre a mid t post, In kd [KTernary; KInfix] -> isTrivia (t_kind t) = false ->
    Forall (fun u => isTriviaButNotToplevelNewline (t_kind u) = true) mid -> left_operand (Op kd op (pre ++ a :: map Tok mid ++ Tok t :: post)) a (t_kind t)
| left_error : forall e ch a t r, parts ch = a :: Tok t :: r -> left_operand (SynErr e ch) a (t_kind t)
| left_call : forall l h m op ch, parts l = [h] -> left_operand (Call (Concrete l) m op ch) h TK_OpenSquare.

Definition span_node (n : cst) : Prop := exists ch, n = Op KBinary BOP_Span ch \/ n = Op KTernary TOP_Span ch.
(** A multiplication without a sign may follow where a sign could not: before a differential
    after an integral, and before [;;] after a span. *)
Definition implicit_exception (a : cst) (k : Z) (q : Z) : Prop :=
  k = TK_Fake_ImplicitTimes /\ (q = PREC_CLASS_INTEGRATIONOPERATORS \/ span_node a).

(** The operand to the left of an operator could not have gone on with it. *)
Definition left_ok (n : cst) : Prop := forall a k p q, left_operand n a k -> joining_precedence k = Some p -> open_at_end a q ->
  ends_operand q p \/ implicit_exception a k q.

(** All nodes of a tree have their shape.  The children of an unterminated group may have
    been replaced by the repair, from children that had. *)
Inductive shaped (repair : Z -> list cst -> res (list cst)) : cst -> Prop :=
| shaped_node : forall n, node_ok n -> left_ok n -> Forall (shaped repair) (children n) -> shaped repair n
| shaped_repaired : forall op ch ch', unclosed_group op ch -> Forall (shaped repair) ch -> repair op ch = Ok ch' ->
    shaped repair (Op KGroupMissingCloser op ch')
| shaped_repaired_call : forall l h op op' ch ch', parts l = [h] -> operand h = true -> open_ended h = false ->
    try_to_call_operator op = Ok op' -> Forall (shaped repair) l ->
    unclosed_group op ch -> Forall (shaped repair) ch -> repair op ch = Ok ch' -> left_ok (Call (Concrete l) true op' ch') ->
    shaped repair (Call (Concrete l) true op' ch').

(** ** Repaired groups *)

(** [n'] is [n], except that the children of some groups that lack their closer have been
    replaced by what the repair makes of them. *)
Inductive mended (repair : Z -> list cst -> res (list cst)) : cst -> cst -> Prop :=
| mended_token : forall t, mended repair (Tok t) (Tok t)
| mended_op : forall k op ch ch', Forall2 (mended repair) ch ch' -> mended repair (Op k op ch) (Op k op ch')
| mended_error : forall e ch ch', Forall2 (mended repair) ch ch' -> mended repair (SynErr e ch) (SynErr e ch')
| mended_call : forall l l' m op ch ch', Forall2 (mended repair) l l' -> Forall2 (mended repair) ch ch' ->
    mended repair (Call (Concrete l) m op ch) (Call (Concrete l') m op ch')
| mended_group : forall op ch ch' fixed, Forall2 (mended repair) ch ch' -> repair op ch' = Ok fixed ->
    mended repair (Op KGroupMissingCloser op ch) (Op KGroupMissingCloser op fixed)
| mended_group_call : forall l l' op op' ch ch' fixed, Forall2 (mended repair) l l' -> Forall2 (mended repair) ch ch' ->
    try_to_call_operator op = Ok op' -> repair op ch' = Ok fixed ->
    mended repair (Call (Concrete l) true op' ch) (Call (Concrete l') true op' fixed).
