(** Specification of expressions as trees of operators, of the tokens that spell them, and of the
    text that spells the tokens.  Nothing here depends on the parser: only the tables that say
    which token is which operator and how tightly it binds are taken from it. *)
From Coq Require Import String ZArith List Bool.
From Verif Require Import Base GenTokenKind TokenKind GenLongNames LongNames SpecText SpecReader SpecTokenizer SpecLex
  Tokenizer GenPrec GenOps GenParselets Parselets Cst Parser SpecParser.
Import ListNotations.
Local Open Scope Z_scope.

(** ** Expressions *)

(** the kind and the text of a token *)
Definition word := (Z * list Z)%type.

Inductive expr :=
| Leaf (w : word)                                        (* a name, a number, a string *)
| Prefix (op : word) (a : expr)                          (* -a *)
| Postfix (a : expr) (op : word)                         (* a! *)
| Binary (a : expr) (op : word) (b : expr)               (* a -> b *)
| Infix (a : expr) (r : tail)                            (* a + b - c *)
| Group (opener : word) (b : body) (closer : word)       (* {a, b} *)
| Apply (h : expr) (opener : word) (b : body) (closer : word)  (* h[a, b] *)
(** the operators of a chain and their right operands *)
with tail :=
| Last (op : word) (b : expr)
| Then (op : word) (b : expr) (r : tail)
(** what stands between brackets *)
with body :=
| Empty
| Single (a : expr)
| Several (a : expr) (r : tail).                         (* the operators are commas *)

(** A product may be written without an operator. *)
Definition implicit_times : word := (TK_Fake_ImplicitTimes, []).
Definition written (op : word) : list word := if fst op =? TK_Fake_ImplicitTimes then [] else [op].

(** the tokens that spell an expression *)
Fixpoint words (e : expr) : list word :=
  match e with
  | Leaf w => [w]
  | Prefix op a => op :: words a
  | Postfix a op => words a ++ [op]
  | Binary a op b => words a ++ op :: words b
  | Infix a r => words a ++ tail_words r
  | Group opener b closer => opener :: body_words b ++ [closer]
  | Apply h opener b closer => words h ++ opener :: body_words b ++ [closer]
  end
with tail_words (r : tail) : list word :=
  match r with
  | Last op b => written op ++ words b
  | Then op b r => written op ++ words b ++ tail_words r
  end
with body_words (b : body) : list word :=
  match b with
  | Empty => []
  | Single a => words a
  | Several a r => words a ++ tail_words r
  end.

(** ** Operators: precedence and name *)
Definition as_prefix (k : Z) : option (Z * Z) := match prefix_of k with PP_PrefixOperator p op => Some (p, op) | _ => None end.
Definition as_postfix (k : Z) : option (Z * Z) := match infix_of k with IP_PostfixOperator p op => Some (p, op) | _ => None end.
Definition as_binary (k : Z) : option (Z * Z) :=
  match infix_of k with
  | IP_BinaryOperator p op => Some (p, op)
  | IP_Equal => Some (PREC_EQUAL, BOP_Set)
  | IP_ColonEqual => Some (PREC_COLONEQUAL, BOP_SetDelayed)
  | _ => None
  end.
Definition as_infix (k : Z) : option (Z * Z) :=
  match infix_of k with
  | IP_InfixOperator p op => Some (p, op)
  | IP_Times => Some (PREC_STAR, IOP_Times)
  | _ => None
  end.
Definition comma (w : word) : Prop := fst w = TK_Comma.

(** the first operator of a chain *)
Definition head_word (r : tail) : word := match r with Last op _ | Then op _ _ => op end.

(** the kind of the token an expression begins with *)
Fixpoint first_kind (e : expr) : Z :=
  match e with
  | Leaf w | Prefix w _ | Group w _ _ => fst w
  | Postfix a _ | Binary a _ _ | Infix a _ | Apply a _ _ _ => first_kind a
  end.

(** ** Which operands need no brackets *)

(** Behind an operator of precedence [p], [e] belongs to it as a whole: none of the operators that
    have [e], or a left end of it, to their left would rather end the operand. *)
Fixpoint begins (p : Z) (e : expr) : Prop :=
  let takes (op : option (Z * Z)) a := (forall q o, op = Some (q, o) -> ~ ends_operand p q) /\ begins p a in
  match e with
  | Leaf _ | Prefix _ _ | Group _ _ _ => True
  | Postfix a op => takes (as_postfix (fst op)) a
  | Binary a op _ => takes (as_binary (fst op)) a
  | Infix a r => takes (as_infix (fst (head_word r))) a
  | Apply h _ _ _ => ~ ends_operand p PREC_CALL /\ begins p h
  end.

(** A token of kind [k] does not go on with an operand of an operator of precedence [p]. *)
Definition stops (p k : Z) : Prop := forall q, joining_precedence k = Some q -> ends_operand p q.

(** In front of a token of kind [k], [e] ends as a whole: the token goes on neither with a right
    end of [e] nor with a chain there. *)
Fixpoint ends (e : expr) (k : Z) : Prop :=
  match e with
  | Leaf _ | Postfix _ _ | Group _ _ _ | Apply _ _ _ _ => True
  | Prefix op a => (forall p o, as_prefix (fst op) = Some (p, o) -> stops p k) /\ ends a k
  | Binary _ op b => (forall p o, as_binary (fst op) = Some (p, o) -> stops p k) /\ ends b k
  | Infix _ r => (forall p o, as_infix (fst (head_word r)) = Some (p, o) -> stops p k /\ forall q, as_infix k <> Some (q, o)) /\ tail_ends r k
  end
with tail_ends (r : tail) (k : Z) : Prop :=
  match r with Last _ b => ends b k | Then _ _ r => tail_ends r k end.

(** [op] may stand in a chain of the operator [o], in front of [b]. *)
Definition joins (o : Z) (op : word) (b : expr) : Prop :=
  (exists q, as_infix (fst op) = Some (q, o)) /\
  (fst op = TK_Fake_ImplicitTimes -> op = implicit_times /\ infix_of (first_kind b) = IP_InfixImplicitTimes).

(** An expression whose operators have the right number of operands, and brackets wherever
    the precedence of the operators requires them. *)
Definition bracketed (opener closer : word) : Prop := GroupOpenerToCloser (fst opener) = Ok (TokenToCloser (fst closer)).
Fixpoint proper (e : expr) : Prop :=
  match e with
  | Leaf w => prefix_of (fst w) = PP_Leaf \/ prefix_of (fst w) = PP_Symbol
  | Prefix op a => exists p o, as_prefix (fst op) = Some (p, o) /\ begins p a /\ proper a
  | Postfix a op => exists p o, as_postfix (fst op) = Some (p, o) /\ proper a /\ ends a (fst op)
  | Binary a op b => exists p o, as_binary (fst op) = Some (p, o) /\ proper a /\ ends a (fst op) /\ begins p b /\ proper b
  | Infix a r => exists p o, as_infix (fst (head_word r)) = Some (p, o) /\ proper a /\ ends a (fst (head_word r)) /\ proper_tail p o r
  | Group opener b closer => (exists u o, prefix_of (fst opener) = PP_Group u o) /\ bracketed opener closer /\ proper_body b
  | Apply h opener b closer => (exists u o, infix_of (fst opener) = IP_Call u o) /\ bracketed opener closer /\ proper h /\ ends h (fst opener) /\ proper_body b
  end
(** the rest of a chain of the operator [o], the first with precedence [p] *)
with proper_tail (p o : Z) (r : tail) : Prop :=
  match r with
  | Last op b => joins o op b /\ begins p b /\ proper b
  | Then op b r => joins o op b /\ begins p b /\ proper b /\ ends b (fst (head_word r)) /\ stops p (fst (head_word r)) /\ proper_tail p o r
  end
with proper_body (b : body) : Prop :=
  match b with
  | Empty => True
  | Single a => proper a
  | Several a r => proper a /\ proper_list r
  end
with proper_list (r : tail) : Prop :=
  match r with
  | Last op b => comma op /\ proper b
  | Then op b r => comma op /\ proper b /\ proper_list r
  end.

(** ** Brackets everywhere *)

(** The operators have the right number of operands; nothing is said of brackets. *)
Fixpoint formed (e : expr) : Prop :=
  match e with
  | Leaf w => prefix_of (fst w) = PP_Leaf \/ prefix_of (fst w) = PP_Symbol
  | Prefix op a => (exists p o, as_prefix (fst op) = Some (p, o)) /\ formed a
  | Postfix a op => (exists p o, as_postfix (fst op) = Some (p, o)) /\ formed a
  | Binary a op b => (exists p o, as_binary (fst op) = Some (p, o)) /\ formed a /\ formed b
  | Infix a r => (exists p o, formed_tail p o r) /\ formed a
  | Group opener b closer => (exists u o, prefix_of (fst opener) = PP_Group u o) /\ bracketed opener closer /\ formed_body b
  | Apply h opener b closer => (exists u o, infix_of (fst opener) = IP_Call u o) /\ bracketed opener closer /\ formed h /\ formed_body b
  end
(** the operators of a chain have one precedence and one name *)
with formed_tail (p o : Z) (r : tail) : Prop :=
  match r with
  | Last op b => as_infix (fst op) = Some (p, o) /\ (fst op = TK_Fake_ImplicitTimes -> op = implicit_times) /\ formed b
  | Then op b r => as_infix (fst op) = Some (p, o) /\ (fst op = TK_Fake_ImplicitTimes -> op = implicit_times) /\ formed b /\ formed_tail p o r
  end
with formed_body (b : body) : Prop :=
  match b with
  | Empty => True
  | Single a => formed a
  | Several a r => formed a /\ formed_list r
  end
with formed_list (r : tail) : Prop :=
  match r with
  | Last op b => comma op /\ formed b
  | Then op b r => comma op /\ formed b /\ formed_list r
  end.

(** every operand in parentheses *)
Definition paren (a : expr) : expr := Group (TK_OpenParen, [40]) (Single a) (TK_CloseParen, [41]).
Fixpoint guarded (e : expr) : expr :=
  match e with
  | Leaf w => Leaf w
  | Prefix op a => Prefix op (paren (guarded a))
  | Postfix a op => Postfix (paren (guarded a)) op
  | Binary a op b => Binary (paren (guarded a)) op (paren (guarded b))
  | Infix a r => Infix (paren (guarded a)) (guarded_tail r)
  | Group opener b closer => Group opener (guarded_body b) closer
  | Apply h opener b closer => Apply (paren (guarded h)) opener (guarded_body b) closer
  end
with guarded_tail (r : tail) : tail :=
  match r with
  | Last op b => Last op (paren (guarded b))
  | Then op b r => Then op (paren (guarded b)) (guarded_tail r)
  end
with guarded_body (b : body) : body :=
  match b with
  | Empty => Empty
  | Single a => Single (guarded a)
  | Several a r => Several (guarded a) (guarded_tail r)
  end.

(** the expression without its parentheses *)
Fixpoint bare (e : expr) : expr :=
  match e with
  | Leaf w => Leaf w
  | Prefix op a => Prefix op (bare a)
  | Postfix a op => Postfix (bare a) op
  | Binary a op b => Binary (bare a) op (bare b)
  | Infix a r => Infix (bare a) (bare_tail r)
  | Group opener b closer =>
      match b with
      | Single a => if fst opener =? TK_OpenParen then bare a else Group opener (Single (bare a)) closer
      | _ => Group opener (bare_body b) closer
      end
  | Apply h opener b closer => Apply (bare h) opener (bare_body b) closer
  end
with bare_tail (r : tail) : tail :=
  match r with
  | Last op b => Last op (bare b)
  | Then op b r => Then op (bare b) (bare_tail r)
  end
with bare_body (b : body) : body :=
  match b with
  | Empty => Empty
  | Single a => Single (bare a)
  | Several a r => Several (bare a) (bare_tail r)
  end.

(** ** Text *)
(** [gap lines t r]: the text [t] begins with blanks and comments, and line breaks if [lines],
    and then comes [r]. *)
Inductive gap (lines : bool) : list Z -> list Z -> Prop :=
| gap_none : forall r, gap lines r r
| gap_blank : forall b t r, b = 32 \/ b = 9 -> gap lines t r -> gap lines (b :: t) r
| gap_comment : forall c t r, after_comment 1 c = Some t -> gap lines t r -> gap lines (40 :: 42 :: c) r
| gap_line : forall w t r, lines = true -> line_break w t -> gap lines t r -> gap lines (w ++ t) r.

(** [lexeme k w e]: in front of the text [e], [w] spells a token of kind [k]. *)
Inductive lexeme : Z -> list Z -> list Z -> Prop :=
| lex_name : forall w e, symbol w -> ends_name e -> lexeme TK_Symbol w e
| lex_number : forall k w e, number w k -> after_number w e -> lexeme k w e
| lex_string : forall w e, after_string (w ++ e) = Some e -> lexeme TK_String (34 :: w) e
| lex_operator : forall k w e, longest_operator w k e -> k <> TK_Whitespace -> ~ In 92 (firstn 4 (w ++ e)) -> lexeme k w e
| lex_character : forall k s name p w e, In (name, p) LN_TABLE -> In (k, s) KINDS -> bytes_of_string s = bytes_of_string "LongName_" ++ name ->
    spelling p w -> lexeme k w e.

(** the number of open brackets behind a token of kind [k] *)
Definition behind (d : nat) (k : Z) : nat :=
  match GroupOpenerToCloser k with Ok _ => S d | _ => if TokenToCloser k =? Closer_AssertFalse then d else Nat.pred d end.

(** tokens that ask for more: operators that have an operand behind them, wherever they stand *)
Definition wants (k : Z) : bool :=
  match infix_of k with
  | IP_BinaryOperator _ _ | IP_InfixOperator _ _ | IP_Times | IP_Equal | IP_ColonEqual => true
  | IP_PostfixOperator _ _ => false
  | _ => match prefix_of k with PP_PrefixOperator _ _ => true | _ => false end
  end.

(** The text spells the tokens, inside [d] brackets: between the tokens there are blanks and
    comments.  There may also be line breaks inside brackets, at the end, behind tokens that ask
    for more, and if [free] in front of the first token.  Other line breaks are in the list,
    as the word [line]. *)
Definition line : word := (TK_ToplevelNewline, []).
Inductive spells : nat -> bool -> list word -> list Z -> Prop :=
| spells_nil : forall d free t, gap true t [] -> spells d free [] t
| spells_cons : forall d free k w e l t, gap (free || (0 <? d)%nat) t (w ++ e) -> lexeme k w e -> spells (behind d k) (wants k) l e -> spells d free ((k, w) :: l) t
| spells_line : forall free w e l t, gap free t (w ++ e) -> line_break w e -> spells 0 true l e -> spells 0 free (line :: l) t.

(** ** Several expressions, one after the other *)
Fixpoint program_words (es : list expr) : list word :=
  match es with
  | [] => []
  | [e] => words e
  | e :: r => words e ++ line :: program_words r
  end.
(** A chain at the right end of [e] goes on in the next line if that begins with an operator of
    the chain.  (The two differential operators, which end integrals, are left out.) *)
Fixpoint apart (e : expr) (k : Z) : Prop :=
  match e with
  | Leaf _ | Postfix _ _ | Group _ _ _ | Apply _ _ _ _ => True
  | Prefix _ a => apart a k
  | Binary _ _ b => apart b k
  | Infix _ r => (forall p o q, as_infix (fst (head_word r)) = Some (p, o) -> as_infix k <> Some (q, o)) /\ tail_apart r k
  end
with tail_apart (r : tail) (k : Z) : Prop :=
  match r with Last _ b => apart b k | Then _ _ r => tail_apart r k end.
Fixpoint proper_program (es : list expr) : Prop :=
  match es with
  | [] => True
  | e :: r => proper e /\ match r with [] => True | e' :: _ => apart e (first_kind e') /\ infix_of (first_kind e') <> IP_InfixDifferentialD end /\ proper_program r
  end.

(** names, numbers, strings, operators, and characters beyond ASCII that stand alone *)
Inductive ordinary : word -> Prop :=
| ord_name : forall w, symbol w -> ordinary (TK_Symbol, w)
| ord_number : forall k w, number w k -> ordinary (k, w)
| ord_string : forall w, after_string w = Some [] -> ordinary (TK_String, 34 :: w)
| ord_operator : forall k w, In (w, k) operators -> k <> TK_Whitespace -> ordinary (k, w)
| ord_character : forall k s name p w, In (name, p) LN_TABLE -> In (k, s) KINDS -> bytes_of_string s = bytes_of_string "LongName_" ++ name ->
    spelling p w -> ordinary (k, w).
(** the words with blanks behind each of them *)
Definition blanks : list Z := [32; 32; 32; 32].
Definition print (l : list word) : list Z := concat (map (fun w : word => snd w ++ blanks) l).
(** one expression in each line *)
Definition print_program (es : list expr) : list Z := concat (map (fun e => print (words e) ++ [10]) es).

(** ** Trees *)

(** The tree shows the expression: it has its nodes, operators and tokens, and besides only
    white space. *)
Definition is_word (w : word) (n : cst) : Prop := exists t, n = Tok t /\ (t_kind t, t_text t) = w.
Fixpoint shows (e : expr) (n : cst) : Prop :=
  match e with
  | Leaf w => is_word w n
  | Prefix op a => exists p o ch t m, as_prefix (fst op) = Some (p, o) /\ n = Op KPrefix o ch /\ parts ch = [t; m] /\ is_word op t /\ shows a m
  | Postfix a op => exists p o ch t m, as_postfix (fst op) = Some (p, o) /\ n = Op KPostfix o ch /\ parts ch = [m; t] /\ is_word op t /\ shows a m
  | Binary a op b => exists p o ch l t r, as_binary (fst op) = Some (p, o) /\ n = Op KBinary o ch /\ parts ch = [l; t; r] /\ shows a l /\ is_word op t /\ shows b r
  | Infix a r => exists p o ch m l, as_infix (fst (head_word r)) = Some (p, o) /\ n = Op KInfix o ch /\ parts ch = m :: l /\ shows a m /\ shows_tail r l
  | Group opener b closer => exists u o ch t l v, prefix_of (fst opener) = PP_Group u o /\ n = Op KGroup o ch /\ parts ch = t :: l ++ [v] /\
      is_word opener t /\ shows_body b l /\ is_word closer v
  | Apply h opener b closer => exists u o o' hd ch m t l v, infix_of (fst opener) = IP_Call u o /\ try_to_call_operator o = Ok o' /\
      n = Call (Concrete hd) false o' ch /\ parts hd = [m] /\ shows h m /\ parts ch = t :: l ++ [v] /\ is_word opener t /\ shows_body b l /\ is_word closer v
  end
with shows_tail (r : tail) (l : list cst) : Prop :=
  match r with
  | Last op b => exists t m, l = [t; m] /\ is_word op t /\ shows b m
  | Then op b r => exists t m l', l = t :: m :: l' /\ is_word op t /\ shows b m /\ shows_tail r l'
  end
with shows_body (b : body) (l : list cst) : Prop :=
  match b with
  | Empty => l = []
  | Single a => exists n, l = [n] /\ shows a n
  | Several a r => exists ch m l', l = [Op KInfix IOP_CodeParser_Comma ch] /\ parts ch = m :: l' /\ shows a m /\ shows_tail r l'
  end.
