(** The parser session and the concrete-syntax builder: parse.rs, parse_cst.rs,
    parse/parselet.rs and parse/parselet/*.rs.

    Simplifications.  The builder is always [ParseCst], whose node and trivia handles are
    [()], so they are not passed around.  The operator kept in [InfixParseCst] and
    [InfixParseGroup] is an argument of the loops.  [panic_if_aborted!] is not modelled (nothing
    aborts).  Functions that call each other without end in sight ([parse_prefix],
    [parse_infix], [parse_climb] and the loops of the parselets) are requests of type [call],
    answered by [run] with a bound on the nesting of requests.  The finished nodes are the
    result of [do_parse] instead of a field of the builder.
    [dbg] says whether debug assertions are compiled in.  [repair] is
    [reparse_unterminated_group_node] applied to the input (see ErrorReparse). *)
From Coq Require Import ZArith List Bool.
From Verif Require Import Base Source GenTokenKind GenPrec GenOps GenParselets TokenKind Parselets Tokenizer Cst.
Import ListNotations.
Local Open Scope Z_scope.

(** parse.rs 940-951 [Context] with parse_cst.rs 34-38; a precedence of 0 is [None] *)
Record ctx := mkctx { c_prec : Z; c_start : nat }.

(** parse.rs 954-975 [ParserSession]; [groups] is the [GroupStack] of the tokenizer (top first),
    [ctxs] the context stack (top first), [stack] the node stack of parse_cst.rs 27-31 (as in
    the code the top is last). *)
Record pst := mkp { tz : st; stack : list cst; ctxs : list ctx; groups : list Z }.

Definition P (A : Type) := pst -> res (A * pst).
Definition pret {A} (a : A) : P A := fun s => Ok (a, s).
Definition pbind {A B} (m : P A) (f : A -> P B) : P B :=
  fun s => match m s with Ok (a, s') => f a s' | Panic => Panic | OutOfFuel => OutOfFuel end.
Definition ppanic {A} : P A := fun _ => Panic.
Definition pout {A} : P A := fun _ => OutOfFuel.
Definition plift {A} (r : res A) : P A :=
  fun s => match r with Ok a => Ok (a, s) | Panic => Panic | OutOfFuel => OutOfFuel end.
(** an operation of the tokenizer *)
Definition tk {A} (m : M A) : P A :=
  fun s => match m (tz s) with
           | Ok (a, t) => Ok (a, mkp t (stack s) (ctxs s) (groups s))
           | Panic => Panic
           | OutOfFuel => OutOfFuel
           end.

Declare Scope parser_scope.
Delimit Scope parser_scope with parser.
Notation "x <- m ;; k" := (pbind m (fun x => k)) (at level 61, m at next level, right associativity) : parser_scope.
Notation "m ;; k" := (pbind m (fun _ => k)) (at level 61, right associativity) : parser_scope.
Notation "' x <- m ;; k" := (pbind m (fun x => k)) (at level 61, x pattern, m at next level, right associativity) : parser_scope.
Local Open Scope parser_scope.

Definition passert (b : bool) : P unit := if b then pret tt else ppanic.

(** What the rest of the parser is asked to do. *)
Inductive call :=
| CPrefix (t : token)              (* ParserSession::parse_prefix *)
| CInfix (t : token)               (* ParserSession::parse_infix *)
| CClimb                           (* ParserSession::parse_climb *)
| CGroupLoop (op closer : Z)       (* the loop of GroupParselet::parse_prefix *)
| CInfixLoop (op : Z)              (* InfixOperatorParselet::parse_loop *)
| CTimesLoop | CCommaLoop | CSemiLoop | CColonColonLoop.

(** token.rs 342-373 [Token::at]; 351-362 are the kinds of length zero *)
Definition len_zero (k : Z) : bool :=
  zin k [TK_Fake_ImplicitOne; TK_Fake_ImplicitAll; TK_Fake_ImplicitTimes; TK_Fake_ImplicitNull;
         TK_Error_InfixImplicitNull; TK_Error_ExpectedOperand; TK_Error_PrefixImplicitNull].
Definition tok_at (k : Z) (t : token) : token :=
  mktok k (t_start t) (if len_zero k then [] else t_text t) (t_src t).
(** token.rs 328-336 [Token::at_start] *)
Definition tok_at_start (k : Z) (t : token) : token :=
  tok_at k (mktok (t_kind t) (t_start t) (t_text t) (mkspan (sp_start (t_src t)) (sp_start (t_src t)))).

(** parse_cst.rs 111-165: the tables of parselets *)
Definition prefix_of (k : Z) : prefix_parselet :=
  match assoc k PREFIX_PARSELETS with Some p => p | None => PP_PrefixUnhandled end.
Definition infix_of (k : Z) : infix_parselet :=
  match assoc k INFIX_PARSELETS with Some p => p | None => IP_InfixImplicitTimes end.

(** parselet.rs 66-71 [getOp]; the family and the operator *)
Definition get_op (p : infix_parselet) : opkind * Z :=
  match p with
  | IP_BinaryOperator _ op => (KBinary, op)
  | IP_InfixOperator _ op => (KInfix, op)
  | IP_PostfixOperator _ op => (KPostfix, op)
  | IP_Times => (KInfix, IOP_Times)
  | _ => (KInfix, IOP_CodeParser_InternalInvalid)
  end.
Definition is_infix_op (op : Z) (p : infix_parselet) : bool :=
  match get_op p with (KInfix, op') => op' =? op | _ => false end.

Section Parser.
Variable o : opts.
Variable dbg : bool.
Variable repair : Z -> list cst -> res (list cst).
Variable rec : call -> P unit.

Definition pdebug_assert (b : bool) : P unit := if dbg then passert b else pret tt.

(** ** Tokens *)

Definition inside_group (s : pst) : bool := match groups s with [] => false | _ => true end.
(** tokenizer.rs 290-321 *)
Definition ppeek_with (pol : policy) : P token := fun s => tk (peek_token_with o (inside_group s) pol) s.
Definition ppeek : P token := ppeek_with TOPLEVEL.
Definition ppeek_as_tag : P token := tk (peek_token_as_tag o).
Definition ppeek_as_file : P token := tk (peek_token_as_file o).
Definition pskip (t : token) : P unit := tk (skip t).
Definition preset (t : token) : P unit := tk (reset t).

(** the loops of parse.rs 1162-1241 *)
Fixpoint trivia_loop (fuel : nat) (get : P token) (trivia : Z -> bool) : P (list token * token) :=
  match fuel with
  | O => pout
  | S k =>
      t <- get ;;
      if trivia (t_kind t) then
        pskip t ;;
        ' (l, u) <- trivia_loop k get trivia ;;
        pret (t :: l, u)
      else pret ([], t)
  end.
(** a loop bounded by the number of bytes left, each iteration taking at least one *)
Definition pwith_fuel {A} (m : nat -> P A) : P A := fun s => m (S (length (rest (cur (tz s))))) s.

(** parse.rs 1162-1182 *)
Definition current_token : P (list token * token) :=
  ' (l, t) <- pwith_fuel (fun k => trivia_loop k ppeek isTrivia) ;;
  pdebug_assert (negb (isTrivia (t_kind t))) ;;
  pret (l, t).
(** parse.rs 1222-1241 *)
Definition current_token_not_newline : P (list token * token) :=
  pwith_fuel (fun k => trivia_loop k ppeek isTriviaButNotToplevelNewline).

(** ** The node stack *)

(** parse_cst.rs 802-804 *)
Definition push_node (n : cst) : P unit := fun s => Ok (tt, mkp (tz s) (stack s ++ [n]) (ctxs s) (groups s)).
(** parse_cst.rs 806-808 *)
Definition pop_node : P cst := fun s =>
  match rev (stack s) with
  | [] => Panic
  | n :: r => Ok (n, mkp (tz s) (rev r) (ctxs s) (groups s))
  end.
(** parse_cst.rs 96-106 *)
Definition push_trivia (l : list token) : P unit :=
  fun s => Ok (tt, mkp (tz s) (stack s ++ map Tok l) (ctxs s) (groups s)).
(** parse.rs 1126-1133 with parse_cst.rs 89-94 *)
Definition trivia_reset (l : list token) : P unit :=
  match l with [] => pret tt | t :: _ => preset t end.

(** parse_cst.rs 218-228, parse.rs 1075-1122 *)
Definition push_leaf (t : token) : P unit := pdebug_assert (negb (isTrivia (t_kind t))) ;; push_node (Tok t).
Definition push_syntax (t : token) : P unit := pdebug_assert (negb (isTrivia (t_kind t))) ;; push_node (Tok t).
Definition push_leaf_and_next (t : token) : P unit := push_leaf t ;; pskip t.
Definition push_syntax_and_next (t : token) : P unit := push_syntax t ;; pskip t.
Definition commit_syntax_and_next (l : list token) (t : token) : P unit := push_trivia l ;; push_syntax_and_next t.
Definition push_and_climb (t : token) : P unit := push_leaf t ;; rec CClimb.

(** parse.rs 1144-1153, 1210-1220, 1184-1208: read and commit the trivia *)
Definition eat_trivia : P token := ' (l, t) <- current_token ;; push_trivia l ;; pret t.
Definition eat_trivia_not_newline : P token := ' (l, t) <- current_token_not_newline ;; push_trivia l ;; pret t.
Definition eat_trivia_as_file : P token :=
  ' (l, t) <- pwith_fuel (fun k => trivia_loop k ppeek_as_file isTrivia) ;;
  pdebug_assert (negb (isTrivia (t_kind t))) ;;
  push_trivia l ;; pret t.

(** ** Contexts and groups *)

(** parse.rs 1528-1539 with parse_cst.rs 195-203 (an empty stack: the debug assertion, or the
    underflow of [len - 1], which would make the next drain panic) *)
Definition push_context (prec : Z) : P unit := fun s =>
  match stack s with
  | [] => Panic
  | _ => Ok (tt, mkp (tz s) (stack s) (mkctx prec (length (stack s) - 1) :: ctxs s) (groups s))
  end.
(** [context_stack.pop().unwrap()] *)
Definition pop_context : P nat := fun s =>
  match ctxs s with
  | [] => Panic
  | c :: r => Ok (c_start c, mkp (tz s) (stack s) r (groups s))
  end.
(** parse.rs 1552-1557 *)
Definition top_prec (s : pst) : Z := match ctxs s with [] => 0 | c :: _ => c_prec c end.
(** parse.rs 1541-1546, 1559-1566 *)
Definition set_prec (prec : Z) : P unit := fun s =>
  match ctxs s with
  | [] => Panic
  | c :: r => Ok (tt, mkp (tz s) (stack s) (mkctx prec (c_start c) :: r) (groups s))
  end.
(** parse.rs 1572-1590 *)
Definition push_group (c : Z) : P unit := fun s => Ok (tt, mkp (tz s) (stack s) (ctxs s) (c :: groups s)).
Definition pop_group : P unit := fun s =>
  match groups s with
  | [] => Panic
  | _ :: r => Ok (tt, mkp (tz s) (stack s) (ctxs s) r)
  end.
Definition check_group (c : Z) (s : pst) : bool := existsb (Z.eqb c) (groups s).
(** parse.rs 1596-1617 *)
Fixpoint check_pattern_precedence (l : list ctx) : bool :=
  match l with
  | [] => false
  | c :: r =>
      if c_prec c =? 0 then false
      else if PREC_FAKE_PATTERNCOLON <? c_prec c then check_pattern_precedence r
      else if c_prec c <? PREC_FAKE_PATTERNCOLON then false
      else true
  end.

(** ** Reductions *)

(** parse_cst.rs 817-823: [drain(start_index..)] *)
Definition reduce : P (list cst) :=
  start <- pop_context ;;
  fun s => if (length (stack s) <? start)%nat then Panic
           else Ok (skipn start (stack s), mkp (tz s) (firstn start (stack s)) (ctxs s) (groups s)).

(** parse.rs 1247-1425 and parse_cst.rs 303-492, 580-612: each pops the context, drains the
    nodes of the context and pushes one node of them; cst.rs 480-484 and 803-805 assert that
    there is at least one *)
Definition reduce_op (k : opkind) (op : Z) : P unit :=
  ch <- reduce ;; passert (negb (Nat.eqb (length ch) 0)) ;; push_node (Op k op ch).
Definition reduce_syntax_error (e : syntax_error) : P unit :=
  ch <- reduce ;; passert (negb (Nat.eqb (length ch) 0)) ;; push_node (SynErr e ch).

(** parse.rs 1427-1445, 1500-1511; parse_cst.rs 516-529, 634-645 *)
Definition reduce_group_as (k : opkind) (op : Z) : P unit :=
  start <- pop_context ;; pop_group ;;
  fun s => if (length (stack s) <? start)%nat then Panic
           else let ch := skipn start (stack s) in
                (passert (negb (Nat.eqb (length ch) 0)) ;; push_node (Op k op ch))
                  (mkp (tz s) (firstn start (stack s)) (ctxs s) (groups s)).
Definition reduce_group := reduce_group_as KGroup.
Definition reduce_group_missing_closer := reduce_group_as KGroupMissingCloser.

(** parse.rs 1471-1498; parse_cst.rs 614-632 *)
Definition reduce_unterminated_group (op : Z) : P unit :=
  start <- pop_context ;; pop_group ;;
  fun s => if (length (stack s) <? start)%nat then Panic
           else (ch <- plift (repair op (skipn start (stack s))) ;; push_node (Op KGroupMissingCloser op ch))
                  (mkp (tz s) (firstn start (stack s)) (ctxs s) (groups s)).

(** parse.rs 1447-1456; parse_cst.rs 531-574 (which pops the body after the context) *)
Definition reduce_call : P unit :=
  start <- pop_context ;;
  body <- pop_node ;;
  fun s => if (length (stack s) <? start)%nat then Panic
           else
             let head := skipn start (stack s) in
             (match body with
              | Op KGroup op ch => op' <- plift (try_to_call_operator op) ;; push_node (Call (Concrete head) false op' ch)
              | Op KGroupMissingCloser op ch => op' <- plift (try_to_call_operator op) ;; push_node (Call (Concrete head) true op' ch)
              | _ => ppanic
              end) (mkp (tz s) (firstn start (stack s)) (ctxs s) (groups s)).

(** ** Looking at the node stack *)

Definition is_trivia_node (n : cst) : bool := match n with Tok t => isTrivia (t_kind t) | _ => false end.
(** parse_cst.rs 674-684, 765-775 *)
Definition top_node (s : pst) : option cst := find (fun n => negb (is_trivia_node n)) (rev (stack s)).

(** parse.rs 934-938 *)
Inductive colon_lhs := ColonPattern | ColonOptional | ColonError.

(** parse_cst.rs 671-760 *)
Definition check_colon_lhs : P colon_lhs := fun s =>
  match top_node s with
  | None => Panic
  | Some (Op KBinary op _) => Ok (if op =? BOP_Pattern then ColonOptional else ColonError, s)
  | Some (Op KCompound op _) =>
      Ok (if zin op [COP_CodeParser_PatternBlank; COP_CodeParser_PatternBlankSequence;
                     COP_CodeParser_PatternBlankNullSequence; COP_Blank; COP_BlankSequence; COP_BlankNullSequence]
          then ColonOptional else ColonError, s)
  | Some (Tok t) =>
      let k := t_kind t in
      if k =? TK_Symbol then Ok (ColonPattern, s)
      else if zin k [TK_Under; TK_UnderUnder; TK_UnderUnderUnder] then Ok (ColonOptional, s)
      else if k =? TK_Colon then Panic
      else Ok (if isError k then ColonPattern else ColonError, s)
  | Some _ => Ok (ColonError, s)
  end.

(** parse_cst.rs 762-798.  The debug assertion there, that the node found is not trivia,
    holds by the way it is found. *)
Definition top_node_is_span : P bool := fun s =>
  match top_node s with
  | None => Panic
  | Some (Op KBinary op _) => Ok (op =? BOP_Span, s)
  | Some (Op KTernary op _) => Ok (op =? TOP_Span, s)
  | Some _ => Ok (false, s)
  end.

(** ** Infix parselets: precedence and implicit multiplication *)

(** [getPrecedence] of the infix parselets *)
Definition get_precedence (p : infix_parselet) : P Z := fun s =>
  match p with
  | IP_InfixImplicitTimes => Panic
  | IP_InfixAssertFalse | IP_InfixToplevelNewline => Ok (0, s)
  | IP_InfixDifferentialD =>
      Ok (if top_prec s =? PREC_CLASS_INTEGRATIONOPERATORS then 0 else PREC_FAKE_IMPLICITTIMES, s)
  | IP_BinaryOperator p _ | IP_InfixOperator p _ | IP_PostfixOperator p _ => Ok (p, s)
  | IP_Times => Ok (PREC_STAR, s)
  | IP_Call _ _ => Ok (PREC_CALL, s)
  | IP_Comma => Ok (PREC_COMMA, s)
  | IP_Semi => Ok (PREC_SEMI, s)
  | IP_SemiSemi => Ok (PREC_SEMISEMI, s)
  | IP_Tilde => Ok (PREC_TILDE, s)
  | IP_Colon => Ok (if check_pattern_precedence (ctxs s) then PREC_FAKE_OPTIONALCOLON else PREC_HIGHEST, s)
  | IP_SlashColon => Ok (PREC_SLASHCOLON, s)
  | IP_Equal => Ok (PREC_EQUAL, s)
  | IP_ColonEqual => Ok (PREC_COLONEQUAL, s)
  | IP_ColonColon => Ok (PREC_COLONCOLON, s)
  | IP_GreaterGreater => Ok (PREC_GREATERGREATER, s)
  | IP_GreaterGreaterGreater => Ok (PREC_GREATERGREATERGREATER, s)
  end.

(** parse.rs 1009-1016 and [process_implicit_times] of the infix parselets *)
Definition process_implicit_times (t : token) : P token := fun s =>
  match infix_of (t_kind t) with
  | IP_InfixImplicitTimes => Ok (tok_at_start TK_Fake_ImplicitTimes t, s)
  | IP_InfixDifferentialD =>
      Ok (if top_prec s =? PREC_CLASS_INTEGRATIONOPERATORS then t else tok_at_start TK_Fake_ImplicitTimes t, s)
  | IP_SemiSemi => (b <- top_node_is_span ;; pret (if b then tok_at_start TK_Fake_ImplicitTimes t else t)) s
  | _ => Ok (t, s)
  end.

(** parse.rs 1027-1064 [parse_climb] *)
Definition climb : P unit :=
  ' (l, t) <- current_token_not_newline ;;
  t <- process_implicit_times t ;;
  prec <- get_precedence (infix_of (t_kind t)) ;;
  fun s =>
    (if prec_greater (top_prec s) prec then trivia_reset l
     else push_context prec ;; push_trivia l ;; rec (CInfix t)) s.

(** ** Prefix parselets *)

(** parselet.rs 420-447 *)
Definition prefix_closer (t : token) : P unit :=
  passert (isCloser (t_kind t)) ;;
  fun s =>
    (push_leaf (tok_at_start (if top_prec s =? PREC_COMMA then TK_Error_InfixImplicitNull else TK_Error_ExpectedOperand) t) ;;
     ppeek ;; pret tt) s.
(** parselet.rs 460-477 *)
Definition prefix_toplevel_closer (t : token) : P unit :=
  passert (isCloser (t_kind t)) ;;
  push_leaf (tok_at TK_Error_UnexpectedCloser t) ;; pskip t.
(** parselet.rs 490-508 *)
Definition prefix_end_of_file (t : token) : P unit := fun s =>
  push_leaf (tok_at_start (if top_prec s =? PREC_COMMA then TK_Error_InfixImplicitNull else TK_Error_ExpectedOperand) t) s.
(** parselet.rs 521-532 *)
Definition prefix_unsupported (t : token) : P unit :=
  push_leaf (tok_at TK_Error_UnsupportedToken t) ;; pskip t.
(** parselet.rs 545-565 *)
Definition prefix_comma (t : token) : P unit := fun s =>
  (push_leaf (tok_at_start (if top_prec s =? 0 then TK_Error_PrefixImplicitNull else TK_Error_ExpectedOperand) t) ;;
   rec CClimb) s.
(** parselet.rs 578-626 *)
Definition prefix_unhandled (t : token) : P unit :=
  passert (negb (isPossibleBeginning (t_kind t))) ;;
  push_leaf (tok_at_start TK_Error_ExpectedOperand t) ;;
  ppeek ;;
  prec <- get_precedence (infix_of (t_kind t)) ;;
  fun s =>
    (if prec_greater (top_prec s) prec then pret tt
     else push_context prec ;; rec (CInfix t)) s.

(** under_parselet.rs 57-113 with parse_cst.rs 827-834; [bop] is the operator of the parselet *)
Definition get_under (bop : Z) (t : token) : P cst :=
  pskip t ;;
  u <- ppeek ;;
  if (t_kind u =? TK_Symbol) || (t_kind u =? TK_Error_ExpectedLetterlike) then
    pskip u ;; pret (Op KCompound bop [Tok t; Tok u])
  else pret (Tok t).
(** under_parselet.rs 25-37 with parse_cst.rs 246-250 *)
Definition prefix_under (bop : Z) (t : token) : P unit :=
  n <- get_under bop t ;; push_node n ;; rec CClimb.

(** parselet.rs 659-759 with parse_cst.rs 230-264; parselet.rs 344-356 are the under parselets *)
Definition pattern_blank (bop pbop : Z) (t u : token) : P unit :=
  n <- get_under bop u ;;
  pdebug_assert (t_kind t =? TK_Symbol) ;;
  push_node (Op KCompound pbop [Tok t; n]) ;;
  rec CClimb.
Definition prefix_symbol (t : token) : P unit :=
  pskip t ;;
  u <- ppeek ;;
  if t_kind u =? TK_Under then pattern_blank COP_Blank COP_CodeParser_PatternBlank t u
  else if t_kind u =? TK_UnderUnder then pattern_blank COP_BlankSequence COP_CodeParser_PatternBlankSequence t u
  else if t_kind u =? TK_UnderUnderUnder then pattern_blank COP_BlankNullSequence COP_CodeParser_PatternBlankNullSequence t u
  else if t_kind u =? TK_UnderDot then
    pskip u ;;
    pdebug_assert (t_kind t =? TK_Symbol) ;;
    push_node (Op KCompound COP_CodeParser_PatternOptionalDefault [Tok t; Tok u]) ;;
    rec CClimb
  else push_and_climb t.

(** parselet.rs 779-801 *)
Definition prefix_operator (prec op : Z) (t : token) : P unit :=
  push_syntax_and_next t ;;
  push_context prec ;;
  u <- eat_trivia ;;
  rec (CPrefix u) ;;
  reduce_op KPrefix op ;;
  rec CClimb.

(** parselet.rs 1107-1126: up to the loop *)
Definition prefix_group (opener op : Z) (t : token) : P unit :=
  closer <- plift (GroupOpenerToCloser opener) ;;
  c <- plift (GroupOpenerToCloser (t_kind t)) ;;
  push_group c ;;
  push_syntax_and_next t ;;
  push_context 0 ;;
  rec (CGroupLoop op closer).
(** parselet.rs 1128-1218: one iteration *)
Definition group_loop (op closer : Z) : P unit :=
  ' (l, t) <- current_token ;;
  if TokenToCloser (t_kind t) =? closer then
    commit_syntax_and_next l t ;; reduce_group op ;; rec CClimb
  else if isCloser (t_kind t) then
    fun s =>
      (if check_group (TokenToCloser (t_kind t)) s then
         trivia_reset l ;; reduce_group_missing_closer op
       else push_trivia l ;; prefix_toplevel_closer t ;; rec (CGroupLoop op closer)) s
  else
    push_trivia l ;;
    if t_kind t =? TK_EndOfFile then reduce_unterminated_group op
    else rec (CPrefix t) ;; rec (CGroupLoop op closer).

(** integral_parselet.rs 27-116 *)
Definition is_differential (k : Z) : bool := (k =? TK_LongName_DifferentialD) || (k =? TK_LongName_CapitalDifferentialD).
Definition prefix_integral (op1 op2 : Z) (t : token) : P unit :=
  push_syntax_and_next t ;;
  push_context PREC_CLASS_INTEGRATIONOPERATORS ;;
  u <- eat_trivia ;;
  (if is_differential (t_kind u) then push_leaf (tok_at_start TK_Fake_ImplicitOne u) else rec (CPrefix u)) ;;
  ' (l, v) <- current_token ;;
  if negb (is_differential (t_kind v)) then
    trivia_reset l ;; reduce_op KPrefix op2 ;; rec CClimb
  else
    push_trivia l ;; rec (CPrefix v) ;; reduce_op KPrefixBinary op1 ;; rec CClimb.

(** parselet.rs 2356-2388 *)
Definition prefix_less_less (t : token) : P unit :=
  push_syntax_and_next t ;;
  push_context PREC_HIGHEST ;;
  u <- eat_trivia_as_file ;;
  push_leaf_and_next u ;;
  reduce_op KPrefix PREOP_Get ;;
  rec CClimb.

(** parselet.rs 2395-2513 with parse_cst.rs 266-297 *)
Definition prefix_slot (pol : policy) (args : list Z) (op : Z) (t : token) : P unit :=
  pskip t ;;
  u <- ppeek_with pol ;;
  if zin (t_kind u) args then
    pskip u ;;
    pdebug_assert (zin (t_kind t) [TK_Hash; TK_HashHash; TK_Percent]) ;;
    push_node (Op KCompound op [Tok t; Tok u]) ;;
    rec CClimb
  else push_and_climb t.
Definition prefix_hash := prefix_slot INSIDE_SLOT [TK_Integer; TK_String] COP_Slot.
Definition prefix_hash_hash := prefix_slot INSIDE_SLOTSEQUENCE [TK_Integer] COP_SlotSequence.
Definition prefix_percent := prefix_slot INSIDE_OUT [TK_Integer] COP_Out.

(** ** The span parselet (semi_semi_parselet.rs) *)

(** 347-365, 367-395 *)
Definition span_binary : P unit := reduce_op KBinary BOP_Span ;; rec CClimb.
Definition span_ternary : P unit := reduce_op KTernary TOP_Span ;; rec CClimb.

(** 225-343 *)
Definition span_parse2 : P unit :=
  ' (l3, t3) <- current_token_not_newline ;;
  if negb (isPossibleBeginning (t_kind t3)) || negb (t_kind t3 =? TK_SemiSemi) then
    trivia_reset l3 ;; span_binary
  else
    pskip t3 ;;
    ' (l4, t4) <- current_token_not_newline ;;
    if negb (isPossibleBeginning (t_kind t4)) || (t_kind t4 =? TK_SemiSemi) then
      trivia_reset l4 ;; preset t3 ;; trivia_reset l3 ;; span_binary
    else
      push_trivia l3 ;; push_syntax t3 ;; push_trivia l4 ;; rec (CPrefix t4) ;; span_ternary.
(** 80-223 *)
Definition span_parse1 : P unit :=
  t2 <- eat_trivia_not_newline ;;
  if negb (isPossibleBeginning (t_kind t2)) then
    push_leaf (tok_at_start TK_Fake_ImplicitAll t2) ;; span_binary
  else if negb (t_kind t2 =? TK_SemiSemi) then rec (CPrefix t2) ;; span_parse2
  else
    push_leaf (tok_at_start TK_Fake_ImplicitAll t2) ;;
    pskip t2 ;;
    ' (l4, t3) <- current_token_not_newline ;;
    if negb (isPossibleBeginning (t_kind t3)) || (t_kind t3 =? TK_SemiSemi) then
      trivia_reset l4 ;; preset t2 ;; span_binary
    else
      push_syntax t2 ;; push_trivia l4 ;; rec (CPrefix t3) ;; span_ternary.
(** 13-27 *)
Definition infix_span (t : token) : P unit := push_syntax_and_next t ;; span_parse1.
(** 50-77 *)
Definition prefix_span (t : token) : P unit :=
  pdebug_assert (t_kind t =? TK_SemiSemi) ;;
  push_leaf (tok_at_start TK_Fake_ImplicitOne t) ;;
  push_context PREC_SEMISEMI ;;
  infix_span t.

(** ** Infix parselets *)

(** parselet.rs 899-920, 1713-1735 *)
Definition infix_binary (op : Z) (t : token) : P unit :=
  push_syntax_and_next t ;; u <- eat_trivia ;; rec (CPrefix u) ;; reduce_op KBinary op ;; rec CClimb.

(** parselet.rs 950-978 *)
Definition infix_infix (op : Z) (t : token) : P unit :=
  push_syntax_and_next t ;; u <- eat_trivia ;; rec (CPrefix u) ;; rec (CInfixLoop op).
(** parselet.rs 992-1048: one iteration *)
Definition infix_loop (op : Z) : P unit :=
  ' (l, t) <- current_token ;;
  if negb (is_infix_op op (infix_of (t_kind t))) then
    trivia_reset l ;; reduce_op KInfix op ;; rec CClimb
  else
    commit_syntax_and_next l t ;; u <- eat_trivia ;; rec (CPrefix u) ;; rec (CInfixLoop op).

(** times_parselet.rs 10-38 *)
Definition infix_times (t : token) : P unit :=
  push_syntax_and_next t ;; u <- eat_trivia ;; rec (CPrefix u) ;; rec CTimesLoop.
(** times_parselet.rs 53-120: one iteration *)
Definition times_loop : P unit :=
  ' (l, t) <- current_token ;;
  t <- process_implicit_times t ;;
  ' (l, t) <-
    (if t_kind t =? TK_Fake_ImplicitTimes then
       trivia_reset l ;;
       ' (l, t) <- current_token_not_newline ;;
       t <- process_implicit_times t ;;
       pret (l, t)
     else pret (l, t)) ;;
  if negb (is_infix_op IOP_Times (infix_of (t_kind t))) then
    trivia_reset l ;; reduce_op KInfix IOP_Times ;; rec CClimb
  else
    commit_syntax_and_next l t ;; u <- eat_trivia ;; rec (CPrefix u) ;; rec CTimesLoop.

(** parselet.rs 1067-1080 *)
Definition infix_postfix (op : Z) (t : token) : P unit :=
  push_syntax_and_next t ;; reduce_op KPostfix op ;; rec CClimb.

(** parselet.rs 1234-1256 *)
Definition infix_call (opener op : Z) (t : token) : P unit :=
  set_prec PREC_HIGHEST ;; prefix_group opener op t ;; reduce_call ;; rec CClimb.

(** parselet.rs 1271-1339 *)
Definition infix_tilde (t : token) : P unit :=
  pdebug_assert (t_kind t =? TK_Tilde) ;;
  push_syntax_and_next t ;;
  u <- eat_trivia ;;
  rec (CPrefix u) ;;
  ' (l, v) <- current_token ;;
  if negb (t_kind v =? TK_Tilde) then
    trivia_reset l ;; reduce_syntax_error ExpectedTilde ;; rec CClimb
  else
    commit_syntax_and_next l v ;; w <- eat_trivia ;; rec (CPrefix w) ;;
    reduce_op KTernary TOP_CodeParser_TernaryTilde ;; rec CClimb.

(** parselet.rs 1354-1430 *)
Definition infix_colon (t : token) : P unit :=
  lhs <- check_colon_lhs ;;
  push_syntax_and_next t ;;
  u <- eat_trivia ;;
  match lhs with
  | ColonPattern =>
      set_prec PREC_FAKE_PATTERNCOLON ;; rec (CPrefix u) ;; reduce_op KBinary BOP_Pattern ;; rec CClimb
  | ColonOptional =>
      set_prec PREC_FAKE_OPTIONALCOLON ;; rec (CPrefix u) ;; reduce_op KBinary BOP_Optional ;; rec CClimb
  | ColonError =>
      set_prec PREC_FAKE_PATTERNCOLON ;; rec (CPrefix u) ;; reduce_syntax_error ExpectedSymbol ;; rec CClimb
  end.

(** parselet.rs 1450-1539, 1624-1694, 1748-1782 *)
Definition infix_slash_colon (t : token) : P unit :=
  push_syntax_and_next t ;;
  u <- eat_trivia ;;
  rec (CPrefix u) ;;
  ' (l, v) <- current_token ;;
  if t_kind v =? TK_Equal then
    set_prec PREC_EQUAL ;; push_trivia l ;; push_syntax_and_next v ;;
    w <- eat_trivia ;;
    if t_kind w =? TK_Dot then
      push_syntax_and_next w ;; reduce_op KTernary TOP_TagUnset ;; rec CClimb
    else rec (CPrefix w) ;; reduce_op KTernary TOP_TagSet ;; rec CClimb
  else if t_kind v =? TK_ColonEqual then
    set_prec PREC_COLONEQUAL ;; push_trivia l ;; push_syntax_and_next v ;;
    w <- eat_trivia ;;
    rec (CPrefix w) ;; reduce_op KTernary TOP_TagSetDelayed ;; rec CClimb
  else
    trivia_reset l ;; reduce_syntax_error ExpectedSet ;; rec CClimb.

(** parselet.rs 1565-1614 *)
Definition infix_equal (t : token) : P unit :=
  push_syntax_and_next t ;;
  u <- eat_trivia ;;
  if t_kind u =? TK_Dot then
    push_syntax_and_next u ;; reduce_op KBinary BOP_Unset ;; rec CClimb
  else rec (CPrefix u) ;; reduce_op KBinary BOP_Set ;; rec CClimb.

Definition is_comma (k : Z) : bool := (k =? TK_Comma) || (k =? TK_LongName_InvisibleComma).
(** parselet.rs 1811-1830, 1888-1905: the operand after a comma *)
Definition comma_operand : P unit :=
  u <- eat_trivia ;;
  if is_comma (t_kind u) then push_leaf (tok_at_start TK_Error_InfixImplicitNull u) else rec (CPrefix u).
(** parselet.rs 1789-1842 *)
Definition infix_comma (t : token) : P unit :=
  pdebug_assert (t_kind t =? TK_Comma) ;;
  push_syntax_and_next t ;; comma_operand ;; rec CCommaLoop.
(** parselet.rs 1853-1925: one iteration *)
Definition comma_loop : P unit :=
  ' (l, t) <- current_token ;;
  if negb (is_comma (t_kind t)) then trivia_reset l ;; reduce_op KInfix IOP_CodeParser_Comma
  else commit_syntax_and_next l t ;; comma_operand ;; rec CCommaLoop.

(** parselet.rs 2135-2145 *)
Definition reduce_compound : P unit := reduce_op KInfix IOP_CompoundExpression ;; rec CClimb.
(** parselet.rs 1947-2015, 2071-2128: the operand after a semicolon *)
Definition semi_operand : P unit :=
  u <- eat_trivia_not_newline ;;
  if t_kind u =? TK_Semi then push_leaf (tok_at_start TK_Fake_ImplicitNull u) ;; rec CSemiLoop
  else if isPossibleBeginning (t_kind u) then rec (CPrefix u) ;; rec CSemiLoop
  else push_leaf (tok_at_start TK_Fake_ImplicitNull u) ;; reduce_compound.
Definition infix_semi (t : token) : P unit := push_syntax_and_next t ;; semi_operand.
Definition semi_loop : P unit :=
  ' (l, t) <- current_token ;;
  if negb (t_kind t =? TK_Semi) then trivia_reset l ;; reduce_compound
  else commit_syntax_and_next l t ;; semi_operand.

(** parselet.rs 2154-2245 *)
Definition infix_colon_colon (t : token) : P unit :=
  push_syntax_and_next t ;; u <- ppeek_as_tag ;; push_leaf_and_next u ;; rec CColonColonLoop.
Definition colon_colon_loop : P unit :=
  ' (l, t) <- current_token ;;
  if negb (t_kind t =? TK_ColonColon) then
    trivia_reset l ;; reduce_op KInfix IOP_MessageName ;; rec CClimb
  else commit_syntax_and_next l t ;; u <- ppeek_as_tag ;; push_leaf_and_next u ;; rec CColonColonLoop.

(** parselet.rs 2254-2290, 2306-2342 *)
Definition infix_file (op : Z) (t : token) : P unit :=
  push_syntax_and_next t ;; u <- eat_trivia_as_file ;; push_leaf_and_next u ;; reduce_op KBinary op ;; rec CClimb.

(** ** Dispatch *)

(** parse.rs 985-990 [parse_prefix] and the [parse_prefix] of the parselets *)
Definition parse_prefix (t : token) : P unit :=
  match prefix_of (t_kind t) with
  | PP_Leaf | PP_UnderDot => push_leaf_and_next t ;; rec CClimb    (* parselet.rs 377-388; under_parselet.rs 120-140 *)
  | PP_PrefixError => passert (isError (t_kind t)) ;; push_leaf_and_next t    (* parselet.rs 398-407 *)
  | PP_PrefixEndOfFile => prefix_end_of_file t
  | PP_PrefixCloser => prefix_closer t
  | PP_PrefixUnsupportedToken => prefix_unsupported t
  | PP_PrefixComma => prefix_comma t
  | PP_PrefixUnhandled => prefix_unhandled t
  | PP_PrefixOperator prec op => prefix_operator prec op t
  | PP_Group opener op => prefix_group opener op t
  | PP_Symbol => prefix_symbol t
  | PP_SemiSemi => prefix_span t
  | PP_Integral op1 op2 => prefix_integral op1 op2 t
  | PP_LessLess => prefix_less_less t
  | PP_Hash => prefix_hash t
  | PP_HashHash => prefix_hash_hash t
  | PP_Percent => prefix_percent t
  | PP_Under bop _ => prefix_under bop t
  end.

(** parse.rs 997-1007 [parse_infix] and the [parse_infix] of the parselets *)
Definition parse_infix (t : token) : P unit :=
  match infix_of (t_kind t) with
  | IP_InfixImplicitTimes | IP_InfixAssertFalse | IP_InfixDifferentialD | IP_InfixToplevelNewline => ppanic
  | IP_BinaryOperator _ op => infix_binary op t
  | IP_InfixOperator _ op => infix_infix op t
  | IP_Times => infix_times t
  | IP_PostfixOperator _ op => infix_postfix op t
  | IP_Call opener op => infix_call opener op t
  | IP_Comma => infix_comma t
  | IP_Semi => infix_semi t
  | IP_SemiSemi => infix_span t
  | IP_Tilde => infix_tilde t
  | IP_Colon => infix_colon t
  | IP_SlashColon => infix_slash_colon t
  | IP_Equal => infix_equal t
  | IP_ColonEqual => infix_binary BOP_SetDelayed t
  | IP_ColonColon => infix_colon_colon t
  | IP_GreaterGreater => infix_file BOP_Put t
  | IP_GreaterGreaterGreater => infix_file BOP_PutAppend t
  end.

Definition answer (c : call) : P unit :=
  match c with
  | CPrefix t => parse_prefix t
  | CInfix t => parse_infix t
  | CClimb => climb
  | CGroupLoop op closer => group_loop op closer
  | CInfixLoop op => infix_loop op
  | CTimesLoop => times_loop
  | CCommaLoop => comma_loop
  | CSemiLoop => semi_loop
  | CColonColonLoop => colon_colon_loop
  end.

End Parser.

Section Run.
Variable o : opts.
Variable dbg : bool.
Variable repair : Z -> list cst -> res (list cst).

Fixpoint run (fuel : nat) (c : call) : P unit :=
  match fuel with
  | O => pout
  | S k => answer o dbg repair (run k) c
  end.

(** parse.rs 1619-1629 *)
Definition assert_quiescent : P unit := fun s =>
  match ctxs s, groups s with [], [] => Ok (tt, s) | _, _ => Panic end.

(** enough for everything nested below a toplevel expression: see ParserProofs *)
Definition depth_bound (s : pst) : nat := 8 * length (rest (cur (tz s))) + 8.

(** parse.rs 113-179 [do_parse]: one expression after the other *)
Fixpoint parse_loop (fuel : nat) : P (list cst) :=
  match fuel with
  | O => pout
  | S k =>
      t <- ppeek o ;;
      if t_kind t =? TK_EndOfFile then pret []
      else if isTrivia (t_kind t) then
        pskip t ;; l <- parse_loop k ;; pret (Tok t :: l)
      else
        (if isCloser (t_kind t) then prefix_toplevel_closer dbg t
         else fun s => run (depth_bound s) (CPrefix t) s) ;;
        n <- pop_node ;;
        assert_quiescent ;;
        l <- parse_loop k ;;
        pret (n :: l)
  end.

(** parse.rs 954-975 and 113-179; tokenizer.rs 137-166 *)
Definition do_parse (b : first_line) : P (list cst) :=
  tk (handle_first_line o b) ;; pwith_fuel parse_loop.

Definition session_new (input : list Z) : pst := mkp (reader_new o input) [] [] [].

(** parse_cst.rs 167-189 [finish]: the debug assertion; the repair of unterminated tokens
    is not included *)
Definition parse_cst_raw (b : first_line) (input : list Z) : res (list cst * pst) :=
  match do_parse b (session_new input) with
  | Ok (l, s) => if dbg && negb (Nat.eqb (length (stack s)) 0) then Panic else Ok (l, s)
  | Panic => Panic
  | OutOfFuel => OutOfFuel
  end.

End Run.
