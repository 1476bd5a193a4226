(** From concrete to abstract syntax: abstract_cst.rs (from line 253), abstract_call_node.rs,
    and [parse_ast_seq] (lib.rs 581-617).
    Simplifications: the thread-local quirk settings are a parameter, as is what Rust's
    formatting makes of a string; nodes are cloned freely; [rec] is [abstract_] itself, called
    on smaller nodes; the messages of issues are left out. *)
From Coq Require Import String.
From Coq Require Import ZArith List Bool.
From Verif Require Import Base Source GenTokenKind GenOps GenSymbols TokenKind LongNames Tokenizer Iter Cst Ast.
Import ListNotations.
Local Open Scope string_scope.
Local Open Scope list_scope.
Local Open Scope Z_scope.

Local Notation "x <~ e ;; k" := (rbind e (fun x => k)) (at level 61, e at next level, right associativity).

(** quirks.rs 10-51 [QuirkSettings]; [a_dbg] says whether debug assertions are compiled in;
    [a_fmt] is what [format!] makes of a string with the placeholder for debug output *)
Record aopts := mk_aopts { a_dbg : bool; q_infix_binary_at : bool; q_flatten_times : bool; q_old_at_at_at : bool; a_fmt : list Z -> list Z }.

(** a loop over nodes that may panic *)
Definition mapr {A B} (f : A -> res B) : list A -> res (list B) :=
  fix go l := match l with [] => Ok [] | a :: r => b <~ f a ;; bs <~ go r ;; Ok (b :: bs) end.

(** token.rs 41-50 [TokenInput::as_str] *)
Definition as_str (t : token) : res (list Z) := if utf8_valid (t_text t) then Ok (t_text t) else Panic.

(** [op.to_symbol()] *)
Definition op_symbol (k : opkind) (op : Z) : string :=
  let table := match k with
    | KPrefix => PREOP_TO | KInfix => IOP_TO | KPostfix => POSTOP_TO | KBinary => BOP_TO | KTernary => TOP_TO
    | KPrefixBinary => PBOP_TO | KCompound => COP_TO | KGroup | KGroupMissingCloser | KGroupMissingOpener => GOP_TO
    end in
  match assoc op table with Some s => s | None => EmptyString end.
Definition callop_symbol (op : Z) : string := match assoc op CALLOP_TO with Some s => s | None => EmptyString end.

(** ** Tokens *)

(** [str.matches(p).count()]: how often [p] occurs, without overlaps *)
Fixpoint strip_prefix (p l : list Z) : option (list Z) :=
  match p, l with
  | [], _ => Some l
  | x :: p, y :: l => if x =? y then strip_prefix p l else None
  | _ :: _, [] => None
  end.
Fixpoint count_matches (fuel : nat) (p l : list Z) : Z :=
  match fuel with
  | O => 0
  | S k =>
      match strip_prefix p l with
      | Some r => 1 + count_matches k p r
      | None => match l with [] => 0 | _ :: r => count_matches k p r end
      end
  end.
Definition matches (p : string) (l : list Z) : Z := count_matches (S (length l)) (bytes_of_string p) l.

(** abstract_cst.rs 1306-1313: the spellings of the percent sign *)
Definition percent_count (s : list Z) : Z :=
  matches "%" s + matches "\.25" s + matches "\:0025" s + matches "\|000025" s + matches "\045" s + matches "\[RawPercent]" s.

(** abstract_cst.rs 1357-1395: symbols with a special spelling *)
Definition SPECIAL_SYMBOLS : list (list Z * string) :=
  let spell (utf8 : list Z) (texts : list string) (s : string) := map (fun t => (t, s)) (utf8 :: map bytes_of_string texts) in
  spell [0xCF; 0x80] ["\[Pi]"; "\:03c0"; "\|0003c0"]%string "System`Pi" ++
  spell [0xC2; 0xB0] ["\[Degree]"; "\:00b0"; "\.b0"; "\260"; "\|0000b0"]%string "System`Degree" ++
  spell [0xE2; 0x88; 0x9E] ["\[Infinity]"; "\:221e"; "\|00221e"]%string "System`Infinity" ++
  spell [0xEF; 0x9D; 0x8D] ["\[ExponentialE]"; "\:f74d"; "\|00f74d"]%string "System`E" ++
  spell [0xEF; 0x9D; 0x8E] ["\[ImaginaryI]"; "\:f74e"; "\|00f74e"]%string "System`I" ++
  spell [0xEF; 0x9D; 0x8F] ["\[ImaginaryJ]"; "\:f74f"; "\|00f74f"]%string "System`I".
Fixpoint find_spelling (s : list Z) (l : list (list Z * string)) : option string :=
  match l with [] => None | (t, n) :: r => if zlist_eqb s t then Some n else find_spelling s r end.

(** abstract_cst.rs 1293-1410 [abstract_replace_token] *)
Definition abstract_replace_token (t : token) : res ast :=
  let k := t_kind t in
  let data := from_src (t_src t) in
  if k =? TK_PercentPercent then
    s <~ as_str t ;; Ok (call "System`Out" [int_leaf (- percent_count s) no_meta] data)
  else if k =? TK_Under then Ok (call "System`Blank" [] data)
  else if k =? TK_UnderUnder then Ok (call "System`BlankSequence" [] data)
  else if k =? TK_UnderUnderUnder then Ok (call "System`BlankNullSequence" [] data)
  else if k =? TK_UnderDot then Ok (call "System`Optional" [call "System`Blank" [] data] data)
  else if k =? TK_Hash then Ok (call "System`Slot" [int_leaf 1 no_meta] data)
  else if k =? TK_HashHash then Ok (call "System`SlotSequence" [int_leaf 1 no_meta] data)
  else if k =? TK_Percent then Ok (call "System`Out" [] data)
  else if k =? TK_Fake_ImplicitOne then Ok (int_leaf 1 data)
  else if k =? TK_Fake_ImplicitAll then Ok (symbol_leaf "System`All" data)
  else if zin k [TK_Error_PrefixImplicitNull; TK_Error_InfixImplicitNull] then Ok (symbol_leaf "System`Null" data)
  else if isError k then Ok (AError k (t_text t) data)
  else if k =? TK_Symbol then
    s <~ as_str t ;;
    Ok (match find_spelling s SPECIAL_SYMBOLS with
        | Some n => symbol_leaf n data
        | None => ALeaf k (t_text t) data
        end)
  else Ok (ALeaf k (t_text t) data).

(** abstract_cst.rs 1434-1444 [escapeString_of_abstractSymbolString] *)
Definition escape_symbol_string (o : aopts) (s : list Z) : list Z :=
  match s with
  | 34 :: _ => s
  | 92 :: 91 :: _ => 34 :: s ++ [34]
  | _ => a_fmt o s
  end.
(** abstract_cst.rs 1447-1455 [escapeString_of_abstractFileString] *)
Definition escape_file_string (o : aopts) (s : list Z) : list Z :=
  match s with 34 :: _ => s | _ => a_fmt o s end.

(** ** Children *)

(** abstract_cst.rs 3286-3318 [part_span_even_children], [is_expected_separator] *)
Fixpoint evens {A} (l : list A) : list A := match l with [] => [] | [a] => [a] | a :: _ :: r => a :: evens r end.
Fixpoint odds {A} (l : list A) : list A := match l with [] => [] | [_] => [] | _ :: b :: r => b :: odds r end.
Definition is_expected_separator (sep : option Z) (n : cst) : bool :=
  match sep with None => true | Some k => match n with Tok t => t_kind t =? k | _ => false end end.
Definition part_span_even_children (o : aopts) (sep : option Z) (l : list cst) : res (list cst) :=
  if a_dbg o && negb (forallb (is_expected_separator sep) (odds l)) then Panic else Ok (evens l).

(** abstract_cst.rs 3321-3327 [part_span_drop_first_and_last] *)
Definition part_span_drop_first_and_last (l : list cst) : res (list cst) :=
  match l with
  | [] => Panic
  | _ :: r => match r with [] => Panic | _ => Ok (removelast r) end
  end.

(** abstract_cst.rs 2841-2872 [selectChildren] *)
Definition selectChildren (a : ast) : list ast :=
  match a with
  | ACall (ALeaf k s _) args _ => if (k =? TK_Symbol) && zlist_eqb s (bytes_of_string "CodeParser`Comma") then args else [a]
  | _ => [a]
  end.

(** ** Negation *)

(** abstract_cst.rs 1572-1597 [parenthesizedIntegerOrRealQ] *)
Fixpoint parenthesizedIntegerOrRealQ (n : cst) : res bool :=
  match n with
  | Op KGroup op ch =>
      if op =? GOP_CodeParser_GroupParen then
        match ch with [_; child; _] => parenthesizedIntegerOrRealQ child | _ => Panic end
      else Ok false
  | Tok t => Ok (zin (t_kind t) [TK_Integer; TK_Real])
  | _ => Ok false
  end.

(** abstract_cst.rs 1623-1656 [possiblyNegatedZeroQ] *)
Fixpoint possiblyNegatedZeroQ (n : cst) : res bool :=
  match n with
  | Tok t => if t_kind t =? TK_Integer then s <~ as_str t ;; Ok (zlist_eqb s [48]) else Ok false
  | Op KGroup op ch =>
      if op =? GOP_CodeParser_GroupParen then
        match ch with [_; child; _] => possiblyNegatedZeroQ child | _ => Panic end
      else Ok false
  | Op KPrefix op ch =>
      if op =? PREOP_Minus then
        match ch with [_; child] => possiblyNegatedZeroQ child | _ => Panic end
      else Ok false
  | _ => Ok false
  end.

(** abstract_cst.rs 1670-1675 [Negated] *)
Inductive negated := Integer0 | IntegerNegated (s : token) | RealNegated (s : token) | InfixTimesSeq (l : list cst).
(** abstract_cst.rs 1661-1666 [Operand], 1829 [Reciprocate] *)
Inductive oper := OCst (n : cst) | OReciprocate (n : cst) (data : span) | ONegativeOne | ONegated (g : negated) (data : span).

(** abstract_cst.rs 1734-1818 [negate], 1599-1619 [extractParenthesizedIntegerOrRealQ] *)
Fixpoint negate (n : cst) : res negated :=
  match n with
  | Tok t =>
      if t_kind t =? TK_Integer then s <~ as_str t ;; Ok (if zlist_eqb s [48] then Integer0 else IntegerNegated t)
      else if t_kind t =? TK_Real then Ok (RealNegated t)
      else Ok (InfixTimesSeq [n])
  | Op KGroup op ch =>
      if op =? GOP_CodeParser_GroupParen then
        match ch with
        | _ :: c :: _ =>
            z <~ possiblyNegatedZeroQ c ;;
            if z then negate c
            else
              q <~ parenthesizedIntegerOrRealQ n ;;
              if q then match ch with [_; child; _] => negate child | _ => Panic end
              else Ok (InfixTimesSeq [n])
        | _ => Panic
        end
      else Ok (InfixTimesSeq [n])
  | Op KPrefix op ch =>
      if op =? PREOP_Minus then
        match ch with
        | _ :: c :: _ => z <~ possiblyNegatedZeroQ c ;; if z then negate c else Ok (InfixTimesSeq [n])
        | _ => Panic
        end
      else Ok (InfixTimesSeq [n])
  | Op KInfix op ch => if op =? IOP_Times then Ok (InfixTimesSeq ch) else Ok (InfixTimesSeq [n])
  | _ => Ok (InfixTimesSeq [n])
  end.

(** ** Times *)

(** abstract_cst.rs 2146-2204 [processInfixBinaryAtQuirk] *)
Definition processInfixBinaryAtQuirk (o : aopts) (n : cst) (sym : list Z) : res cst :=
  if negb (q_infix_binary_at o) then Ok n
  else
    match n with
    | Op KBinary op ch =>
        if op =? BOP_CodeParser_BinaryAt then
          match ch with
          | [lhs; middle; rhs] =>
              is_sym <~ match lhs with
                        | Tok t => if t_kind t =? TK_Symbol then s <~ as_str t ;; Ok (zlist_eqb s sym) else Ok false
                        | _ => Ok false
                        end ;;
              if is_sym then
                match middle with Tok t => if t_kind t =? TK_At then Ok rhs else Panic | _ => Panic end
              else Ok n
          | _ => Panic
          end
        else Ok n
    | _ => Ok n
    end.

(** abstract_cst.rs 2004-2087 [flatten_times_cst] *)
Fixpoint flatten_times_cst (o : aopts) (n : cst) (data : span) : res (list oper) :=
  match n with
  | Op KPrefix op ch =>
      if op =? PREOP_Minus then
        match ch with
        | [_; operand] =>
            number <~ match operand with
                      | Tok t => if zin (t_kind t) [TK_Integer; TK_Real] then Ok true else parenthesizedIntegerOrRealQ operand
                      | _ => parenthesizedIntegerOrRealQ operand
                      end ;;
            if number then g <~ negate operand ;; Ok [ONegated g data]
            else if q_flatten_times o then l <~ flatten_times_cst o operand data ;; Ok (ONegativeOne :: l)
            else Ok [OCst n]
        | _ => Panic
        end
      else Ok [OCst n]
  | Op KInfix op ch =>
      if op =? IOP_Times then
        if a_dbg o && negb (forallb (is_expected_separator (Some TK_Star)) (odds ch)) then Panic
        else
          (fix go l :=
             match l with
             | [] => Ok []
             | [a] => flatten_times_cst o a data
             | a :: _ :: r => x <~ flatten_times_cst o a data ;; y <~ go r ;; Ok (x ++ y)
             end) ch
      else Ok [OCst n]
  | Op KBinary op ch =>
      if op =? BOP_Divide then
        if q_flatten_times o then
          match ch with
          | [lhs; _; rhs] => l <~ flatten_times_cst o lhs data ;; Ok (l ++ [OReciprocate rhs data])
          | _ => Panic
          end
        else Ok [OCst n]
      else Ok [OCst n]
  | _ => Ok [OCst n]
  end.
(** abstract_cst.rs 1994-2002 [flattenTimes] *)
Definition flattenTimes (o : aopts) (l : list cst) (data : span) : res (list oper) :=
  ls <~ mapr (fun n => flatten_times_cst o n data) l ;; Ok (concat ls).

(** abstract_cst.rs 1831-1842 [Reciprocate::into_ast] *)
Definition reciprocate_into_ast (rec : cst -> res ast) (n : cst) (data : span) : res ast :=
  a <~ rec n ;; Ok (call "System`Power" [a; int_leaf (-1) no_meta] (from_src data)).

(** abstract_cst.rs 1677-1700 [Negated::into_ast], for numbers *)
Definition negated_number (g : negated) (data : span) : res ast :=
  match g with
  | Integer0 => Ok (ALeaf TK_Integer [48] (from_src data))
  | IntegerNegated t => s <~ as_str t ;; Ok (ALeaf TK_Integer (45 :: s) (from_src data))
  | RealNegated t => s <~ as_str t ;; Ok (ALeaf TK_Real (45 :: s) (from_src data))
  | InfixTimesSeq _ => OutOfFuel
  end.

(** The loop body in abstract_cst.rs 2103-2113 and 2129-2137, [f] being what is done to a
    node.  [Negated::into_ast] calls [abstractTimes_InfixNode] in turn, but only for negated
    products, and these are not among the operands of a product (AbstractProofs,
    [flatten_times_numbers]): the model runs out of fuel there. *)
Definition operand_into_ast (rec : cst -> res ast) (f : cst -> res ast) (x : oper) : res ast :=
  match x with
  | OCst n => f n
  | ONegativeOne => Ok (int_leaf (-1) no_meta)
  | ONegated g data => negated_number g data
  | OReciprocate n data => reciprocate_into_ast rec n data
  end.

(** abstract_cst.rs 2090-2116 [abstractTimes_InfixNode] *)
Definition abstractTimes_InfixNode (o : aopts) (rec : cst -> res ast) (l : list cst) (data : span) : res ast :=
  flattened <~ flattenTimes o l data ;;
  args <~ mapr (operand_into_ast rec (fun n => m <~ processInfixBinaryAtQuirk o n (bytes_of_string "Times") ;; rec m)) flattened ;;
  Ok (call "System`Times" args (from_src data)).

(** abstract_cst.rs 1677-1725 [Negated::into_ast] *)
Definition negated_into_ast (o : aopts) (rec : cst -> res ast) (g : negated) (data : span) : res ast :=
  match g with
  | InfixTimesSeq l =>
      ch <~ part_span_even_children o (Some TK_Star) l ;;
      a <~ abstractTimes_InfixNode o rec ch data ;;
      match a with
      | ACall h args d => Ok (ACall h (int_leaf (-1) no_meta :: args) d)
      | _ => Panic
      end
  | _ => negated_number g data
  end.

(** abstract_cst.rs 2119-2142 [abstractTimes_BinaryNode_Divide] *)
Definition abstractTimes_BinaryNode_Divide (o : aopts) (rec : cst -> res ast) (lhs rhs : cst) (data : span) : res ast :=
  flattened <~ flatten_times_cst o lhs data ;;
  args <~ mapr (operand_into_ast rec rec) flattened ;;
  r <~ reciprocate_into_ast rec rhs data ;;
  Ok (call "System`Times" (args ++ [r]) (from_src data)).

(** ** Plus *)

(** abstract_cst.rs 1870-1898 [processPlusPair] *)
Definition processPlusPair (rator rand : cst) : res oper :=
  match rator with
  | Tok t =>
      if zin (t_kind t) [TK_Plus; TK_LongName_ImplicitPlus] then Ok (OCst rand)
      else if zin (t_kind t) [TK_Minus; TK_LongName_Minus] then
        s <~ get_source rand ;;
        source <~ span_between (t_src t) s ;;
        g <~ negate rand ;;
        Ok (ONegated g source)
      else Panic
  | _ => Panic
  end.

(** abstract_cst.rs 1903-1915 [flattenPrefixPlus] *)
Fixpoint flattenPrefixPlus (n : cst) : res cst :=
  match n with
  | Op KPrefix op ch =>
      if op =? PREOP_Plus then match ch with [_; rand] => flattenPrefixPlus rand | _ => Panic end else Ok n
  | _ => Ok n
  end.

(** [chunks(2)] and the conversion of each chunk to an array of two *)
Fixpoint chunks2 {A} (l : list A) : res (list (A * A)) :=
  match l with
  | [] => Ok []
  | [_] => Panic
  | a :: b :: r => ps <~ chunks2 r ;; Ok ((a, b) :: ps)
  end.

(** abstract_cst.rs 1926-1958 [abstractPlus] *)
Definition abstractPlus (o : aopts) (rec : cst -> res ast) (l : list cst) (data : span) : res ast :=
  match l with
  | [] => Panic
  | first :: r =>
      pairs <~ chunks2 r ;;
      processed <~ mapr (fun '(rator, rand) => processPlusPair rator rand) pairs ;;
      args <~ mapr (fun x =>
        match x with
        | OCst n => m <~ processInfixBinaryAtQuirk o n (bytes_of_string "Plus") ;; m <~ flattenPrefixPlus m ;; rec m
        | ONegativeOne => Ok (int_leaf (-1) no_meta)
        | OReciprocate n data => reciprocate_into_ast rec n data
        | ONegated g data => negated_into_ast o rec g data
        end) (OCst first :: processed) ;;
      Ok (call "System`Plus" args (from_src data))
  end.

(** abstract_cst.rs 1967-1984 [abstractPrefixPlus] *)
Fixpoint abstractPrefixPlus (rec : cst -> res ast) (rand : cst) (data : span) : res ast :=
  let plain := a <~ rec rand ;; Ok (call "System`Plus" [a] (from_src data)) in
  match rand with
  | Op KPrefix op ch =>
      if op =? PREOP_Plus then match ch with [_; rand] => abstractPrefixPlus rec rand data | _ => Panic end else plain
  | _ => plain
  end.

(** ** Derivatives, negations *)

(** abstract_cst.rs 1847-1866 [derivativeOrderAndAbstractedBody] *)
Fixpoint derivativeOrderAndAbstractedBody (rec : cst -> res ast) (n : cst) : res (Z * ast) :=
  match n with
  | Op KPostfix op ch =>
      if op =? POSTOP_Derivative then
        match ch with
        | [rand; _] => rbind (derivativeOrderAndAbstractedBody rec rand) (fun '(order, body) => Ok (order + 1, body))
        | _ => Panic
        end
      else a <~ rec n ;; Ok (0, a)
  | _ => a <~ rec n ;; Ok (0, a)
  end.

(** abstract_cst.rs 2876-2911 [abstractNot2] *)
Definition abstractNot2 (rec : cst -> res ast) (rand notNotTok : cst) (data : span) : res ast :=
  s <~ get_source notNotTok ;;
  a <~ rec rand ;;
  Ok (call "System`Not" [call "System`Not" [a] no_meta]
        (mk_ameta (Known data) [mk_aissue PrefixNotNot SevWarning (Known s) 100 []])).

(** ** Message names *)

(** abstract_cst.rs 2217-2269 [abstractMessageName] *)
Definition abstractMessageName (o : aopts) (rec : cst -> res ast) (l : list cst) (data : span) : res ast :=
  match l with
  | [] => Panic
  | lhs :: r =>
      let issues := if 2 <? zlen r then [mk_aissue SyntaxUndocumentedMessageName SevError (Known data) 100 []] else [] in
      a <~ rec lhs ;;
      args <~ mapr (fun n =>
        match n with
        | Tok t =>
            if t_kind t =? TK_String then s <~ as_str t ;; Ok (string_leaf (escape_symbol_string o s) (from_src (t_src t)))
            else rec n
        | _ => rec n
        end) r ;;
      Ok (call "System`MessageName" (a :: args) (mk_ameta (Known data) issues))
  end.

(** ** Inequalities *)

(** abstract_cst.rs 2513-2571 [inequalityOperatorToSymbol] *)
Definition INEQUALITIES : list (Z * string) := [
  (TK_EqualEqual, "System`Equal"); (TK_LongName_Equal, "System`Equal"); (TK_LongName_LongEqual, "System`Equal");
  (TK_BangEqual, "System`Unequal"); (TK_LongName_NotEqual, "System`Unequal");
  (TK_Less, "System`Less"); (TK_Greater, "System`Greater");
  (TK_LessEqual, "System`LessEqual"); (TK_LongName_LessEqual, "System`LessEqual");
  (TK_GreaterEqual, "System`GreaterEqual"); (TK_LongName_GreaterEqual, "System`GreaterEqual");
  (TK_LongName_GreaterEqualLess, "System`GreaterEqualLess"); (TK_LongName_GreaterFullEqual, "System`GreaterFullEqual");
  (TK_LongName_GreaterGreater, "System`GreaterGreater"); (TK_LongName_GreaterLess, "System`GreaterLess");
  (TK_LongName_GreaterSlantEqual, "System`GreaterEqual"); (TK_LongName_GreaterTilde, "System`GreaterTilde");
  (TK_LongName_LessEqualGreater, "System`LessEqualGreater"); (TK_LongName_LessFullEqual, "System`LessFullEqual");
  (TK_LongName_LessGreater, "System`LessGreater"); (TK_LongName_LessLess, "System`LessLess");
  (TK_LongName_LessSlantEqual, "System`LessEqual"); (TK_LongName_LessTilde, "System`LessTilde");
  (TK_LongName_NestedGreaterGreater, "System`NestedGreaterGreater"); (TK_LongName_NestedLessLess, "System`NestedLessLess");
  (TK_LongName_NotGreater, "System`NotGreater"); (TK_LongName_NotGreaterEqual, "System`NotGreaterEqual");
  (TK_LongName_NotGreaterFullEqual, "System`NotGreaterFullEqual"); (TK_LongName_NotGreaterGreater, "System`NotGreaterGreater");
  (TK_LongName_NotGreaterLess, "System`NotGreaterLess"); (TK_LongName_NotGreaterSlantEqual, "System`NotGreaterSlantEqual");
  (TK_LongName_NotGreaterTilde, "System`NotGreaterTilde"); (TK_LongName_NotLess, "System`NotLess");
  (TK_LongName_NotLessEqual, "System`NotLessEqual"); (TK_LongName_NotLessFullEqual, "System`NotLessFullEqual");
  (TK_LongName_NotLessGreater, "System`NotLessGreater"); (TK_LongName_NotLessLess, "System`NotLessLess");
  (TK_LongName_NotLessSlantEqual, "System`NotLessSlantEqual"); (TK_LongName_NotLessTilde, "System`NotLessTilde");
  (TK_LongName_NotNestedGreaterGreater, "System`NotNestedGreaterGreater"); (TK_LongName_NotNestedLessLess, "System`NotNestedLessLess");
  (TK_LongName_VectorLess, "System`VectorLess"); (TK_LongName_VectorGreater, "System`VectorGreater");
  (TK_LongName_VectorLessEqual, "System`VectorLessEqual"); (TK_LongName_VectorGreaterEqual, "System`VectorGreaterEqual")]%string.
Definition inequalityOperatorToSymbol (k : Z) : res string :=
  match assoc k INEQUALITIES with Some s => Ok s | None => Panic end.

(** abstract_cst.rs 2574-2634 [vectorInequalityAffinity] *)
Definition in_strings (s : string) (l : list string) : bool := existsb (String.eqb s) l.
Definition NO_AFFINITY : list string :=
  ["System`Equal"; "System`Unequal"; "System`Less"; "System`Greater"; "System`LessEqual"; "System`GreaterEqual"]%string.
Definition NOT_VECTOR : list string :=
  ["System`GreaterEqualLess"; "System`GreaterFullEqual"; "System`GreaterGreater"; "System`GreaterLess"; "System`GreaterSlantEqual";
   "System`GreaterTilde"; "System`LessEqualGreater"; "System`LessFullEqual"; "System`LessGreater"; "System`LessLess";
   "System`LessSlantEqual"; "System`LessTilde"; "System`NestedGreaterGreater"; "System`NestedLessLess"; "System`NotGreater";
   "System`NotGreaterEqual"; "System`NotGreaterFullEqual"; "System`NotGreaterGreater"; "System`NotGreaterLess";
   "System`NotGreaterSlantEqual"; "System`NotGreaterTilde"; "System`NotLess"; "System`NotLessEqual"; "System`NotLessFullEqual";
   "System`NotLessGreater"; "System`NotLessLess"; "System`NotLessSlantEqual"; "System`NotLessTilde";
   "System`NotNestedGreaterGreater"; "System`NotNestedLessLess"]%string.
Definition VECTOR : list string :=
  ["System`VectorLess"; "System`VectorGreater"; "System`VectorLessEqual"; "System`VectorGreaterEqual"]%string.
Definition vectorInequalityAffinity (s : string) : res (option bool) :=
  if in_strings s NO_AFFINITY then Ok None
  else if in_strings s NOT_VECTOR then Ok (Some false)
  else if in_strings s VECTOR then Ok (Some true)
  else Panic.

(** abstract_cst.rs 2374-2460: the operators a chain of which becomes one call, in order *)
Definition SIMPLE_CHAINS : list string :=
  ["System`Equal"; "System`Unequal"; "System`Greater"; "System`Less"; "System`GreaterEqual"; "System`GreaterEqualLess";
   "System`GreaterFullEqual"; "System`GreaterGreater"; "System`GreaterLess"; "System`GreaterTilde"; "System`LessEqual";
   "System`LessEqualGreater"; "System`LessFullEqual"; "System`LessGreater"; "System`LessLess"; "System`LessTilde";
   "System`NestedGreaterGreater"; "System`NestedLessLess"; "System`NotGreater"; "System`NotGreaterEqual";
   "System`NotGreaterFullEqual"; "System`NotGreaterGreater"; "System`NotGreaterLess"; "System`NotGreaterSlantEqual";
   "System`NotGreaterTilde"; "System`NotLess"; "System`NotLessEqual"; "System`NotLessFullEqual"; "System`NotLessGreater";
   "System`NotLessLess"; "System`NotLessSlantEqual"; "System`NotLessTilde"; "System`NotNestedGreaterGreater";
   "System`NotNestedLessLess"]%string.
(** abstract_cst.rs 2461-2485 *)
Definition VECTOR_CHAINS : list string :=
  ["System`VectorLess"; "System`VectorGreater"; "System`VectorLessEqual"; "System`VectorGreaterEqual"]%string.

(** abstract_cst.rs 2349-2511 [simplifyInfixInequality] *)
Definition simplifyInfixInequality (first : ast) (r : list (string * ast)) (affinity : option bool) (data : span) : ast :=
  let all_rators := fun needle => forallb (fun p => String.eqb (fst p) needle) r in
  let rands := first :: map snd r in
  match find all_rators SIMPLE_CHAINS with
  | Some s => call s rands (from_src data)
  | None =>
      match find all_rators VECTOR_CHAINS with
      | Some s => call s [call "System`List" rands no_meta] (from_src data)
      | None =>
          let children := first :: flat_map (fun '(s, a) => [symbol_leaf s no_meta; a]) r in
          match affinity with
          | Some true => call "Developer`VectorInequality" children (from_src data)
          | _ => call "System`Inequality" children (from_src data)
          end
      end
  end.

(** abstract_cst.rs 2305-2344: the loop of [abstractInfixInequality]; [r] is the list built
    so far *)
Fixpoint inequality_loop (rec : cst -> res ast) (pairs : list (token * cst)) (first : ast) (r : list (string * ast))
    (affinity : option bool) (data : span) : res ast :=
  match pairs with
  | [] => Ok (simplifyInfixInequality first r affinity data)
  | (t, rand) :: pairs =>
      s <~ inequalityOperatorToSymbol (t_kind t) ;;
      a <~ rec rand ;;
      v <~ vectorInequalityAffinity s ;;
      match v with
      | Some b =>
          if match affinity with Some b' => Bool.eqb b' (negb b) | None => false end then
            inequality_loop rec pairs (simplifyInfixInequality first r affinity data) [(s, a)] (Some b) data
          else inequality_loop rec pairs first (r ++ [(s, a)]) (Some b) data
      | None => inequality_loop rec pairs first (r ++ [(s, a)]) affinity data
      end
  end.

(** abstract_cst.rs 2275-2347 [abstractInfixInequality] *)
Definition abstractInfixInequality (rec : cst -> res ast) (l : list cst) (data : span) : res ast :=
  match l with
  | [] => Panic
  | first :: r =>
      a <~ rec first ;;
      pairs <~ chunks2 r ;;
      pairs <~ mapr (fun '(rator, rand) => match rator with Tok t => Ok (t, rand) | _ => Panic end) pairs ;;
      inequality_loop rec pairs a [] None data
  end.

(** ** Chains of tildes (only from boxes) *)

(** abstract_cst.rs 2691-2728 [abstractInfixTildeLeftAlreadyAbstracted] *)
Fixpoint abstractInfixTilde_rest (rec : cst -> res ast) (lhs : ast) (r : list cst) (data : ameta) : res ast :=
  match r with
  | [] => Panic
  | [middle] => m <~ rec middle ;; Ok (AAbstractSyntaxError AExpectedTilde [lhs; m] data)
  | [middle; rhs] => m <~ rec middle ;; x <~ rec rhs ;; Ok (ACall m [lhs; x] data)
  | middle :: rhs :: r =>
      m <~ rec middle ;; x <~ rec rhs ;;
      abstractInfixTilde_rest rec (ACall m [lhs; x] no_meta) r data
  end.
(** abstract_cst.rs 2642-2689 [abstractInfixTilde] *)
Definition abstractInfixTilde (rec : cst -> res ast) (l : list cst) (data : ameta) : res ast :=
  match l with
  | [lhs; middle] => a <~ rec lhs ;; m <~ rec middle ;; Ok (AAbstractSyntaxError AExpectedTilde [a; m] data)
  | [lhs; middle; rhs] => a <~ rec lhs ;; abstractInfixTilde_rest rec a [middle; rhs] data
  | lhs :: middle :: rhs :: r =>
      a <~ rec lhs ;; b <~ abstractInfixTilde_rest rec a [middle; rhs] no_meta ;;
      abstractInfixTilde_rest rec b r data
  | _ => Panic
  end.

(** ** Groups *)

(** abstract_cst.rs 2741-2783 [abstractGroupNode]: its arguments *)
Definition abstractGroupNode (rec : cst -> res ast) (ch : list cst) : res (list ast) :=
  ch <~ part_span_drop_first_and_last ch ;;
  l <~ mapr rec ch ;;
  Ok (flat_map selectChildren l).
(** abstract_cst.rs 2785-2809 [abstractGroupNode_GroupMissingCloserNode]: its children *)
Definition abstractGroupMissingCloser (rec : cst -> res ast) (ch : list cst) : res (list ast) :=
  match ch with
  | [] => Panic
  | _ :: ch => l <~ mapr rec ch ;; Ok (flat_map selectChildren l)
  end.
(** abstract_cst.rs 2811-2838 [abstractGroupNode_GroupMissingOpenerNode]: its children *)
Definition abstractGroupMissingOpener (rec : cst -> res ast) (ch : list cst) : res (list ast) :=
  l <~ mapr rec (removelast ch) ;; Ok (flat_map selectChildren l).

(** abstract_cst.rs 946-990: parentheses *)
Definition abstract_paren (o : aopts) (rec : cst -> res ast) (ch : list cst) (data : span) : res ast :=
  match ch with
  | [_; child; _] =>
      match child with
      | Op KInfix op cs =>
          if op =? IOP_CodeParser_Comma then
            cs <~ part_span_even_children o None cs ;;
            l <~ mapr rec cs ;; Ok (AAbstractSyntaxError OpenParen l (from_src data))
          else rec child
      | _ => rec child
      end
  | _ =>
      cs <~ part_span_drop_first_and_last ch ;;
      l <~ mapr rec cs ;; Ok (AAbstractSyntaxError OpenParen l (from_src data))
  end.
(** abstract_cst.rs 1001-1112: other brackets where they make no sense *)
Definition abstract_naked (o : aopts) (rec : cst -> res ast) (e : abstract_error) (ch : list cst) (data : span) : res ast :=
  match ch with
  | [_; child; _] =>
      match child with
      | Op KInfix op cs =>
          if op =? IOP_CodeParser_Comma then
            cs <~ part_span_even_children o None cs ;;
            l <~ mapr rec cs ;; Ok (AAbstractSyntaxError e l (from_src data))
          else a <~ rec child ;; Ok (AAbstractSyntaxError e [a] (from_src data))
      | _ => a <~ rec child ;; Ok (AAbstractSyntaxError e [a] (from_src data))
      end
  | [_; _] => Ok (AAbstractSyntaxError e [] (from_src data))
  | _ => Panic
  end.

(** ** Calls (abstract_call_node.rs) *)

(** cst.rs 86-105 [BoxKind], numbered in that order *)
Definition BOX_RowBox := 0.
Definition BOX_GridBox := 1.
Definition BOX_TagBox := 2.
Definition BOX_SubscriptBox := 5.
Definition BOX_SuperscriptBox := 6.
(** abstract_call_node.rs 32-41 [OK_CALL_BOX_KINDS] *)
Definition OK_CALL_BOX_KINDS : list Z := [3; 4; 5; 6; 7; 8; 9; 10].

Definition FINE_COMPOUNDS : list Z :=
  [COP_Blank; COP_BlankSequence; COP_BlankNullSequence; COP_CodeParser_PatternBlank; COP_CodeParser_PatternBlankSequence;
   COP_CodeParser_PatternBlankNullSequence; COP_Slot].
Definition slot_sequence_head (n : cst) : bool :=
  match n with Tok t => t_kind t =? TK_HashHash | Op KCompound op _ => op =? COP_SlotSequence | _ => false end.
Definition fine_head (extra : list Z) (n : cst) : bool :=
  match n with
  | Tok t => zin (t_kind t) (extra ++ [TK_Symbol; TK_Hash; TK_Under; TK_UnderUnder; TK_UnderUnderUnder; TK_Percent; TK_PercentPercent])
  | Call _ _ _ _ => true
  | Op KCompound op _ => zin op (FINE_COMPOUNDS ++ [COP_Out])
  | Op KGroup op _ => zin op [GOP_CodeParser_GroupParen; GOP_List; GOP_Association]
  | BoxN b _ _ => zin b OK_CALL_BOX_KINDS
  | _ => false
  end.

(** What is said about the head of a call: tag, severity and confidence.
    abstract_call_node.rs 298-547, for [f[x]] *)
Definition call_issue (n : cst) : option (atag * asev * Z) :=
  if slot_sequence_head n then Some (StrangeCallSlotSequence, SevError, 100)
  else if fine_head [TK_String] n then None
  else
    match n with
    | Op KBinary op _ => if op =? BOP_PatternTest then None else Some (StrangeCall, SevError, 95)
    | Op KInfix op _ => Some (StrangeCall, if op =? IOP_CompoundExpression then SevWarning else SevError, 95)
    | Op KGroup _ _ => Some (StrangeCall, SevWarning, 95)
    | Op KPostfix op _ => if zin op [POSTOP_Function; POSTOP_Derivative] then None else Some (StrangeCall, SevError, 95)
    | _ => Some (StrangeCall, SevError, 95)
    end.
(** abstract_call_node.rs 112-274 and 619-774, for [f[[x]]] *)
Definition part_issue (n : cst) : option (atag * asev * Z) :=
  if slot_sequence_head n then Some (StrangeCallSlotSequence, SevError, 100)
  else if fine_head [] n then None
  else
    match n with
    | Tok t => Some (StrangeCall, if t_kind t =? TK_LinearSyntaxBlob then SevRemark else SevError, 95)
    | Op KPrefix op _ => Some (StrangeCall, if op =? PREOP_CodeParser_PrefixLinearSyntaxBang then SevRemark else SevError, 95)
    | Op KInfix op _ => Some (StrangeCall, if op =? IOP_CompoundExpression then SevRemark else SevError, 95)
    | Op KGroup _ _ => Some (StrangeCall, SevWarning, 95)
    | Op KPostfix op _ => if op =? POSTOP_Transpose then None else Some (StrangeCall, SevError, 95)
    | _ => Some (StrangeCall, SevError, 95)
    end.
(** the issue, at the first child of the brackets and the last *)
Definition issue_between (i : option (atag * asev * Z)) (ch : list cst) : res (list aissue) :=
  match i with
  | None => Ok []
  | Some (tag, sev, conf) =>
      match ch with
      | [] => Panic
      | first :: _ =>
          a <~ get_source first ;; b <~ get_source (last ch first) ;;
          Ok [mk_aissue tag sev (Known a) conf [Known b]]
      end
  end.

(** abstract_call_node.rs 43-872 [abstract_call_node], 887-902 [AggCallNode::from_cst] *)
Definition abstract_call_node (rec : cst -> res ast) (h : callhead cst) (missing : bool) (op : Z) (ch : list cst) (data : span) : res ast :=
  match h with
  | Concrete _ => Panic
  | Aggregate head =>
      let type_specifier h := call "System`TypeSpecifier" [h] no_meta in
      if missing then
        a <~ rec head ;; l <~ abstractGroupMissingCloser rec ch ;;
        if op =? CALLOP_CodeParser_GroupSquare then Ok (ACallMissingCloser a l (from_src data))
        else if op =? CALLOP_CodeParser_GroupTypeSpecifier then Ok (ACallMissingCloser (type_specifier a) l (from_src data))
        else Ok (ACallMissingCloser (symbol_leaf "System`Part" no_meta) (a :: l) (from_src data))
      else if op =? CALLOP_CodeParser_GroupSquare then
        match ch with
        | _ :: inner :: _ =>
            match inner with
            | Op KGroup gop ch2 =>
                if gop =? GOP_CodeParser_GroupSquare then
                  match ch with
                  | [_; _; _] =>
                      issues <~ issue_between (part_issue head) ch ;;
                      a <~ rec head ;; l <~ abstractGroupNode rec ch2 ;;
                      Ok (call "System`Part" (a :: l) (mk_ameta (Known data) issues))
                  | _ => Panic
                  end
                else
                  issues <~ issue_between (call_issue head) ch ;;
                  a <~ rec head ;; l <~ abstractGroupNode rec ch ;; Ok (ACall a l (mk_ameta (Known data) issues))
            | _ =>
                issues <~ issue_between (call_issue head) ch ;;
                a <~ rec head ;; l <~ abstractGroupNode rec ch ;; Ok (ACall a l (mk_ameta (Known data) issues))
            end
        | _ => Panic
        end
      else if op =? CALLOP_CodeParser_GroupTypeSpecifier then
        s <~ get_source head ;;
        let fine := match head with Tok t => t_kind t =? TK_String | _ => false end in
        let issues := if fine then [] else [mk_aissue StrangeCall SevError (Known s) 95 []] in
        a <~ rec head ;; l <~ abstractGroupNode rec ch ;; Ok (ACall (type_specifier a) l (mk_ameta (Known data) issues))
      else
        match ch with
        | [] => Panic
        | _ =>
            issues <~ issue_between (part_issue head) ch ;;
            a <~ rec head ;; l <~ abstractGroupNode rec ch ;;
            Ok (call "System`Part" (a :: l) (mk_ameta (Known data) issues))
        end
  end.

(** ** Boxes *)

Definition leaf_of (k : Z) (n : cst) : bool := match n with Tok t => t_kind t =? k | _ => false end.

(** abstract_cst.rs 2976-3128 [try_subscript_box_part_special_cases]: [None] for [Err] *)
Definition try_subscript (rec : cst -> res ast) (kind : Z) (ch : list cst) (data : span) : res (option ast) :=
  if kind =? BOX_SubscriptBox then
    match ch with
    | a :: middle :: _ =>
        data1 <~ get_source middle ;;
        match middle with
        | Op KGroup op ch1 =>
            if op =? GOP_CodeParser_GroupSquare then
              match ch1 with
              | [o1; group; c1] =>
                  if leaf_of TK_OpenSquare o1 && leaf_of TK_CloseSquare c1 then
                    data2 <~ get_source group ;;
                    match group with
                    | Op KGroup op2 ch2 =>
                        if op2 =? GOP_CodeParser_GroupSquare then
                          match ch2 with
                          | [o2; b; c2] =>
                              if leaf_of TK_OpenSquare o2 && leaf_of TK_CloseSquare c2 then
                                o1 <~ rec o1 ;; o2 <~ rec o2 ;; c1 <~ rec c1 ;; c2 <~ rec c2 ;; a <~ rec a ;; b <~ rec b ;;
                                Ok (Some (ABox BOX_SubscriptBox
                                  [a; AGroup GOP_CodeParser_GroupSquare o1 (AGroup GOP_CodeParser_GroupSquare o2 b c2 (from_src data2)) c1 (from_src data1)]
                                  (from_src data)))
                              else Ok None
                          | _ => Panic
                          end
                        else Ok None
                    | _ => Ok None
                    end
                  else Ok None
              | _ => Panic
              end
            else if op =? GOP_CodeParser_GroupDoubleBracket then
              match ch1 with
              | [x; b; c] =>
                  if leaf_of TK_LongName_LeftDoubleBracket x && leaf_of TK_LongName_RightDoubleBracket c then
                    a <~ rec a ;; x <~ rec x ;; b <~ rec b ;; c <~ rec c ;;
                    Ok (Some (ABox BOX_SubscriptBox [a; AGroup GOP_CodeParser_GroupDoubleBracket x b c (from_src data1)] (from_src data)))
                  else Ok None
              | _ => Panic
              end
            else Ok None
        | _ => Ok None
        end
    | _ => Ok None
    end
  else Ok None.

(** abstract_cst.rs 3143-3273 [try_superscript_box_derivative_special_case].  The expressions
    of a code node are their names. *)
Definition try_superscript (rec : cst -> res ast) (kind : Z) (ch : list cst) (data : span) : res (option ast) :=
  if kind =? BOX_SuperscriptBox then
    match ch with
    | a :: middle :: _ =>
        match middle with
        | BoxN kind1 ch1 data1 =>
            if kind1 =? BOX_TagBox then
              match ch1 with
              | [lhs; t] =>
                  data2 <~ get_source lhs ;;
                  match lhs with
                  | Op KGroup op ch2 =>
                      if op =? GOP_CodeParser_GroupParen then
                        match t with
                        | CodeN first second src =>
                            if zlist_eqb first (bytes_of_string "System`Evaluated") && zlist_eqb second (bytes_of_string "System`Derivative") then
                              match ch2 with
                              | [x; b; c] =>
                                  if leaf_of TK_OpenParen x && leaf_of TK_CloseParen c then
                                    x <~ rec x ;; b <~ rec b ;; c <~ rec c ;; a <~ rec a ;;
                                    Ok (Some (ABox BOX_SuperscriptBox
                                      [a; ATagBoxGroupParen x b c (Known data2) first second (Known src) (from_src data1)] (from_src data)))
                                  else Ok None
                              | _ => Panic
                              end
                            else Ok None
                        | _ => Ok None
                        end
                      else Ok None
                  | _ => Ok None
                  end
              | _ => Panic
              end
            else Ok None
        | _ => Ok None
        end
    | _ => Panic
    end
  else Ok None.

(** abstract_cst.rs 2915-2967 [abstract_box_node] *)
Definition abstract_box_node (rec : cst -> res ast) (kind : Z) (ch : list cst) (data : span) : res ast :=
  if zin kind [BOX_RowBox; BOX_GridBox] then Panic
  else
    x <~ try_subscript rec kind ch data ;;
    match x with
    | Some a => Ok a
    | None =>
        x <~ try_superscript rec kind ch data ;;
        match x with
        | Some a => Ok a
        | None => l <~ mapr rec ch ;; Ok (ABox kind l (from_src data))
        end
    end.

(** ** [abstract_] *)

(** abstract_cst.rs 285-421: compound nodes *)
Definition abstract_compound (o : aopts) (rec : cst -> res ast) (op : Z) (ch : list cst) (data : span) : res ast :=
  match ch with
  | [x; y] =>
      if zin op [COP_Blank; COP_BlankSequence; COP_BlankNullSequence] then
        a <~ rec y ;; Ok (call (op_symbol KCompound op) [a] (from_src data))
      else if zin op [COP_CodeParser_PatternBlank; COP_CodeParser_PatternBlankSequence; COP_CodeParser_PatternBlankNullSequence] then
        a <~ rec x ;; b <~ rec y ;; Ok (call "System`Pattern" [a; b] (from_src data))
      else if op =? COP_CodeParser_PatternOptionalDefault then
        match y with
        | Tok u =>
            if t_kind u =? TK_UnderDot then
              a <~ rec x ;;
              Ok (call "System`Optional" [call "System`Pattern" [a; call "System`Blank" [] (from_src (t_src u))] (from_src data)] (from_src data))
            else Panic
        | _ => Panic
        end
      else if op =? COP_Slot then
        match y with
        | Tok u =>
            if t_kind u =? TK_Integer then a <~ abstract_replace_token u ;; Ok (call "System`Slot" [a] (from_src data))
            else if zin (t_kind u) [TK_Symbol; TK_String] then
              s <~ as_str u ;; Ok (call "System`Slot" [string_leaf (escape_symbol_string o s) (from_src (t_src u))] (from_src data))
            else Panic
        | _ => Panic
        end
      else
        match y with
        | Tok u =>
            if t_kind u =? TK_Integer then
              a <~ rec y ;; Ok (call (if op =? COP_SlotSequence then "System`SlotSequence" else "System`Out") [a] (from_src data))
            else Panic
        | _ => Panic
        end
  | _ => Panic
  end.

(** abstract_cst.rs 426-513: prefix nodes *)
Definition abstract_prefix (o : aopts) (rec : cst -> res ast) (op : Z) (ch : list cst) (data : span) : res ast :=
  match ch with
  | [rator; rand] =>
      if op =? PREOP_Minus then g <~ negate rand ;; negated_into_ast o rec g data
      else if op =? PREOP_Plus then abstractPrefixPlus rec rand data
      else if op =? PREOP_CodeParser_PrefixNot2 then abstractNot2 rec rand rator data
      else if op =? PREOP_CodeParser_PrefixLinearSyntaxBang then
        if leaf_of TK_LinearSyntaxBlob rand then
          a <~ rec rator ;; b <~ rec rand ;; Ok (APrefixLinearSyntaxBang a b (from_src data))
        else b <~ rec rand ;; Ok (AAbstractSyntaxError LinearSyntaxBang [b] (from_src data))
      else if op =? PREOP_Get then
        match rand with
        | Tok t =>
            if t_kind t =? TK_String then
              s <~ as_str t ;; Ok (call "System`Get" [string_leaf (escape_file_string o s) (from_src (t_src t))] (from_src data))
            else Panic
        | _ => Panic
        end
      else a <~ rec rand ;; Ok (call (op_symbol KPrefix op) [a] (from_src data))
  | _ => Panic
  end.

(** abstract_cst.rs 520-574: postfix nodes *)
Definition abstract_postfix (rec : cst -> res ast) (op : Z) (ch : list cst) (data : span) : res ast :=
  match ch with
  | [operand; rator] =>
      if op =? POSTOP_HermitianConjugate then a <~ rec operand ;; Ok (call "System`ConjugateTranspose" [a] (from_src data))
      else if op =? POSTOP_Derivative then
        let derivative n body := ACall (call "System`Derivative" [int_leaf n no_meta] no_meta) [body] no_meta in
        match rator with
        | Tok t =>
            if t_kind t =? TK_SingleQuote then
              rbind (derivativeOrderAndAbstractedBody rec operand) (fun '(order, body) => Ok (derivative (order + 1) body))
            else if t_kind t =? TK_Boxes_MultiSingleQuote then
              s <~ as_str t ;; a <~ rec operand ;; Ok (derivative (zlen s) a)
            else Panic
        | _ => Panic
        end
      else a <~ rec operand ;; Ok (call (op_symbol KPostfix op) [a] (from_src data))
  | _ => Panic
  end.

(** abstract_cst.rs 581-697: binary nodes *)
Definition abstract_binary (o : aopts) (rec : cst -> res ast) (op : Z) (ch : list cst) (data : span) : res ast :=
  match ch with
  | [lhs; middle; rhs] =>
      if op =? BOP_Divide then abstractTimes_BinaryNode_Divide o rec lhs rhs data
      else if op =? BOP_CodeParser_BinaryAt then a <~ rec lhs ;; b <~ rec rhs ;; Ok (ACall a [b] (from_src data))
      else if op =? BOP_MapApply then
        a <~ rec lhs ;; b <~ rec rhs ;;
        if q_old_at_at_at o then Ok (call "System`Apply" [a; b; call "System`List" [int_leaf 1 no_meta] no_meta] (from_src data))
        else Ok (call "System`MapApply" [a; b] (from_src data))
      else if op =? BOP_CodeParser_BinarySlashSlash then b <~ rec rhs ;; a <~ rec lhs ;; Ok (ACall b [a] (from_src data))
      else if zin op [BOP_Put; BOP_PutAppend] then
        match rhs with
        | Tok t =>
            if t_kind t =? TK_String then
              s <~ as_str t ;; a <~ rec lhs ;;
              Ok (call (op_symbol KBinary op) [a; string_leaf (escape_file_string o s) (from_src (t_src t))] (from_src data))
            else Panic
        | _ => Panic
        end
      else if op =? BOP_Unset then
        if leaf_of TK_Equal middle && leaf_of TK_Dot rhs then a <~ rec lhs ;; Ok (call "System`Unset" [a] (from_src data))
        else Panic
      else
        a <~ rec lhs ;; b <~ rec rhs ;;
        if (op =? BOP_PatternTest) && match lhs with Op KBinary op2 _ => op2 =? BOP_PatternTest | _ => false end then
          Ok (AAbstractSyntaxError NonAssociativePatternTest [a; b] (from_src data))
        else Ok (call (op_symbol KBinary op) [a; b] (from_src data))
  | _ => Panic
  end.

(** the name of a symbol, without its context *)
Fixpoint after_last_tick (s acc : list Z) : list Z :=
  match s with [] => acc | c :: r => after_last_tick r (if c =? 96 then r else acc) end.
Definition symbol_name (s : string) : list Z := let b := bytes_of_string s in after_last_tick b b.

(** abstract_cst.rs 702-835: infix nodes *)
Definition abstract_infix (o : aopts) (rec : cst -> res ast) (op : Z) (ch : list cst) (data : span) : res ast :=
  if op =? IOP_CodeParser_InfixInequality then abstractInfixInequality rec ch data
  else if op =? IOP_Plus then abstractPlus o rec ch data
  else if op =? IOP_Times then
    l <~ part_span_even_children o None ch ;; abstractTimes_InfixNode o rec l data
  else if op =? IOP_Divisible then
    l <~ part_span_even_children o None ch ;;
    l <~ mapr (fun n => processInfixBinaryAtQuirk o n (bytes_of_string "Divisible")) l ;;
    args <~ mapr rec (rev l) ;; Ok (call "System`Divisible" args (from_src data))
  else if op =? IOP_CompoundExpression then
    l <~ part_span_even_children o (Some TK_Semi) ch ;;
    args <~ mapr (fun n =>
      match n with
      | Tok t => if t_kind t =? TK_Fake_ImplicitNull then Ok (symbol_leaf "System`Null" (from_src (t_src t))) else rec n
      | _ => rec n
      end) l ;;
    Ok (call "System`CompoundExpression" args (from_src data))
  else if op =? IOP_MessageName then
    l <~ part_span_even_children o (Some TK_ColonColon) ch ;; abstractMessageName o rec l data
  else if op =? IOP_CodeParser_InfixTilde then
    l <~ part_span_even_children o (Some TK_Tilde) ch ;; abstractInfixTilde rec l (from_src data)
  else if Nat.even (length ch) then Panic
  else
    l <~ part_span_even_children o None ch ;;
    l <~ (if zin op [IOP_SameQ; IOP_UnsameQ] then Ok l else mapr (fun n => processInfixBinaryAtQuirk o n (symbol_name (op_symbol KInfix op))) l) ;;
    args <~ mapr rec l ;; Ok (call (op_symbol KInfix op) args (from_src data)).

(** abstract_cst.rs 842-937: ternary nodes *)
Definition abstract_ternary (rec : cst -> res ast) (op : Z) (ch : list cst) (data : span) : res ast :=
  match ch with
  | [lhs; _; middle; middle_right; rhs] =>
      if op =? TOP_CodeParser_TernaryTilde then
        m <~ rec middle ;; a <~ rec lhs ;; b <~ rec rhs ;;
        if match middle with Op KInfix iop _ => iop =? IOP_CodeParser_Comma | _ => false end then
          rbind (into_children_and_source m) (fun '(cs, src) =>
            Ok (ACall (AAbstractSyntaxError CommaTopLevel cs (mk_ameta src [])) [a; b] (from_src data)))
        else Ok (ACall m [a; b] (from_src data))
      else if op =? TOP_TagUnset then
        if leaf_of TK_Equal middle_right && leaf_of TK_Dot rhs then
          a <~ rec lhs ;; b <~ rec middle ;; Ok (call "System`TagUnset" [a; b] (from_src data))
        else Panic
      else
        a <~ rec lhs ;; b <~ rec middle ;; c <~ rec rhs ;;
        if op =? TOP_CodeParser_TernaryOptionalPattern then
          Ok (call "System`Optional" [call "System`Pattern" [a; b] no_meta; c] (from_src data))
        else Ok (call (op_symbol KTernary op) [a; b; c] (from_src data))
  | _ => Panic
  end.

(** abstract_cst.rs 1146-1188: integrals *)
Definition abstract_prefix_binary (rec : cst -> res ast) (op : Z) (ch : list cst) (data : span) : res ast :=
  match ch with
  | [_; operand1; operand2] =>
      match operand2 with
      | Op KPrefix dop cs =>
          if zin dop [PREOP_DifferentialD; PREOP_CapitalDifferentialD] then
            match cs with
            | [_; var] => a <~ rec operand1 ;; b <~ rec var ;; Ok (call (op_symbol KPrefixBinary op) [a; b] (from_src data))
            | _ => Panic
            end
          else a <~ rec operand1 ;; b <~ rec operand2 ;; Ok (call (op_symbol KPrefixBinary op) [a; b] (from_src data))
      | _ => a <~ rec operand1 ;; b <~ rec operand2 ;; Ok (call (op_symbol KPrefixBinary op) [a; b] (from_src data))
      end
  | _ => Panic
  end.

(** abstract_cst.rs 944-1120: groups *)
Definition abstract_group (o : aopts) (rec : cst -> res ast) (op : Z) (ch : list cst) (data : span) : res ast :=
  if op =? GOP_CodeParser_GroupParen then abstract_paren o rec ch data
  else if op =? GOP_CodeParser_GroupSquare then abstract_naked o rec OpenSquare ch data
  else if op =? GOP_CodeParser_GroupTypeSpecifier then abstract_naked o rec ColonColonOpenSquare ch data
  else if op =? GOP_CodeParser_GroupDoubleBracket then abstract_naked o rec LeftDoubleBracket ch data
  else l <~ abstractGroupNode rec ch ;; Ok (call (op_symbol KGroup op) l (from_src data)).

(** abstract_cst.rs 283-1263: the node without its final check *)
Definition abstract_node (o : aopts) (rec : cst -> res ast) (n : cst) (data : span) : res ast :=
  match n with
  | Tok t => abstract_replace_token t
  | Call h missing op ch => abstract_call_node rec h missing op ch data
  | SynErr e ch =>
      match ch with
      | [lhs; _; middle] => a <~ rec lhs ;; b <~ rec middle ;; Ok (ASyntaxError e [a; b] (from_src data))
      | _ => Panic
      end
  | Op KCompound op ch => abstract_compound o rec op ch data
  | Op KPrefix op ch => abstract_prefix o rec op ch data
  | Op KPostfix op ch => abstract_postfix rec op ch data
  | Op KBinary op ch => abstract_binary o rec op ch data
  | Op KInfix op ch => abstract_infix o rec op ch data
  | Op KTernary op ch => abstract_ternary rec op ch data
  | Op KPrefixBinary op ch => abstract_prefix_binary rec op ch data
  | Op KGroup op ch => abstract_group o rec op ch data
  | Op KGroupMissingCloser op ch => l <~ abstractGroupMissingCloser rec ch ;; Ok (AGroupMissingCloser op l (from_src data))
  | Op KGroupMissingOpener op ch => l <~ abstractGroupMissingOpener rec ch ;; Ok (AGroupMissingOpener op l (from_src data))
  | BoxN kind ch src => abstract_box_node rec kind ch src
  | CodeN first second src => Ok (ACode first second (from_src src))
  end.

(** abstract_cst.rs 1265-1288: the source of the result is that of the node, but for
    parentheses (and tokens, which return earlier) *)
Definition source_checked (n : cst) (a : ast) (data : span) : bool :=
  match n with
  | Tok _ => true
  | Op KGroup op _ => (op =? GOP_CodeParser_GroupParen) || match m_src (metadata a) with Known s => span_eqb s data | Unknown => false end
  | _ => match m_src (metadata a) with Known s => span_eqb s data | Unknown => false end
  end.

(** abstract_cst.rs 275-1291 [abstract_], 253-262 [abstract_cst].  [fuel] bounds the depth. *)
Fixpoint abstract_ (o : aopts) (fuel : nat) (n : cst) : res ast :=
  match fuel with
  | O => OutOfFuel
  | S k =>
      data <~ get_source n ;;
      a <~ abstract_node o (abstract_ o k) n data ;;
      if a_dbg o && negb (source_checked n a data) then Panic else Ok a
  end.

(** enough fuel *)
Fixpoint size (n : cst) : nat :=
  let sum := fold_right (fun m k => (size m + k)%nat) 0%nat in
  match n with
  | Tok _ | CodeN _ _ _ => 1%nat
  | Call (Concrete l) _ _ ch => S (sum l + sum ch)
  | Call (Aggregate m) _ _ ch => S (size m + sum ch)
  | SynErr _ ch | Op _ _ ch | BoxN _ ch _ => S (sum ch)
  end.
Definition abstract_cst (o : aopts) (n : cst) : res ast := abstract_ o (size n) n.

(** lib.rs 588-617 [parse_bytes_ast_seq], after parsing *)
Definition to_ast (o : aopts) (l : list cst) : res (list ast) :=
  l <~ aggregate_cst_seq l ;; mapr (abstract_cst o) l.
