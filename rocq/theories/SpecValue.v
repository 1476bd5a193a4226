(** What an expression means, read off its concrete syntax tree and off its abstract syntax
    tree.  Nothing here refers to how the one is turned into the other. *)
From Coq Require Import String.
From Coq Require Import ZArith List Bool.
From Verif Require Import Base Source LongNames GenTokenKind GenOps GenSymbols Tokenizer Cst Ast.
Import ListNotations.
Local Open Scope string_scope.
Local Open Scope list_scope.
Local Open Scope Z_scope.

(** ** Worlds

    Names, numbers and strings have values, functions are applied to arguments, and there is
    some arithmetic, about which little is assumed.  [chain a [(r1, b); (r2, c)]] is the value
    of [a r1 b r2 c], where r1 and r2 are the names of comparisons. *)
Record world := mk_world {
  V : Type;
  variable : list Z -> V;      (* a name as it is written *)
  number : Z -> list Z -> V;   (* an integer or a real as it is written *)
  integer : Z -> V;
  text : list Z -> V;
  apply_to : V -> list V -> V;
  zero : V; one : V; plus : V -> V -> V; times : V -> V -> V; minus : V -> V; power : V -> V -> V;
  chain : V -> list (string * V) -> V
}.

Definition bytes : string -> list Z := bytes_of_string.

(** decimal digits and the integer they are *)
Definition digits (ds : list Z) : Prop := ds <> [] /\ Forall (fun d => 48 <= d <= 57) ds.
Definition decimal (ds : list Z) : Z := fold_left (fun v d => 10 * v + (d - 48)) ds 0.

(** Comparisons: the name and the operators for it. *)
Definition PLAIN_COMPARISONS : list (string * list Z) := [
  ("Equal", [TK_EqualEqual; TK_LongName_Equal; TK_LongName_LongEqual]); ("Unequal", [TK_BangEqual; TK_LongName_NotEqual]);
  ("Less", [TK_Less]); ("Greater", [TK_Greater]);
  ("LessEqual", [TK_LessEqual; TK_LongName_LessEqual; TK_LongName_LessSlantEqual]);
  ("GreaterEqual", [TK_GreaterEqual; TK_LongName_GreaterEqual; TK_LongName_GreaterSlantEqual])].
Definition OTHER_COMPARISONS : list (string * list Z) := [
  ("GreaterEqualLess", [TK_LongName_GreaterEqualLess]); ("GreaterFullEqual", [TK_LongName_GreaterFullEqual]);
  ("GreaterGreater", [TK_LongName_GreaterGreater]); ("GreaterLess", [TK_LongName_GreaterLess]);
  ("GreaterTilde", [TK_LongName_GreaterTilde]); ("LessEqualGreater", [TK_LongName_LessEqualGreater]);
  ("LessFullEqual", [TK_LongName_LessFullEqual]); ("LessGreater", [TK_LongName_LessGreater]);
  ("LessLess", [TK_LongName_LessLess]); ("LessTilde", [TK_LongName_LessTilde]);
  ("NestedGreaterGreater", [TK_LongName_NestedGreaterGreater]); ("NestedLessLess", [TK_LongName_NestedLessLess]);
  ("NotGreater", [TK_LongName_NotGreater]); ("NotGreaterEqual", [TK_LongName_NotGreaterEqual]);
  ("NotGreaterFullEqual", [TK_LongName_NotGreaterFullEqual]); ("NotGreaterGreater", [TK_LongName_NotGreaterGreater]);
  ("NotGreaterLess", [TK_LongName_NotGreaterLess]); ("NotGreaterSlantEqual", [TK_LongName_NotGreaterSlantEqual]);
  ("NotGreaterTilde", [TK_LongName_NotGreaterTilde]); ("NotLess", [TK_LongName_NotLess]);
  ("NotLessEqual", [TK_LongName_NotLessEqual]); ("NotLessFullEqual", [TK_LongName_NotLessFullEqual]);
  ("NotLessGreater", [TK_LongName_NotLessGreater]); ("NotLessLess", [TK_LongName_NotLessLess]);
  ("NotLessSlantEqual", [TK_LongName_NotLessSlantEqual]); ("NotLessTilde", [TK_LongName_NotLessTilde]);
  ("NotNestedGreaterGreater", [TK_LongName_NotNestedGreaterGreater]); ("NotNestedLessLess", [TK_LongName_NotNestedLessLess])].
Definition VECTOR_COMPARISONS : list (string * list Z) := [
  ("VectorLess", [TK_LongName_VectorLess]); ("VectorGreater", [TK_LongName_VectorGreater]);
  ("VectorLessEqual", [TK_LongName_VectorLessEqual]); ("VectorGreaterEqual", [TK_LongName_VectorGreaterEqual])].
Definition named (table : list (string * list Z)) (s : string) : Prop := In s (map fst table).
Definition compares (t : token) (s : string) : Prop :=
  exists ks, In (s, ks) (PLAIN_COMPARISONS ++ OTHER_COMPARISONS ++ VECTOR_COMPARISONS) /\ In (t_kind t) ks.

(** Characters that stand for a name. *)
Definition SPELLINGS : list (string * list (list Z)) := [
  ("Pi", [[0xCF; 0x80]; bytes "\[Pi]"; bytes "\:03c0"; bytes "\|0003c0"]);
  ("Degree", [[0xC2; 0xB0]; bytes "\[Degree]"; bytes "\:00b0"; bytes "\.b0"; bytes "\260"; bytes "\|0000b0"]);
  ("Infinity", [[0xE2; 0x88; 0x9E]; bytes "\[Infinity]"; bytes "\:221e"; bytes "\|00221e"]);
  ("E", [[0xEF; 0x9D; 0x8D]; bytes "\[ExponentialE]"; bytes "\:f74d"; bytes "\|00f74d"]);
  ("I", [[0xEF; 0x9D; 0x8E]; bytes "\[ImaginaryI]"; bytes "\:f74e"; bytes "\|00f74e"; [0xEF; 0x9D; 0x8F]; bytes "\[ImaginaryJ]"; bytes "\:f74f"; bytes "\|00f74f"])].
Definition canonical (x : list Z) : list Z :=
  match find (fun p => existsb (zlist_eqb x) (snd p)) SPELLINGS with Some (s, _) => bytes s | None => x end.

(** How the percent sign may be written, and texts of several of them. *)
Definition PERCENTS : list (list Z) := [bytes "%"; bytes "\.25"; bytes "\:0025"; bytes "\|000025"; bytes "\045"; bytes "\[RawPercent]"].
Inductive percents : list Z -> Z -> Prop :=
| percents_none : percents [] 0
| percents_more : forall p s n, In p PERCENTS -> percents s n -> percents (p ++ s) (n + 1).

(** A word written with or without quotation marks, and the string it is.  File names with
    other characters than these are left out, symbols may start with a long name. *)
Definition bare (s : list Z) : Prop := Forall (fun b => 32 <= b < 127 /\ b <> 34 /\ b <> 92) s.
Inductive file_word : list Z -> list Z -> Prop :=
| word_quoted : forall s, file_word (34 :: s) (34 :: s)
| word_bare : forall s, bare s -> file_word s (34 :: s ++ [34]).
Inductive word : list Z -> list Z -> Prop :=
| word_plain : forall s u, file_word s u -> word s u
| word_long_name : forall s, word (bytes "\[" ++ s) (34 :: (bytes "\[" ++ s) ++ [34]).

Section World.
  Variable w : world.
  Notation val := (V w).

  Definition name (s : string) : val := variable w (bytes s).
  Definition sum (l : list val) : val := fold_right (plus w) (zero w) l.
  Definition product (l : list val) : val := fold_right (times w) (one w) l.
  Definition app (s : string) (l : list val) : val := apply_to w (name s) l.
  Definition int (s : string) : val := number w TK_Integer (bytes s).
  Definition over (a b : val) : val := times w a (power w b (minus w (one w))).

  (** What is assumed of a world. *)
  Record lawful : Prop := {
    (* addition and multiplication: associative, with a neutral element *)
    plus_assoc : forall a b c, plus w a (plus w b c) = plus w (plus w a b) c;
    plus_zero : forall a, plus w a (zero w) = a /\ plus w (zero w) a = a;
    times_assoc : forall a b c, times w a (times w b c) = times w (times w a b) c;
    times_one : forall a, times w a (one w) = a /\ times w (one w) a = a;
    minus_times : forall a, minus w a = times w (minus w (one w)) a;
    minus_zero : minus w (zero w) = zero w;
    (* what the functions do *)
    plus_args : forall l, app "Plus" l = sum l;
    times_args : forall l, app "Times" l = product l;
    power_args : forall a b, app "Power" [a; b] = power w a b;
    (* numbers *)
    zero_written : int "0" = zero w;
    one_written : int "1" = one w;
    integer_written : forall ds, digits ds -> number w TK_Integer ds = integer w (decimal ds);
    minus_written : forall k s, k = TK_Integer \/ k = TK_Real -> number w k (45 :: s) = minus w (number w k s);
    (* comparisons: Less[a, b, c] is a < b < c, Inequality[a, Less, b, Equal, c] is a < b == c *)
    comparison : forall s a l, named (PLAIN_COMPARISONS ++ OTHER_COMPARISONS) s -> app s (a :: l) = chain w a (map (pair s) l);
    vector_comparison : forall s a l, named VECTOR_COMPARISONS s -> app s [app "List" (a :: l)] = chain w a (map (pair s) l);
    inequality : forall a l, app "Inequality" (a :: flat_map (fun p => [name (fst p); snd p]) l) = chain w a l;
    vector_inequality : forall a l, app "Developer`VectorInequality" (a :: flat_map (fun p => [name (fst p); snd p]) l) = chain w a l;
    (* f @@@ x is Apply[f, x, {1}] *)
    map_apply : forall f x, app "Apply" [f; x; app "List" [int "1"]] = app "MapApply" [f; x]
  }.

  (** ** The value of an abstract syntax tree *)
  Inductive denotes : ast -> val -> Prop :=
  | denotes_name : forall s d, denotes (ALeaf TK_Symbol s d) (variable w s)
  | denotes_number : forall k s d, k = TK_Integer \/ k = TK_Real -> denotes (ALeaf k s d) (number w k s)
  | denotes_text : forall s d, denotes (ALeaf TK_String s d) (text w s)
  | denotes_call : forall h l d f vs, denotes h f -> Forall2 denotes l vs -> denotes (ACall h l d) (apply_to w f vs).

  (** ** The value of a concrete syntax tree (without blanks and comments) *)

  (** operands with tokens between them *)
  Inductive separated : list cst -> list token -> list cst -> Prop :=
  | separated_one : forall x, separated [x] [] [x]
  | separated_more : forall x t r ts xs, separated r ts xs -> separated (x :: Tok t :: r) (t :: ts) (x :: xs).

  (** the name of an operator: And for && *)
  Definition without_context (s : string) : string := if prefix "System`" s then substring 7 (String.length s - 7) s else s.
  Definition operator (table : list (Z * string)) (op : Z) : string := match assoc op table with Some s => without_context s | None => "" end.
  (** [And@x], as an operand of And *)
  Definition own_head (s : string) (n : cst) : Prop := exists t u x, n = Op KBinary BOP_CodeParser_BinaryAt [Tok t; u; x] /\ t_kind t = TK_Symbol /\ t_text t = bytes s.

  (** tokens that stand for an expression *)
  Definition stands_for (k : Z) : option val :=
    if k =? TK_Under then Some (app "Blank" [])
    else if k =? TK_UnderUnder then Some (app "BlankSequence" [])
    else if k =? TK_UnderUnderUnder then Some (app "BlankNullSequence" [])
    else if k =? TK_UnderDot then Some (app "Optional" [app "Blank" []])
    else if k =? TK_Hash then Some (app "Slot" [int "1"])
    else if k =? TK_HashHash then Some (app "SlotSequence" [int "1"])
    else if k =? TK_Percent then Some (app "Out" [])
    else if k =? TK_Fake_ImplicitOne then Some (int "1")
    else if k =? TK_Fake_ImplicitAll then Some (name "All")
    else if (k =? TK_Error_PrefixImplicitNull) || (k =? TK_Error_InfixImplicitNull) then Some (name "Null")
    else None.

  Definition is_comma (n : cst) : Prop := exists ch, n = Op KInfix IOP_CodeParser_Comma ch.
  Definition is_square (n : cst) : Prop := exists ch, n = Op KGroup GOP_CodeParser_GroupSquare ch.
  Definition subtracts (t : token) : bool := (t_kind t =? TK_Minus) || (t_kind t =? TK_LongName_Minus).
  Definition adds (t : token) : bool := (t_kind t =? TK_Plus) || (t_kind t =? TK_LongName_ImplicitPlus).
  Fixpoint total (a : val) (l : list (token * val)) : val :=
    match l with
    | [] => a
    | (t, b) :: r => total (plus w a (if subtracts t then minus w b else b)) r
    end.

  (** [body] with k primes *)
  Inductive primed : cst -> Z -> cst -> Prop :=
  | primed_one : forall n t, t_kind t = TK_SingleQuote -> (forall ch, n <> Op KPostfix POSTOP_Derivative ch) -> primed (Op KPostfix POSTOP_Derivative [n; Tok t]) 1 n
  | primed_more : forall m k n t, primed m k n -> t_kind t = TK_SingleQuote -> primed (Op KPostfix POSTOP_Derivative [m; Tok t]) (k + 1) n.

  Inductive means : cst -> val -> Prop :=
  (* names, numbers and strings *)
  | means_name : forall t, t_kind t = TK_Symbol -> t_text t <> bytes "CodeParser`Comma" -> means (Tok t) (variable w (canonical (t_text t)))
  | means_number : forall t, t_kind t = TK_Integer \/ t_kind t = TK_Real -> means (Tok t) (number w (t_kind t) (t_text t))
  | means_text : forall t, t_kind t = TK_String -> means (Tok t) (text w (t_text t))
  | means_token : forall t v, stands_for (t_kind t) = Some v -> means (Tok t) v
  (* arithmetic *)
  | means_parentheses : forall t n u v, ~ is_comma n -> means n v -> means (Op KGroup GOP_CodeParser_GroupParen [t; n; u]) v
  | means_minus : forall t n v, means n v -> means (Op KPrefix PREOP_Minus [t; n]) (minus w v)
  | means_plus : forall t n v, means n v -> means (Op KPrefix PREOP_Plus [t; n]) v
  | means_sum : forall ch ts x xs v vs, separated ch ts (x :: xs) -> Forall (fun t => adds t = true \/ subtracts t = true) ts ->
      means x v -> Forall2 means xs vs -> means (Op KInfix IOP_Plus ch) (total v (combine ts vs))
  | means_product : forall ch ts xs vs, separated ch ts xs -> Forall2 means xs vs -> means (Op KInfix IOP_Times ch) (product vs)
  | means_quotient : forall a t b x y, means a x -> means b y -> means (Op KBinary BOP_Divide [a; t; b]) (over x y)
  | means_power : forall a t b x y, means a x -> means b y -> means (Op KBinary BOP_Power [a; t; b]) (power w x y)
  (* comparisons; those of vectors are not mixed with others that have no vector form *)
  | means_comparison : forall ch ts ss x xs v vs, separated ch ts (x :: xs) -> Forall2 compares ts ss ->
      Forall (fun s => ~ named VECTOR_COMPARISONS s) ss \/ Forall (fun s => ~ named OTHER_COMPARISONS s) ss ->
      means x v -> Forall2 means xs vs -> means (Op KInfix IOP_CodeParser_InfixInequality ch) (chain w v (combine ss vs))
  (* functions and their arguments *)
  | means_call : forall h body f vs, means h f -> means_inside body vs -> (forall x m y, body = [x; m; y] -> ~ is_square m) ->
      means (Call (Aggregate h) false CALLOP_CodeParser_GroupSquare body) (apply_to w f vs)
  | means_part : forall h t body u f vs, means h f -> means_inside body vs ->
      means (Call (Aggregate h) false CALLOP_CodeParser_GroupSquare [t; Op KGroup GOP_CodeParser_GroupSquare body; u]) (app "Part" (f :: vs))
  | means_part_long : forall h body f vs, means h f -> means_inside body vs ->
      means (Call (Aggregate h) false CALLOP_CodeParser_GroupDoubleBracket body) (app "Part" (f :: vs))
  | means_at : forall a t b f x, means a f -> means b x -> means (Op KBinary BOP_CodeParser_BinaryAt [a; t; b]) (apply_to w f [x])
  | means_slash_slash : forall a t b x f, means a x -> means b f -> means (Op KBinary BOP_CodeParser_BinarySlashSlash [a; t; b]) (apply_to w f [x])
  | means_tilde : forall a t b u c x f y, means a x -> means b f -> means c y -> ~ is_comma b ->
      means (Op KTernary TOP_CodeParser_TernaryTilde [a; t; b; u; c]) (apply_to w f [x; y])
  | means_group : forall op body vs, ~ In op [GOP_CodeParser_GroupParen; GOP_CodeParser_GroupSquare; GOP_CodeParser_GroupTypeSpecifier; GOP_CodeParser_GroupDoubleBracket] ->
      means_inside body vs -> means (Op KGroup op body) (app (operator GOP_TO op) vs)
  (* other operators *)
  | means_prefix : forall op t n v, ~ In op [PREOP_Minus; PREOP_Plus; PREOP_CodeParser_PrefixNot2; PREOP_CodeParser_PrefixLinearSyntaxBang; PREOP_Get] ->
      means n v -> means (Op KPrefix op [t; n]) (app (operator PREOP_TO op) [v])
  | means_not_not : forall t n v, means n v -> means (Op KPrefix PREOP_CodeParser_PrefixNot2 [t; n]) (app "Not" [app "Not" [v]])
  | means_postfix : forall op n t v, ~ In op [POSTOP_HermitianConjugate; POSTOP_Derivative] ->
      means n v -> means (Op KPostfix op [n; t]) (app (operator POSTOP_TO op) [v])
  | means_hermitian : forall n t v, means n v -> means (Op KPostfix POSTOP_HermitianConjugate [n; t]) (app "ConjugateTranspose" [v])
  | means_binary : forall op a t b x y,
      ~ In op [BOP_Divide; BOP_Power; BOP_CodeParser_BinaryAt; BOP_CodeParser_BinarySlashSlash; BOP_Put; BOP_PutAppend; BOP_Unset; BOP_PatternTest] ->
      means a x -> means b y -> means (Op KBinary op [a; t; b]) (app (operator BOP_TO op) [x; y])
  | means_unset : forall a t b x, means a x -> means (Op KBinary BOP_Unset [a; t; b]) (app "Unset" [x])
  | means_infix : forall op ch ts xs vs,
      ~ In op [IOP_CodeParser_InfixInequality; IOP_Plus; IOP_Times; IOP_Divisible; IOP_CompoundExpression; IOP_MessageName; IOP_CodeParser_InfixTilde; IOP_CodeParser_Comma; IOP_CodeParser_InternalInvalid] ->
      separated ch ts xs -> Forall (fun n => ~ own_head (operator IOP_TO op) n) xs -> Forall2 means xs vs -> means (Op KInfix op ch) (app (operator IOP_TO op) vs)
  | means_divides : forall ch ts xs vs, separated ch ts xs -> Forall (fun n => ~ own_head "Divisible" n) xs -> Forall2 means xs vs ->
      means (Op KInfix IOP_Divisible ch) (app "Divisible" (rev vs))
  | means_sequence : forall ch ts xs vs, separated ch ts xs ->
      Forall2 (fun n v => means n v \/ exists t, n = Tok t /\ t_kind t = TK_Fake_ImplicitNull /\ v = name "Null") xs vs ->
      means (Op KInfix IOP_CompoundExpression ch) (app "CompoundExpression" vs)
  | means_ternary : forall op a t b u c x y z, In op [TOP_TagSet; TOP_TagSetDelayed; TOP_Span] -> means a x -> means b y -> means c z ->
      means (Op KTernary op [a; t; b; u; c]) (app (operator TOP_TO op) [x; y; z])
  | means_tag_unset : forall a t b u c x y, means a x -> means b y -> means (Op KTernary TOP_TagUnset [a; t; b; u; c]) (app "TagUnset" [x; y])
  | means_optional_pattern : forall a t b u c x y z, means a x -> means b y -> means c z ->
      means (Op KTernary TOP_CodeParser_TernaryOptionalPattern [a; t; b; u; c]) (app "Optional" [app "Pattern" [x; y]; z])
  | means_integral : forall op t a dop u b x y, In dop [PREOP_DifferentialD; PREOP_CapitalDifferentialD] -> means a x -> means b y ->
      means (Op KPrefixBinary op [t; a; Op KPrefix dop [u; b]]) (app (operator PBOP_TO op) [x; y])
  (* patterns and slots *)
  | means_blank : forall op t n v, In op [COP_Blank; COP_BlankSequence; COP_BlankNullSequence] -> means n v ->
      means (Op KCompound op [t; n]) (app (operator COP_TO op) [v])
  | means_pattern : forall op a b x y, In op [COP_CodeParser_PatternBlank; COP_CodeParser_PatternBlankSequence; COP_CodeParser_PatternBlankNullSequence] ->
      means a x -> means b y -> means (Op KCompound op [a; b]) (app "Pattern" [x; y])
  | means_default : forall a t x, means a x -> means (Op KCompound COP_CodeParser_PatternOptionalDefault [a; Tok t]) (app "Optional" [app "Pattern" [x; app "Blank" []]])
  | means_slot : forall op t n, In op [COP_Slot; COP_SlotSequence; COP_Out] -> t_kind n = TK_Integer ->
      means (Op KCompound op [t; Tok n]) (app (operator COP_TO op) [number w TK_Integer (t_text n)])
  | means_named_slot : forall t n u, t_kind n = TK_Symbol \/ t_kind n = TK_String -> word (t_text n) u ->
      means (Op KCompound COP_Slot [t; Tok n]) (app "Slot" [text w u])
  (* %% is Out[-2], f'' is Derivative[2][f] *)
  | means_percents : forall t n, t_kind t = TK_PercentPercent -> percents (t_text t) n -> 0 < n -> means (Tok t) (app "Out" [minus w (integer w n)])
  | means_derivative : forall ch k n v, primed (Op KPostfix POSTOP_Derivative ch) k n -> means n v ->
      means (Op KPostfix POSTOP_Derivative ch) (apply_to w (app "Derivative" [integer w k]) [v])
  (* messages and files: what follows is a string, with or without quotation marks *)
  | means_message : forall ch ts x ws v us, separated ch ts (x :: map Tok ws) -> means x v -> Forall2 (fun t u => t_kind t = TK_String /\ word (t_text t) u) ws us ->
      means (Op KInfix IOP_MessageName ch) (app "MessageName" (v :: map (text w) us))
  | means_get : forall t n u, t_kind n = TK_String -> file_word (t_text n) u -> means (Op KPrefix PREOP_Get [t; Tok n]) (app "Get" [text w u])
  | means_put : forall op a t n x u, In op [BOP_Put; BOP_PutAppend] -> means a x -> t_kind n = TK_String -> file_word (t_text n) u ->
      means (Op KBinary op [a; t; Tok n]) (app (operator BOP_TO op) [x; text w u])
  | means_type_specifier : forall h body f vs, means h f -> means_inside body vs ->
      means (Call (Aggregate h) false CALLOP_CodeParser_GroupTypeSpecifier body) (apply_to w (app "TypeSpecifier" [f]) vs)
  | means_pattern_test : forall a t b x y, (forall ch, a <> Op KBinary BOP_PatternTest ch) -> means a x -> means b y ->
      means (Op KBinary BOP_PatternTest [a; t; b]) (app "PatternTest" [x; y])
  (* what is between brackets: nothing, one expression, several with commas *)
  with means_inside : list cst -> list val -> Prop :=
  | inside_none : forall t u, means_inside [t; u] []
  | inside_one : forall t n u v, means n v -> ~ is_comma n -> means_inside [t; n; u] [v]
  | inside_some : forall t ch u ts xs vs, separated ch ts xs -> Forall (fun n => ~ own_head "Comma" n) xs -> Forall2 means xs vs -> means_inside [t; Op KInfix IOP_CodeParser_Comma ch; u] vs.
End World.
