(** The names, strings and numbers in a tree and in an abstract tree. *)
From Coq Require Import String.
From Coq Require Import ZArith List Bool.
From Verif Require Import Base Source LongNames GenTokenKind GenOps TokenKind Tokenizer Cst SpecCst Ast Abstract.
Import ListNotations.
Local Open Scope string_scope.
Local Open Scope list_scope.
Local Open Scope Z_scope.

(** A name with its text and its place; a string (a tag, a file name) with its place; a
    number, whose text and place may have changed by a sign. *)
Inductive item := Name (text : list Z) (s : span) | Str (s : span) | Number.

Definition NUMBERS : list Z := [TK_Integer; TK_Real; TK_Rational].
(** what is written for [\[Pi]] and the like *)
Definition spelled (s : list Z) : list Z :=
  match find_spelling s SPECIAL_SYMBOLS with Some n => symbol_text n | None => s end.

Definition token_items (t : token) : list item :=
  let k := t_kind t in
  if k =? TK_Symbol then [Name (spelled (t_text t)) (t_src t)]
  else if k =? TK_String then [Str (t_src t)]
  else if zin k NUMBERS then [Number]
  (* what is not written *)
  else if k =? TK_Fake_ImplicitOne then [Number]
  else if k =? TK_Fake_ImplicitAll then [Name (bytes_of_string "All") (t_src t)]
  else if zin k [TK_Fake_ImplicitNull; TK_Error_PrefixImplicitNull; TK_Error_InfixImplicitNull] then [Name (bytes_of_string "Null") (t_src t)]
  else [].
(** In an abstract tree, the leaves that have a place.  (The names that abstraction adds, such
    as Plus, do not.) *)
Definition leaf_items (k : Z) (text : list Z) (d : ameta) : list item :=
  match m_src d with
  | Unknown => []
  | Known s =>
      if k =? TK_Symbol then [Name text s]
      else if k =? TK_String then [Str s]
      else if zin k NUMBERS then [Number]
      else if k =? TK_Fake_ImplicitNull then [Name (bytes_of_string "Null") s]
      else []
  end.
Fixpoint ast_items (a : ast) : list item :=
  match a with
  | ALeaf k text d => leaf_items k text d
  | AError _ _ _ | ACode _ _ _ => []
  | ACall h l _ | ACallMissingCloser h l _ => ast_items h ++ flat_map ast_items l
  | ASyntaxError _ l _ | AAbstractSyntaxError _ l _ | ABox _ l _ | AGroupMissingCloser _ l _ | AGroupMissingOpener _ l _ => flat_map ast_items l
  | AGroup _ x b c _ | ATagBoxGroupParen x b c _ _ _ _ _ => ast_items x ++ ast_items b ++ ast_items c
  | APrefixLinearSyntaxBang x b _ => ast_items x ++ ast_items b
  end.

(** Three ways to lose a name.  The quirk takes the head off [Plus@a] in [Plus@a + b]. *)
Definition absorbed (o : aopts) (n : cst) : Prop :=
  q_infix_binary_at o = true /\
  exists s t a op, n = Op KBinary BOP_CodeParser_BinaryAt [Tok s; t; a] /\ t_kind s = TK_Symbol /\ t_text s = symbol_name (op_symbol KInfix op).
(** Of [(0 ] a)] only the zero remains when it is negated. *)
Fixpoint zeroish (n : cst) : bool :=
  match n with
  | Tok t => zlist_eqb (t_text t) [48]
  | Op KGroup _ [_; c; _] => zeroish c
  | Op KPrefix _ [_; c] => zeroish c
  | _ => false
  end.
Definition hidden (n : cst) : Prop := exists a b c d r, n = Op KGroup GOP_CodeParser_GroupParen (a :: b :: c :: d :: r) /\ zeroish b = true.
(** And a head that looks like the one for commas is taken for that. *)
Definition comma_name (t : token) : Prop := t_kind t = TK_Symbol /\ t_text t = bytes_of_string "CodeParser`Comma".
Definition keeps_names (o : aopts) (n : cst) : Prop :=
  (forall ts t, tokens_of n ts -> In t ts -> ~ comma_name t) /\ (forall ns m, preorder n ns -> In m ns -> ~ absorbed o m /\ ~ hidden m).
