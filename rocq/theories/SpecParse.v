(** What a parse has to do with its input, said without looking at the parser. *)
From Coq Require Import ZArith List Bool.
From Verif Require Import Base Source GenTokenKind GenPrec GenOps GenParselets TokenKind Parselets Tokenizer Cst SpecCst SpecTokenizer Parser SpecParser.
Import ListNotations.
Local Open Scope Z_scope.

(** the tokens of a list of trees, from left to right *)
Definition all_tokens (l : list cst) (ts : list token) : Prop := exists ls, Forall2 tokens_of l ls /\ ts = concat ls.

(** unterminated groups are left as they are *)
Definition keep (op : Z) (ch : list cst) : res (list cst) := Ok ch.
(** unterminated groups are replaced by something *)
Definition total_repair (repair : Z -> list cst -> res (list cst)) : Prop :=
  forall op ch, unclosed_group op ch -> exists ch', repair op ch = Ok ch'.

(** no suffix of the input starts with a token of kind [k] *)
Definition never_lexed (o : opts) (input : list Z) (k : Z) : Prop :=
  forall a r g t s', input = a ++ r -> peek_token o g (reader_new o r) = Ok (t, s') -> t_kind t <> k.

(** a token put in by the parser *)
Definition inserted (t : token) : bool := zin (t_kind t) INSERTED.

(** a token as it was read, or with its kind replaced: a closing bracket nothing was opened
    for, or a token the grammar has no use for *)
Definition retold (u t : token) : Prop :=
  t = u \/
  (exists c, In c [TK_BarGreater; TK_CloseCurly; TK_CloseParen; TK_CloseSquare; TK_LongName_CloseCurlyDoubleQuote; TK_LongName_CloseCurlyQuote;
                   TK_LongName_RightAngleBracket; TK_LongName_RightAssociation; TK_LongName_RightBracketingBar; TK_LongName_RightCeiling;
                   TK_LongName_RightDoubleBracket; TK_LongName_RightDoubleBracketingBar; TK_LongName_RightFloor] /\
     t_kind u = c /\ t = mktok TK_Error_UnexpectedCloser (t_start u) (t_text u) (t_src u)) \/
  (prefix_of (t_kind u) = PP_PrefixUnsupportedToken /\ t = mktok TK_Error_UnsupportedToken (t_start u) (t_text u) (t_src u)).

(** which closing token belongs to which opening token *)
Definition BRACKETS : list (Z * Z) :=
  [(TK_OpenParen, TK_CloseParen); (TK_OpenSquare, TK_CloseSquare); (TK_ColonColonOpenSquare, TK_CloseSquare);
   (TK_OpenCurly, TK_CloseCurly); (TK_LessBar, TK_BarGreater);
   (TK_LongName_LeftAngleBracket, TK_LongName_RightAngleBracket); (TK_LongName_LeftAssociation, TK_LongName_RightAssociation);
   (TK_LongName_LeftBracketingBar, TK_LongName_RightBracketingBar); (TK_LongName_LeftCeiling, TK_LongName_RightCeiling);
   (TK_LongName_LeftDoubleBracket, TK_LongName_RightDoubleBracket);
   (TK_LongName_LeftDoubleBracketingBar, TK_LongName_RightDoubleBracketingBar); (TK_LongName_LeftFloor, TK_LongName_RightFloor);
   (TK_LongName_OpenCurlyDoubleQuote, TK_LongName_CloseCurlyDoubleQuote); (TK_LongName_OpenCurlyQuote, TK_LongName_CloseCurlyQuote)].
Definition matching (t u : token) : Prop := In (t_kind t, t_kind u) BRACKETS.

(** a node whose closing bracket is missing, and its opening bracket *)
Definition missing_closer (g : cst) (t : token) : Prop :=
  (exists op ch, g = Op KGroupMissingCloser op (Tok t :: ch)) \/ (exists h op ch, g = Call h true op (Tok t :: ch)).
(** a node with both brackets *)
Definition bracketed (g : cst) (t u : token) : Prop :=
  (exists op ch, g = Op KGroup op (Tok t :: ch ++ [Tok u])) \/ (exists h op ch, g = Call h false op (Tok t :: ch ++ [Tok u])).

(** the opening bracket of [n], if its child number [i] stands behind it *)
Definition opener_of (n : cst) (i : nat) : list token :=
  match n with
  | Op (KGroup | KGroupMissingCloser) _ (Tok t :: _) => if (i =? 0)%nat then [] else [t]
  | Call (Concrete l) _ _ (Tok t :: _) => if (i <=? length l)%nat then [] else [t]
  | _ => []
  end.

(** [below n g after openers]: [g] is [n] or somewhere below it; [after] are the tokens of
    [n] to the right of [g] and [openers] the opening brackets that enclose [g] in [n] *)
Inductive below : cst -> cst -> list token -> list token -> Prop :=
| below_self : forall g, below g g [] []
| below_child : forall n a m c ts g after openers, children n = a ++ m :: c -> all_tokens c ts -> below m g after openers ->
    below n g (after ++ ts) (openers ++ opener_of n (length a)).

(** tokens other than white space, line breaks and comments *)
Definition significant (ts : list token) : list token := filter (fun t => negb (trivia_token t)) ts.

(** the nodes of a tree have a property *)
Definition everywhere (P : cst -> Prop) (n : cst) : Prop := forall ns, preorder n ns -> Forall P ns.

(** all stacks of the parser are empty *)
Definition quiescent (s : pst) : Prop := stack s = [] /\ ctxs s = [] /\ groups s = [].
