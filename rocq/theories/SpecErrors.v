(** The errors in a tree and in an abstract tree. *)
From Coq Require Import ZArith List Bool.
From Verif Require Import Base Source GenTokenKind GenOps TokenKind Tokenizer Cst Ast.
Import ListNotations.
Local Open Scope Z_scope.

(** What is wrong, and where. *)
Inductive wrong :=
| BadToken (k : Z)                        (* a token that is an error *)
| BadSyntax (e : syntax_error)
| UnclosedGroup (op : Z) | UnopenedGroup (op : Z) | UnclosedCall
| Senseless (e : abstract_error).         (* fine as syntax, but without a meaning *)
Record flaw := mk_flaw { wrong_is : wrong; wrong_at : asource }.

(** ** Abstract trees: every node that is not a leaf, a call or a group *)
Fixpoint ast_flaws (a : ast) : list flaw :=
  match a with
  | ALeaf _ _ _ | ACode _ _ _ => []
  | AError k _ d => [mk_flaw (BadToken k) (m_src d)]
  | ACall h l _ => ast_flaws h ++ flat_map ast_flaws l
  | ACallMissingCloser h l d => mk_flaw UnclosedCall (m_src d) :: ast_flaws h ++ flat_map ast_flaws l
  | ASyntaxError e l d => mk_flaw (BadSyntax e) (m_src d) :: flat_map ast_flaws l
  | AAbstractSyntaxError e l d => mk_flaw (Senseless e) (m_src d) :: flat_map ast_flaws l
  | AGroupMissingCloser k l d => mk_flaw (UnclosedGroup k) (m_src d) :: flat_map ast_flaws l
  | AGroupMissingOpener k l d => mk_flaw (UnopenedGroup k) (m_src d) :: flat_map ast_flaws l
  | ABox _ l _ => flat_map ast_flaws l
  | AGroup _ x b c _ | ATagBoxGroupParen x b c _ _ _ _ _ => ast_flaws x ++ ast_flaws b ++ ast_flaws c
  | APrefixLinearSyntaxBang x b _ => ast_flaws x ++ ast_flaws b
  end.

(** ** Concrete trees *)
Fixpoint words (n : cst) : list token :=
  match n with
  | Tok t => [t]
  | Call (Concrete h) _ _ ch => flat_map words h ++ flat_map words ch
  | Call (Aggregate h) _ _ ch => words h ++ flat_map words ch
  | SynErr _ ch | Op _ _ ch | BoxN _ ch _ => flat_map words ch
  | CodeN _ _ _ => []
  end.
(** from the first token to the last *)
Definition place (n : cst) : asource :=
  match words n with [] => Unknown | t :: r => Known (mkspan (sp_start (t_src t)) (sp_end (t_src (last r t)))) end.

(** an operand left out next to a comma is Null, not an error *)
Definition bad_token (t : token) : bool := isError (t_kind t) && negb (zin (t_kind t) [TK_Error_PrefixImplicitNull; TK_Error_InfixImplicitNull]).

Definition is_op (k : opkind) (op : Z) (n : cst) : bool :=
  match n, k with
  | Op KInfix op' _, KInfix | Op KBinary op' _, KBinary | Op KGroup op' _, KGroup => op' =? op
  | _, _ => false
  end.
Definition comma (n : cst) : bool := is_op KInfix IOP_CodeParser_Comma n.
(** What makes no sense about an operator with these operands, and at which node. *)
Definition senseless (k : opkind) (op : Z) (ch : list cst) (whole : asource) : list flaw :=
  match k with
  | KGroup =>
      if op =? GOP_CodeParser_GroupParen then
        match ch with
        | [_; x; _] => if comma x then [mk_flaw (Senseless OpenParen) whole] else []   (* (a, b) *)
        | _ => [mk_flaw (Senseless OpenParen) whole]                                   (* () *)
        end
      else if op =? GOP_CodeParser_GroupSquare then [mk_flaw (Senseless OpenSquare) whole]
      else if op =? GOP_CodeParser_GroupTypeSpecifier then [mk_flaw (Senseless ColonColonOpenSquare) whole]
      else if op =? GOP_CodeParser_GroupDoubleBracket then [mk_flaw (Senseless LeftDoubleBracket) whole]
      else []
  | KBinary => (* a?b?c *)
      match ch with
      | x :: _ => if (op =? BOP_PatternTest) && is_op KBinary BOP_PatternTest x then [mk_flaw (Senseless NonAssociativePatternTest) whole] else []
      | [] => []
      end
  | KTernary => (* a ~f, g~ b *)
      match ch with
      | [_; _; f; _; _] => if (op =? TOP_CodeParser_TernaryTilde) && comma f then [mk_flaw (Senseless CommaTopLevel) (place f)] else []
      | _ => []
      end
  | KPrefix => (* \! without linear syntax *)
      match ch with
      | [_; x] =>
          if (op =? PREOP_CodeParser_PrefixLinearSyntaxBang) && negb (match x with Tok t => t_kind t =? TK_LinearSyntaxBlob | _ => false end)
          then [mk_flaw (Senseless LinearSyntaxBang) whole] else []
      | _ => []
      end
  | KGroupMissingCloser => [mk_flaw (UnclosedGroup op) whole]
  | KGroupMissingOpener => [mk_flaw (UnopenedGroup op) whole]
  | _ => []
  end.
(** [f[[x]]]: the inner brackets are part of the call *)
Definition part_brackets (m : bool) (op : Z) (ch : list cst) : bool :=
  match ch with [_; x; _] => negb m && (op =? CALLOP_CodeParser_GroupSquare) && is_op KGroup GOP_CodeParser_GroupSquare x | _ => false end.

Fixpoint flaws (n : cst) : list flaw :=
  match n with
  | Tok t => if bad_token t then [mk_flaw (BadToken (t_kind t)) (Known (t_src t))] else []
  | Call h m op ch =>
      (if m then [mk_flaw UnclosedCall (place n)] else []) ++
      match h with Concrete l => flat_map flaws l | Aggregate x => flaws x end ++
      (if part_brackets m op ch then
         match ch with
         | a :: Op _ _ inner :: r => flaws a ++ flat_map flaws inner ++ flat_map flaws r
         | _ => []
         end
       else flat_map flaws ch)
  | SynErr e ch => mk_flaw (BadSyntax e) (place n) :: flat_map flaws ch
  | Op k op ch => senseless k op ch (place n) ++ flat_map flaws ch
  | BoxN _ ch _ => flat_map flaws ch
  | CodeN _ _ _ => []
  end.
