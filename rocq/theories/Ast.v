(** Abstract syntax trees: ast.rs.
    Simplifications: the source of a node is a span or unknown (box positions do not occur in
    trees parsed from text); an issue is its tag, severity, source, confidence (in hundredths)
    and additional sources, without its message. *)
From Coq Require Import String.
From Coq Require Import ZArith List Bool.
From Verif Require Import Base Source GenTokenKind GenOps TokenKind LongNames Tokenizer Cst.
Import ListNotations.
Local Open Scope Z_scope.

(** source.rs 375-390 [Source] *)
Inductive asource := Known (s : span) | Unknown.

(** issue.rs 20-40 [Issue], with the tags (issue.rs, [IssueTag]) that abstraction uses *)
Inductive atag := StrangeCallSlotSequence | StrangeCall | PrefixNotNot | SyntaxUndocumentedMessageName.
Inductive asev := SevRemark | SevWarning | SevError.
Record aissue := mk_aissue { ai_tag : atag; ai_sev : asev; ai_src : asource; ai_conf : Z; ai_more : list asource }.

(** ast.rs 98-102 [AstMetadata] *)
Record ameta := mk_ameta { m_src : asource; m_issues : list aissue }.

(** ast.rs 106-116 [AbstractSyntaxError] *)
Inductive abstract_error :=
| CommaTopLevel | OpenParen | OpenSquare | ColonColonOpenSquare | LeftDoubleBracket
| NonAssociativePatternTest | LinearSyntaxBang | AExpectedTilde.

(** ast.rs 14-95 [Ast] *)
Inductive ast :=
| ALeaf (kind : Z) (input : list Z) (d : ameta)
| AError (kind : Z) (input : list Z) (d : ameta)
| ACall (head : ast) (args : list ast) (d : ameta)
| ACallMissingCloser (head : ast) (args : list ast) (d : ameta)
| ASyntaxError (kind : syntax_error) (children : list ast) (d : ameta)
| AAbstractSyntaxError (kind : abstract_error) (args : list ast) (d : ameta)
| ABox (kind : Z) (args : list ast) (d : ameta)
| ACode (first second : list Z) (d : ameta)
| AGroup (kind : Z) (opener body closer : ast) (d : ameta)
| AGroupMissingCloser (kind : Z) (children : list ast) (d : ameta)
| AGroupMissingOpener (kind : Z) (children : list ast) (d : ameta)
| ATagBoxGroupParen (opener body closer : ast) (src : asource) (first second : list Z) (tagsrc : asource) (d : ameta)
| APrefixLinearSyntaxBang (operator operand : ast) (d : ameta).

(** ast.rs 326-343, 361-368 [AstMetadata::from_src], [empty], [From<S>] *)
Definition from_src (s : span) : ameta := mk_ameta (Known s) [].
Definition no_meta : ameta := mk_ameta Unknown [].

(** ast.rs 184-199 [Ast::metadata] *)
Definition metadata (a : ast) : ameta :=
  match a with
  | ALeaf _ _ d | AError _ _ d | ACall _ _ d | ACallMissingCloser _ _ d | ASyntaxError _ _ d
  | AAbstractSyntaxError _ _ d | ABox _ _ d | ACode _ _ d | AGroup _ _ _ _ d
  | AGroupMissingCloser _ _ d | AGroupMissingOpener _ _ d
  | ATagBoxGroupParen _ _ _ _ _ _ _ d | APrefixLinearSyntaxBang _ _ d => d
  end.

(** ast.rs 131-170 [Ast::into_children_and_source] *)
Definition into_children_and_source (a : ast) : res (list ast * asource) :=
  match a with
  | ALeaf _ _ _ | AError _ _ _ => Panic
  | ACall _ args d | ACallMissingCloser _ args d | ASyntaxError _ args d
  | AAbstractSyntaxError _ args d | ABox _ args d => Ok (args, m_src d)
  | ACode _ _ _ | AGroup _ _ _ _ _ | AGroupMissingCloser _ _ _ | AGroupMissingOpener _ _ _
  | ATagBoxGroupParen _ _ _ _ _ _ _ _ => Panic
  | APrefixLinearSyntaxBang a b d => Ok ([a; b], m_src d)
  end.

(** ast.rs 209-232 [Ast::symbol_with_data]: the text of a symbol given by its full name; a
    symbol directly in the System context is written without it *)
Definition symbol_text (s : string) : list Z :=
  let name := bytes_of_string s in
  let tail := skipn 7 name in
  if zlist_eqb (firstn 7 name) (bytes_of_string "System`") && negb (existsb (Z.eqb 96) tail) then tail else name.
Definition symbol_leaf (s : string) (d : ameta) : ast := ALeaf TK_Symbol (symbol_text s) d.

(** [to_string] of an integer *)
Fixpoint digits_fuel (fuel : nat) (n : Z) (acc : list Z) : list Z :=
  match fuel with
  | O => acc
  | S k => let acc := (48 + n mod 10) :: acc in if n / 10 =? 0 then acc else digits_fuel k (n / 10) acc
  end.
Definition int_text (n : Z) : list Z :=
  let m := Z.abs n in
  let ds := digits_fuel (S (Z.to_nat (Z.log2 m))) m [] in
  if n <? 0 then 45 :: ds else ds.
(** ast.rs 234-255 [Ast::i64], [i64_with_data], [usize] *)
Definition int_leaf (n : Z) (d : ameta) : ast := ALeaf TK_Integer (int_text n) d.
(** ast.rs 257-263 [Ast::string] *)
Definition string_leaf (s : list Z) (d : ameta) : ast := ALeaf TK_String s d.
(** ast.rs 265-275 [Ast::call] *)
Definition call (head : string) (args : list ast) (d : ameta) : ast := ACall (symbol_leaf head no_meta) args d.
