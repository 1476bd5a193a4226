(** Sources in an abstract tree. *)
From Coq Require Import ZArith List.
From Verif Require Import Base Source Tokenizer GenOps GenTokenKind Cst SpecCst Ast.
Import ListNotations.
Local Open Scope Z_scope.

(** from the start to the end of [s] *)
Definition before (a b : loc) : Prop := loc_leb a b = Some true.
Definition within (s' s : span) : Prop := before (sp_start s) (sp_start s') /\ before (sp_end s') (sp_end s).

Definition subtrees (a : ast) : list ast :=
  match a with
  | ALeaf _ _ _ | AError _ _ _ | ACode _ _ _ => []
  | ACall h l _ | ACallMissingCloser h l _ => h :: l
  | ASyntaxError _ l _ | AAbstractSyntaxError _ l _ | ABox _ l _ | AGroupMissingCloser _ l _ | AGroupMissingOpener _ l _ => l
  | AGroup _ x b c _ | ATagBoxGroupParen x b c _ _ _ _ _ => [x; b; c]
  | APrefixLinearSyntaxBang x b _ => [x; b]
  end.
(** [b] occurs in [a] *)
Inductive occurs : ast -> ast -> Prop :=
| occurs_here : forall a, occurs a a
| occurs_below : forall a b c, In b (subtrees a) -> occurs c b -> occurs c a.

(** the sources at the root of a tree: its own, and those of its issues *)
Definition marks (a : ast) : list asource :=
  m_src (metadata a) :: flat_map (fun i => ai_src i :: ai_more i) (m_issues (metadata a)).
(** every source below a node that has one, and in it, is within the source of the node *)
Definition nested (a : ast) : Prop := forall b c s s', occurs b a -> occurs c b ->
  m_src (metadata b) = Known s -> In (Known s') (marks c) -> within s' s.
(** every source is within [s] *)
Definition inside (s : span) (a : ast) : Prop := forall c s', occurs c a -> In (Known s') (marks c) -> within s' s.

(** The source of the abstract tree of a node: from the start of its first token to the end
    of its last, but parentheses around one expression are left out, and derivatives have none. *)
Inductive placed : cst -> asource -> Prop :=
| placed_derivative : forall ch, placed (Op KPostfix POSTOP_Derivative ch) Unknown
| placed_parentheses : forall x n y s, (forall ch, n <> Op KInfix IOP_CodeParser_Comma ch) -> placed n s ->
    placed (Op KGroup GOP_CodeParser_GroupParen [x; n; y]) s
| placed_own : forall n t ts, (forall ch, n <> Op KPostfix POSTOP_Derivative ch) ->
    (forall x m y, n = Op KGroup GOP_CodeParser_GroupParen [x; m; y] -> exists ch, m = Op KInfix IOP_CodeParser_Comma ch) ->
    tokens_of n (t :: ts) -> placed n (Known (mkspan (sp_start (t_src t)) (sp_end (t_src (last ts t))))).
