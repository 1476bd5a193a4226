(** What abstraction complains about. *)
From Coq Require Import ZArith List.
From Verif Require Import Base Source GenTokenKind GenOps Tokenizer Cst SpecCst Ast.
Import ListNotations.
Local Open Scope Z_scope.

(** all issues in an abstract tree *)
Fixpoint ast_issues (a : ast) : list aissue :=
  match a with
  | ALeaf _ _ d | AError _ _ d | ACode _ _ d => m_issues d
  | ACall h l d | ACallMissingCloser h l d => m_issues d ++ ast_issues h ++ flat_map ast_issues l
  | ASyntaxError _ l d | AAbstractSyntaxError _ l d | ABox _ l d | AGroupMissingCloser _ l d | AGroupMissingOpener _ l d => m_issues d ++ flat_map ast_issues l
  | AGroup _ x b c d | ATagBoxGroupParen x b c _ _ _ _ d => m_issues d ++ ast_issues x ++ ast_issues b ++ ast_issues c
  | APrefixLinearSyntaxBang x b d => m_issues d ++ ast_issues x ++ ast_issues b
  end.

(** ** Heads of calls *)

(** [##] and [##1] *)
Inductive slot_sequence : cst -> Prop :=
| bare_slot_sequence : forall t, t_kind t = TK_HashHash -> slot_sequence (Tok t)
| numbered_slot_sequence : forall ch, slot_sequence (Op KCompound COP_SlotSequence ch).
(** Heads that are nothing special, of [h[x]] and (when [part]) of [h[[x]]]. *)
Inductive usual (part : bool) : cst -> Prop :=
| usual_token : forall t, In (t_kind t) [TK_Symbol; TK_Hash; TK_Under; TK_UnderUnder; TK_UnderUnderUnder; TK_Percent; TK_PercentPercent] -> usual part (Tok t)
| usual_string : forall t, part = false -> t_kind t = TK_String -> usual part (Tok t)
| usual_call : forall h m op ch, usual part (Call h m op ch)
| usual_compound : forall op ch, (* _f __f ___f x_ x__ x___ #1 %1 *)
    In op [COP_Blank; COP_BlankSequence; COP_BlankNullSequence; COP_CodeParser_PatternBlank; COP_CodeParser_PatternBlankSequence; COP_CodeParser_PatternBlankNullSequence; COP_Slot; COP_Out] ->
    usual part (Op KCompound op ch)
| usual_group : forall op ch, In op [GOP_CodeParser_GroupParen; GOP_List; GOP_Association] -> usual part (Op KGroup op ch)
| usual_pattern_test : forall ch, part = false -> usual part (Op KBinary BOP_PatternTest ch)
| usual_postfix : forall op ch, In op (if part then [POSTOP_Transpose] else [POSTOP_Function; POSTOP_Derivative]) -> usual part (Op KPostfix op ch).
(** Of the others, these are not errors. *)
Inductive tolerated (part : bool) : cst -> asev -> Prop :=
| tolerated_group : forall op ch, tolerated part (Op KGroup op ch) SevWarning
| tolerated_compound_expression : forall ch, tolerated part (Op KInfix IOP_CompoundExpression ch) (if part then SevRemark else SevWarning)
| tolerated_blob : forall t, part = true -> t_kind t = TK_LinearSyntaxBlob -> tolerated part (Tok t) SevRemark
| tolerated_bang : forall ch, part = true -> tolerated part (Op KPrefix PREOP_CodeParser_PrefixLinearSyntaxBang ch) SevRemark.
(** The complaint about a head: tag, severity and confidence. *)
Inductive complaint (part : bool) (h : cst) : atag -> asev -> Z -> Prop :=
| complaint_slots : slot_sequence h -> complaint part h StrangeCallSlotSequence SevError 100
| complaint_tolerated : forall v, ~ slot_sequence h -> ~ usual part h -> tolerated part h v -> complaint part h StrangeCall v 95
| complaint_error : ~ slot_sequence h -> ~ usual part h -> (forall v, ~ tolerated part h v) -> complaint part h StrangeCall SevError 95.

(** ** Issues *)

(** from the first token to the last *)
Definition spans (n : cst) (s : span) : Prop :=
  exists t ts, tokens_of n (t :: ts) /\ s = mkspan (sp_start (t_src t)) (sp_end (t_src (last ts t))).
(** [h[[x]]], also with the brackets written as one character *)
Inductive brackets : Z -> list cst -> bool -> Prop :=
| brackets_call : forall t mid u, (forall ch r, mid <> Op KGroup GOP_CodeParser_GroupSquare ch :: r) ->
    brackets CALLOP_CodeParser_GroupSquare (t :: mid ++ [u]) false
| brackets_twice : forall t ch u, brackets CALLOP_CodeParser_GroupSquare [t; Op KGroup GOP_CodeParser_GroupSquare ch; u] true
| brackets_double : forall ch, brackets CALLOP_CodeParser_GroupDoubleBracket ch true.
(** The issue a node gives rise to. *)
Inductive gives : cst -> aissue -> Prop :=
| gives_not_not : forall t n, (* !!n *)
    gives (Op KPrefix PREOP_CodeParser_PrefixNot2 [Tok t; n]) (mk_aissue PrefixNotNot SevWarning (Known (t_src t)) 100 [])
| gives_message : forall a t b u c v d r s, (* a::b::c::d *)
    spans (Op KInfix IOP_MessageName (a :: t :: b :: u :: c :: v :: d :: r)) s ->
    gives (Op KInfix IOP_MessageName (a :: t :: b :: u :: c :: v :: d :: r)) (mk_aissue SyntaxUndocumentedMessageName SevError (Known s) 100 [])
| gives_call : forall h op t mid u part tag v conf, brackets op (Tok t :: mid ++ [Tok u]) part -> complaint part h tag v conf ->
    gives (Call (Aggregate h) false op (Tok t :: mid ++ [Tok u])) (mk_aissue tag v (Known (t_src t)) conf [Known (t_src u)])
| gives_type_specifier : forall h ch s, (* h::[x] *)
    (forall t, h = Tok t -> t_kind t <> TK_String) -> spans h s ->
    gives (Call (Aggregate h) false CALLOP_CodeParser_GroupTypeSpecifier ch) (mk_aissue StrangeCall SevError (Known s) 95 []).
(** The issues of some nodes. *)
Inductive given : list cst -> list aissue -> Prop :=
| given_end : given [] []
| given_issue : forall n i ns l, gives n i -> given ns l -> given (n :: ns) (i :: l)
| given_none : forall n ns l, (forall i, ~ gives n i) -> given ns l -> given (n :: ns) l.
