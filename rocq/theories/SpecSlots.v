(** Specification of what is written at once behind a slot, a blank or a name and belongs to it. *)
From Coq Require Import ZArith List Bool.
From Verif Require Import Base GenTokenKind GenOps Tokenizer Cst SpecCst SpecText SpecReader SpecTokenizer SpecLex.
Import ListNotations.
Local Open Scope Z_scope.

(** Two kinds of tokens that make one operand if nothing stands between them: [#1], [#a], [##2],
    [%3], [_h], [x_], [x_.]; with the name of that operand. *)
Definition joined : list (Z * Z * Z) :=
  [ (TK_Hash, TK_Integer, COP_Slot); (TK_Hash, TK_String, COP_Slot);
    (TK_HashHash, TK_Integer, COP_SlotSequence);
    (TK_Percent, TK_Integer, COP_Out);
    (TK_Under, TK_Symbol, COP_Blank);
    (TK_UnderUnder, TK_Symbol, COP_BlankSequence);
    (TK_UnderUnderUnder, TK_Symbol, COP_BlankNullSequence);
    (TK_Symbol, TK_Under, COP_CodeParser_PatternBlank);
    (TK_Symbol, TK_UnderUnder, COP_CodeParser_PatternBlankSequence);
    (TK_Symbol, TK_UnderUnderUnder, COP_CodeParser_PatternBlankNullSequence);
    (TK_Symbol, TK_UnderDot, COP_CodeParser_PatternOptionalDefault) ].

(** [continues h w k e]: behind a token of kind [h], the text [w] in front of [e] is a token of
    kind [k].  Behind a hash or a percent sign only the digits count, and a name is a string. *)
Inductive continues (h : Z) : list Z -> Z -> list Z -> Prop :=
| cont_index : forall ds e, digits ds -> ~ starts_with (fun b => digit_byte b \/ b = 92) e -> continues h ds TK_Integer e
| cont_name : forall w e, symbol w -> ends_name e -> continues h w (if h =? TK_Hash then TK_String else TK_Symbol) e
| cont_string : forall w e, after_string (w ++ e) = Some e -> continues h (34 :: w) TK_String e
| cont_blank : forall w k e, longest_operator w k e -> ~ In 92 (firstn 4 (w ++ e)) -> continues h w k e.

(** all the tokens of some trees, and all their nodes *)
Definition all_tokens (l : list cst) (ts : list token) : Prop := exists tss, Forall2 tokens_of l tss /\ ts = concat tss.
Definition inside (l : list cst) (n : cst) : Prop := exists m ns, In m l /\ preorder m ns /\ In n ns.

(** [t] and [u] are the first tokens of one operand [op]; [u] may begin a blank with a head *)
Definition attached (l : list cst) (op : Z) (t u : token) : Prop :=
  exists r, inside l (Op KCompound op (Tok t :: r)) /\ (r = [Tok u] \/ exists bop v, r = [Op KCompound bop [Tok u; Tok v]]).
(** [t] is the head of a blank *)
Definition heads (l : list cst) (t : token) : Prop :=
  exists op v, inside l (Op KCompound op [Tok v; Tok t]) /\ In (t_kind v) [TK_Under; TK_UnderUnder; TK_UnderUnderUnder].
