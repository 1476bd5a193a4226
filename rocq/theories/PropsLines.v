(** Property C68: where an expression ends, and what may stand beside it.
    Statements only; the proofs are in ParserLines.v.  Specification: SpecLines.v. *)
From Coq Require Import String ZArith List Bool Lia.
From Verif Require Import Base Source WLChar GenTokenKind GenPrec GenOps GenParselets TokenKind Parselets LongNames ByteDecoder CharDecoder Tokenizer Cst SpecCst
  SpecText SpecReader SpecTokenizer PropsReader PropsTokenizer Parser SpecParser SpecParse ParserTheorems CstProofs PropsParser ErrorReparse SpecReparse SpecRepair RepairProofs
  PropsRepair ParserLogic ParserLines SpecLines.
Import ListNotations.
Local Open Scope Z_scope.

Lemma lined_part : forall (P : cst -> Prop) l, (forall n, line_ok n -> P n) -> Forall lined l -> Forall (everywhere P) l.
Proof.
  intros P l H F. eapply Forall_impl; [|exact F]. intros n X. apply everywhere_nodes. eapply Forall_impl; [|exact X]. exact H.
Qed.

(** C68.  Outside brackets a line can end inside an expression only where an operator has already
    been read that asks for more: after a prefix operator, after the operator of a binary one,
    after the first operator of a chain.  It never ends directly before the first operator, at
    either edge of an expression, around an implicit multiplication, inside a span, or after a
    semicolon or a message name. *)
Theorem C68_newlines : forall o dbg b input l s', 0 < o_tab_width o -> parse_cst_raw o dbg keep b input = Ok (l, s') -> Forall (everywhere newline_ok) l.
Proof. intros o dbg b input l s' Ht E. eapply lined_part; [|apply (parse_lines _ _ _ _ _ _ Ht E)]. intros n X. apply X. Qed.
Print Assumptions C68_newlines.
(** Inside brackets the ends of lines do not count: none of the tokens there is one that ends a
    line, except before the name of a file. *)
Theorem C68_brackets : forall o dbg b input l s', 0 < o_tab_width o -> parse_cst_raw o dbg keep b input = Ok (l, s') -> Forall (everywhere brackets_ok) l.
Proof. intros o dbg b input l s' Ht E. eapply lined_part; [|apply (parse_lines _ _ _ _ _ _ Ht E)]. intros n X. apply X. Qed.
Print Assumptions C68_brackets.
(** Two expressions stand side by side in brackets only if one of them is an error. *)
Theorem C68_neighbours : forall o dbg b input l s', 0 < o_tab_width o -> parse_cst_raw o dbg keep b input = Ok (l, s') -> Forall (everywhere neighbours_ok) l.
Proof. intros o dbg b input l s' Ht E. eapply lined_part; [|apply (parse_lines _ _ _ _ _ _ Ht E)]. intros n X. apply X. Qed.
Print Assumptions C68_neighbours.
(** And outside brackets only if one of them is an error or a line ends between them. *)
Theorem C68_separate : forall o dbg b input l s', 0 < o_tab_width o -> parse_cst_raw o dbg keep b input = Ok (l, s') -> separate l.
Proof. intros o dbg b input l s' Ht E. apply (parse_lines _ _ _ _ _ _ Ht E). Qed.
Print Assumptions C68_separate.
Theorem C68_public : forall o dbg b input l s', 0 < o_tab_width o -> parse_cst_seq o dbg b input = Ok (l, s') -> complete l ->
  Forall (everywhere newline_ok) l /\ Forall (everywhere brackets_ok) l /\ Forall (everywhere neighbours_ok) l /\ separate l.
Proof.
  intros o dbg b input l s' Ht H C. apply (proj1 (public_complete _ _ _ _ _ _ Ht C)) in H.
  split; [exact (C68_newlines _ _ _ _ _ _ Ht H)|]. split; [exact (C68_brackets _ _ _ _ _ _ Ht H)|]. split; [exact (C68_neighbours _ _ _ _ _ _ Ht H)|exact (C68_separate _ _ _ _ _ _ Ht H)].
Qed.
Print Assumptions C68_public.

(** [two a b] is the two lines [a] and [b] *)
Definition two (a b : string) : string := String.append a (String newline b).
Definition trees (r : res (list cst * pst)) : option (list bool) := match r with Ok (l, _) => Some (map trivia_leaf l) | _ => None end.
(** one expression goes on in the next line once it has an operator; else a new one begins *)
Example C68_case : rendered (parsed (two "a+b" "+c")) = Some [text (two "(a+b" "+c)")] /\ rendered (parsed (two "a+" "b")) = Some [text (two "(a+" "b)")] /\
  trees (parsed (two "a" "+c")) = Some [false; true; false] /\ trees (parsed (two "a b" "c")) = Some [false; true; false] /\ trees (parsed (two "a;;" "c")) = Some [false; true; false] /\
  trees (parsed (two "a;" "c")) = Some [false; true; false] /\ trees (parsed (two "a*b" "c")) = Some [false; true; false] /\ rendered (parsed (two "{a" "+c}")) = Some [text (two "<{(a" "+c)}>")].
Proof. repeat split; vm_compute; reflexivity. Qed.
(** errors do stand beside expressions *)
Example C68_case_errors : trees (parsed "a ] b c") = Some [false; true; false; true; false] /\ rendered (parsed "{a ) b, c}") = Some [text "<{a ) (b, c)}>"].
Proof. split; vm_compute; reflexivity. Qed.
(** not every tree is like that *)
Definition leaf (k : Z) : cst := Tok (mktok k [] [] (mkspan (LineCol 1 1) (LineCol 1 1))).
Example C68_not_all :
  ~ newline_ok (Op KInfix IOP_Plus [leaf TK_Symbol; leaf TK_ToplevelNewline; leaf TK_Plus; leaf TK_Symbol]) /\
  ~ newline_ok (Op KInfix IOP_Times [leaf TK_Symbol; leaf TK_Fake_ImplicitTimes; leaf TK_ToplevelNewline; leaf TK_Symbol]) /\
  ~ brackets_ok (Op KGroup GOP_List [leaf TK_OpenCurly; Op KInfix IOP_Plus [leaf TK_Symbol; leaf TK_Plus; leaf TK_ToplevelNewline; leaf TK_Symbol]; leaf TK_CloseCurly]) /\
  ~ neighbours_ok (Op KGroup GOP_List [leaf TK_OpenCurly; leaf TK_Symbol; leaf TK_Whitespace; leaf TK_Symbol; leaf TK_CloseCurly]) /\
  ~ separate [leaf TK_Symbol; leaf TK_Whitespace; leaf TK_Symbol].
Proof.
  assert (B : ~ beside (leaf TK_Symbol) (leaf TK_Symbol)).
  { assert (E : ~ error_leaf (leaf TK_Symbol)) by (intros (t & E & X); injection E as <-; vm_compute in X; discriminate X). intros [H|H]; [|exact (E H)]. inversion H; subst. exact (E H0). }
  assert (N : forall a r, breaks (a ++ leaf TK_ToplevelNewline :: r) (length (parts a))) by (intros a r; exists a, (leaf TK_ToplevelNewline), r; split; [reflexivity|]; split; [eexists; split; reflexivity|reflexivity]).
  split; [|split; [|split; [|split]]].
  - intros H. destruct (H _ (N [leaf TK_Symbol] [leaf TK_Plus; leaf TK_Symbol])) as (_ & X & _). cbn in X. lia.
  - intros H. destruct (H _ (N [leaf TK_Symbol; leaf TK_Fake_ImplicitTimes] [leaf TK_Symbol])) as (_ & _ & _ & X). apply X. eexists. split; reflexivity.
  - intros H. destruct (H (Op KInfix IOP_Plus [leaf TK_Symbol; leaf TK_Plus; leaf TK_ToplevelNewline; leaf TK_Symbol])) as [_ X]; [right; left; reflexivity|].
    apply everywhere_nodes, Forall_inv in X. destruct X as [(ch & [X|[X|X]])|X]; [discriminate X..|]. apply (X (leaf TK_ToplevelNewline)); [right; right; left; reflexivity|]. eexists. split; reflexivity.
  - intros H. apply B. apply (H (leaf TK_OpenCurly) [leaf TK_Symbol; leaf TK_Symbol] (leaf TK_CloseCurly) eq_refl [] _ _ [] eq_refl).
  - intros H. apply B. apply (H [] (leaf TK_Symbol) [leaf TK_Whitespace] (leaf TK_Symbol) [] eq_refl eq_refl eq_refl). constructor; [|constructor]. split; [reflexivity|]. intros (t & E & X). injection E as <-. discriminate X.
Qed.
