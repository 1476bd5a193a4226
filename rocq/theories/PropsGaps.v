(** Properties C66 and C67: where the tokens that stand for something missing may stand, and
    what may stand beside a colon.  Statements only; the proofs are in ParserGaps.v.
    Specification: SpecGaps.v. *)
From Coq Require Import String ZArith List Bool Lia.
From Verif Require Import Base Source WLChar GenTokenKind GenPrec GenOps GenParselets TokenKind Parselets LongNames ByteDecoder CharDecoder Tokenizer Cst SpecCst
  SpecText SpecReader SpecTokenizer PropsReader PropsTokenizer Parser SpecParser SpecParse ParserTheorems CstProofs PropsParser ErrorReparse SpecReparse SpecRepair RepairProofs
  PropsRepair ParserLogic ParserGaps SpecGaps.
Import ListNotations.
Local Open Scope Z_scope.

Lemma fine_part : forall (P : cst -> Prop) l, (forall n, locals n -> P n) -> Forall top_ok l -> Forall (everywhere P) l.
Proof.
  intros P l H F. eapply Forall_impl; [|exact F]. intros n [X _]. apply everywhere_nodes. eapply Forall_impl; [|exact X]. exact H.
Qed.

(** C66.  A token that stands for a missing operand stands only where its kind of operand can be
    missing: nothing before a comma, nothing after one, nothing after a semicolon, the ends of a
    span, the integrand before a differential; and elsewhere only as an error.  A closing bracket
    that closes nothing stands only directly in a group, in the arguments of a call or between the
    expressions of the input. *)
Theorem C66_placeholders : forall o dbg b input l s', 0 < o_tab_width o -> parse_cst_raw o dbg keep b input = Ok (l, s') ->
  Forall (everywhere placeholders_ok) l /\ Forall (sits [TK_Error_UnexpectedCloser]) l.
Proof.
  intros o dbg b input l s' Ht E. pose proof (parse_places _ _ _ _ _ _ Ht E) as H. split; [eapply fine_part; [|exact H]; intros n X; apply X|]. eapply Forall_impl; [|exact H]. intros n X. apply X.
Qed.
Print Assumptions C66_placeholders.
(** And the public parser, where nothing is left open. *)
Theorem C66_public : forall o dbg b input l s', 0 < o_tab_width o -> parse_cst_seq o dbg b input = Ok (l, s') -> complete l ->
  Forall (everywhere placeholders_ok) l /\ Forall (sits [TK_Error_UnexpectedCloser]) l.
Proof. intros o dbg b input l s' Ht H C. apply (proj1 (public_complete _ _ _ _ _ _ Ht C)) in H. exact (C66_placeholders _ _ _ _ _ _ Ht H). Qed.
Print Assumptions C66_public.

(** the placeholders of a tree, from left to right *)
Definition missing (s : string) : option (list Z) :=
  match parsed s with Ok (l, _) => Some (filter (fun k => zin k PLACEHOLDERS) (map t_kind (flat_map toks l))) | _ => None end.
Example C66_case : missing "f[, a,,]; (b;;)" = Some [TK_Error_PrefixImplicitNull; TK_Error_InfixImplicitNull; TK_Error_InfixImplicitNull; TK_Fake_ImplicitAll].
Proof. vm_compute. reflexivity. Qed.
Example C66_case_more : missing ";; ] + ; {a b) ^ } ;" =
  Some [TK_Fake_ImplicitOne; TK_Fake_ImplicitAll; TK_Error_UnexpectedCloser; TK_Error_ExpectedOperand; TK_Error_UnexpectedCloser; TK_Error_ExpectedOperand; TK_Error_ExpectedOperand; TK_Fake_ImplicitNull].
Proof. vm_compute. reflexivity. Qed.
(** not every tree is like that *)
Definition stray : token := mktok TK_Error_PrefixImplicitNull [] [] (mkspan (LineCol 1 1) (LineCol 1 1)).
Example C66_not_all : ~ placeholders_ok (Op KInfix IOP_CodeParser_Comma [Tok stray; Tok stray]) /\ ~ sits [TK_Error_UnexpectedCloser] (Tok stray).
Proof.
  split; [intros H; specialize (H 1%nat (Tok stray) eq_refl TK_Error_PrefixImplicitNull eq_refl); destruct H as [H|[]]; discriminate H|].
  intros H. specialize (H TK_Error_PrefixImplicitNull eq_refl). destruct H as [H|[]]; discriminate H.
Qed.

(** C67.  [x:p] is a named pattern where the left side is a symbol, [p:v] an optional one where
    it is a named pattern or a blank, and an error where it is neither. *)
Theorem C67_colon_sides : forall o dbg b input l s', 0 < o_tab_width o -> parse_cst_raw o dbg keep b input = Ok (l, s') -> Forall (everywhere colon_sides) l.
Proof. intros o dbg b input l s' Ht E. eapply fine_part; [|exact (parse_places _ _ _ _ _ _ Ht E)]. intros n X. apply X. Qed.
Print Assumptions C67_colon_sides.
(** What [x:] names goes on to the next colon outside brackets, and not past it. *)
Theorem C67_colon_right : forall o dbg b input l s', 0 < o_tab_width o -> parse_cst_raw o dbg keep b input = Ok (l, s') -> Forall (everywhere colon_right) l.
Proof. intros o dbg b input l s' Ht E. eapply fine_part; [|exact (parse_places _ _ _ _ _ _ Ht E)]. intros n X. apply X. Qed.
Print Assumptions C67_colon_right.
(** A colon binds tighter to its left than every other operator. *)
Theorem C67_colon_left : forall o dbg b input l s', 0 < o_tab_width o -> parse_cst_raw o dbg keep b input = Ok (l, s') -> Forall (everywhere colon_left) l.
Proof. intros o dbg b input l s' Ht E. eapply fine_part; [|exact (parse_places _ _ _ _ _ _ Ht E)]. intros n X. apply X. Qed.
Print Assumptions C67_colon_left.
Theorem C67_public : forall o dbg b input l s', 0 < o_tab_width o -> parse_cst_seq o dbg b input = Ok (l, s') -> complete l ->
  Forall (everywhere colon_sides) l /\ Forall (everywhere colon_right) l /\ Forall (everywhere colon_left) l.
Proof.
  intros o dbg b input l s' Ht H C. apply (proj1 (public_complete _ _ _ _ _ _ Ht C)) in H.
  split; [exact (C67_colon_sides _ _ _ _ _ _ Ht H)|]. split; [exact (C67_colon_right _ _ _ _ _ _ Ht H)|exact (C67_colon_left _ _ _ _ _ _ Ht H)].
Qed.
Print Assumptions C67_public.

Example C67_case : rendered (parsed "f[x:_?g|h:2, -a:b+c->d, 1:e:f, y_:z^w]") = Some [text "(f@[(((x:((_?g)|h)):2), ((-(a:(b+c)))->d), (?(?1:e):f), ((y_):(z^w)))])"].
Proof. vm_compute. reflexivity. Qed.
(** not every tree is like that *)
Definition word (k : Z) : cst := Tok (mktok k [] [] (mkspan (LineCol 1 1) (LineCol 1 1))).
Definition nested : cst := Op KBinary BOP_Pattern [word TK_Symbol; word TK_Colon; word TK_Symbol].
Example C67_not_all : ~ colon_sides (Op KBinary BOP_Pattern [word TK_Integer; word TK_Colon; word TK_Symbol]) /\
  ~ colon_right (Op KBinary BOP_Pattern [word TK_Symbol; word TK_Colon; nested]) /\
  ~ colon_left (Op KBinary BOP_Pattern [Op KPrefix PREOP_Minus [word TK_Minus; word TK_Symbol]; word TK_Colon; word TK_Symbol]).
Proof.
  split; [|split].
  - intros H. destruct (H [word TK_Integer; word TK_Colon; word TK_Symbol] (word TK_Integer) [word TK_Colon; word TK_Symbol]) as (H1 & _ & _). destruct (H1 eq_refl eq_refl) as (t & E & [X|X]); inversion E; subst; discriminate X.
  - intros H. apply (H [word TK_Symbol; word TK_Colon; nested] (word TK_Symbol) _ nested (or_introl eq_refl) eq_refl nested (exposed_here _)). left. eexists. reflexivity.
  - intros H. destruct (H [Op KPrefix PREOP_Minus [word TK_Minus; word TK_Symbol]; word TK_Colon; word TK_Symbol] _ _ (or_introl eq_refl) eq_refl) as [X|[[ch X]|[ch X]]]; [|discriminate X..].
    apply (X PREC_PREFIX_MINUS). apply (open_here _ _ (word TK_Symbol)); [|reflexivity]. eapply last_prefix; [reflexivity|split; reflexivity|discriminate].
Qed.
