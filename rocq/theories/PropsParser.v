(** Properties C29-C31, C33, C34, C45, C60 and what C35 and C44 mean for parsed trees.  Statements
    only; the proofs are in ParserTheorems.v.  Specification: SpecParser.v, SpecParse.v,
    SpecCst.v, SpecTokenizer.v and SpecText.v. *)
From Coq Require Import String ZArith List Bool Lia.
From Verif Require Import Base Source WLChar GenTokenKind GenPrec GenOps GenParselets TokenKind Parselets LongNames ByteDecoder CharDecoder Tokenizer Cst SpecCst
  SpecText SpecReader SpecTokenizer PropsReader PropsTokenizer Parser SpecParser SpecParse ParserTheorems.
Import ListNotations.
Local Open Scope Z_scope.

(** Trees in brackets, for the examples: [( )] an operator, [< >] a group, [<! >] an
    unterminated group, [@] between the head and the body of a call, [?] an error. *)
Fixpoint render (n : cst) : list Z :=
  match n with
  | Tok t => t_text t
  | Op KGroup _ ch => text "<" ++ flat_map render ch ++ text ">"
  | Op KGroupMissingCloser _ ch => text "<!" ++ flat_map render ch ++ text ">"
  | Op _ _ ch => text "(" ++ flat_map render ch ++ text ")"
  | SynErr _ ch => text "(?" ++ flat_map render ch ++ text ")"
  | Call h m _ ch => text "(" ++ match h with Concrete l => flat_map render l | Aggregate x => render x end ++
      text (if m then "@!" else "@") ++ flat_map render ch ++ text ")"
  | _ => []
  end.
Definition rendered (r : res (list cst * pst)) : option (list (list Z)) := match r with Ok (l, _) => Some (map render l) | _ => None end.
Definition parsed (s : string) : res (list cst * pst) := parse_cst_raw default_opts true keep NotScript (text s).

Example parse_case : rendered (parsed "f[x_, y] := a + 2 b^c^d (* *)") = Some [text "((f@[((x_), y)]) := (a + (2 (b^(c^d)))))"; text " "; text "(* *)"].
Proof. vm_compute. reflexivity. Qed.
(** C29.  The leaves of the trees, one after the other, make up the input after the script
    line (but for a line continuation in front of the end of the input), and each begins
    where the one before ended. *)
Theorem C29_lossless : forall o dbg b input l s' ts, 0 < o_tab_width o ->
  parse_cst_raw o dbg keep b input = Ok (l, s') -> all_tokens l ts ->
  exists s0 script tail e, handle_first_line o b (reader_new o input) = Ok (tt, s0) /\ (b = NotScript -> script = []) /\
    input = script ++ rest (cur s0) /\ rest (cur s0) = concat (map t_text ts) ++ tail /\ starts_continuation tail /\
    in_a_row (ploc (cur s0)) ts e.
Proof. exact parse_lossless. Qed.
Print Assumptions C29_lossless.

(** The leaves are the tokens the tokenizer gives, each asked for in one of the ways a token
    can be asked for, up to the end of the input.  Besides these there are only empty tokens
    the parser put in for missing operands and operators. *)
Theorem C29_tokens : forall o dbg b input l s' ts, 0 < o_tab_width o -> ~ has_surrogate_escape input ->
  parse_cst_raw o dbg keep b input = Ok (l, s') -> all_tokens l ts ->
  exists s0 qs us s1 eof s2, handle_first_line o b (reader_new o input) = Ok (tt, s0) /\ Forall plain_request qs /\ ask_all o qs s0 = Ok (us, s1) /\
    Forall2 retold us (filter (fun t => negb (inserted t)) ts) /\ Forall (fun t => inserted t = true -> t_text t = []) ts /\
    Forall (fun u => t_kind u <> TK_EndOfFile) us /\ peek_token o false s1 = Ok (eof, s2) /\ t_kind eof = TK_EndOfFile.
Proof. exact parse_tokens. Qed.
Print Assumptions C29_tokens.

Definition leaves_of (r : res (list cst * pst)) : list (Z * list Z) := match r with Ok (l, _) => show (flat_map CstProofs.toks l) | _ => [] end.
Example C29_case : leaves_of (parsed "a, ]<<x/y") =
  [(TK_Symbol, text "a"); (TK_Comma, text ","); (TK_Whitespace, text " "); (TK_Error_InfixImplicitNull, []);
   (TK_Error_UnexpectedCloser, text "]"); (TK_LessLess, text "<<"); (TK_String, text "x/y")].
Proof. vm_compute. reflexivity. Qed.

(** C30.  The parser ends with empty stacks; one expression leaves one node and the stacks
    as they were. *)
Theorem C30_quiescent : forall o dbg repair b input l s', 0 < o_tab_width o -> (forall op ch, repair op ch <> OutOfFuel) ->
  parse_cst_raw o dbg repair b input = Ok (l, s') -> quiescent s'.
Proof. exact parse_quiescent. Qed.
Print Assumptions C30_quiescent.
Theorem C30_one_node : forall o dbg repair input s z t, 0 < o_tab_width o -> reached o input s -> weof (cur s) = false ->
  peek_token o false s = Ok (t, z) -> isTrivia (t_kind t) = false -> (forall op ch, repair op ch <> OutOfFuel) ->
  match run o dbg repair (depth_bound (mkp z [] [] [])) (CPrefix t) (mkp z [] [] []) with
  | Ok (_, s') => exists n, stack s' = [n] /\ ctxs s' = [] /\ groups s' = []
  | Panic => True
  | OutOfFuel => False
  end.
Proof. exact expression_balanced. Qed.
Print Assumptions C30_one_node.
Example C30_case : rendered (parsed "{a, [b) ; (c } ] d") = Some [text "<{(a, <![b) (; <!(c>)>) }>"; text " "; text "]"; text " "; text "d"].
Proof. vm_compute. reflexivity. Qed.

(** C31.  The parser comes to an end on every input, whatever is done about unterminated
    groups.  It aborts only where the tokenizer does, or, with debug assertions, where the
    input has a [\[InvisibleComma]]. *)
Theorem C31_terminates : forall o dbg repair b input, 0 < o_tab_width o -> (forall op ch, repair op ch <> OutOfFuel) ->
  parse_cst_raw o dbg repair b input <> OutOfFuel.
Proof. exact parse_ends. Qed.
Print Assumptions C31_terminates.
Theorem C31_total : forall o dbg repair b input, 0 < o_tab_width o -> ~ has_surrogate_escape input -> total_repair repair ->
  (dbg = true -> never_lexed o input TK_LongName_InvisibleComma) ->
  exists l s', parse_cst_raw o dbg repair b input = Ok (l, s') /\ quiescent s'.
Proof. exact parse_total. Qed.
Print Assumptions C31_total.
Theorem C31_total_with_assertions_refuted : exists input, ~ has_surrogate_escape input /\
  parse_cst_raw default_opts true keep NotScript input = Panic.
Proof. exists (text "a\[InvisibleComma]b"). split; [apply no_numeric_escape_ok|]; vm_compute; reflexivity. Qed.
Print Assumptions C31_total_with_assertions_refuted.
Example C31_case : rendered (parse_cst_raw default_opts false keep NotScript (text "a\[InvisibleComma]b{(,;;@@")) =
  Some [text "(a\[InvisibleComma](b<!{<!((,((;;)@@))>>))"].
Proof. vm_compute. reflexivity. Qed.
Example C31_hypotheses : ~ has_surrogate_escape (text "f[a,{b]+") /\ never_lexed default_opts (text "f[a,{b]+") TK_LongName_InvisibleComma.
Proof. split; [apply no_numeric_escape_ok|apply never_lexed_check]; vm_compute; reflexivity. Qed.
Example C31_repair : total_repair keep /\ (forall op ch, keep op ch <> OutOfFuel).
Proof. split; [intros op ch _; exists ch; reflexivity|discriminate]. Qed.

(** C33.  Every node has the shape its kind promises ([node_ok] in SpecParser.v); at the top
    there are trivia and expressions, and of these only the last may end in an unterminated
    group. *)
Theorem C33_shapes : forall o dbg b input l s', 0 < o_tab_width o -> parse_cst_raw o dbg keep b input = Ok (l, s') ->
  Forall (everywhere node_ok) l /\ Forall (fun n => trivia_leaf n = true \/ operand n = true) l /\ settled (parts l).
Proof. exact parse_shape. Qed.
Print Assumptions C33_shapes.
Example C33_case : rendered (parsed "a - b - c^-d! == e&; ; f,") = Some [text "(((((a - b - (c^(-(d!)))) == e)&); ; f),)"].
Proof. vm_compute. reflexivity. Qed.
Example C33_case_errors : rendered (parsed "a /: b = . ; x ~ y") = Some [text "((a /: b = .) ; (?x ~ y))"].
Proof. vm_compute. reflexivity. Qed.

(** C34.  The brackets of a group belong together. *)
Theorem C34_brackets_match : forall o dbg b input l s' n ns g t u, 0 < o_tab_width o -> parse_cst_raw o dbg keep b input = Ok (l, s') ->
  In n l -> preorder n ns -> In g ns -> bracketed g t u -> matching t u.
Proof. exact parse_bracketed. Qed.
Print Assumptions C34_brackets_match.
(** Where a group is reported as missing its closer, either nothing but trivia follows up to
    the end of the input, or the next token closes an enclosing group, and neither the group
    itself nor a group between the two. *)
Theorem C34_missing_closers : forall o dbg b input l s' a n c ts g t0 aft ops u r, 0 < o_tab_width o ->
  parse_cst_raw o dbg keep b input = Ok (l, s') ->
  l = a ++ n :: c -> all_tokens c ts -> below n g aft ops -> missing_closer g t0 -> significant (aft ++ ts) = u :: r ->
  exists i t e, ops = i ++ t :: e /\ matching t u /\ Forall (fun t' => ~ matching t' u) (t0 :: i).
Proof. exact parse_missing. Qed.
Print Assumptions C34_missing_closers.
Example C34_case : rendered (parsed "f[{1, (2] + 3") = Some [text "((f@[<!{(1, <!(2>)>]) + 3)"].
Proof. vm_compute. reflexivity. Qed.
Example C34_hypotheses : match parsed "f[{1, (2] + 3" with
  | Ok (n :: c, _) => exists g t0 aft ops, below n g aft ops /\ missing_closer g t0 /\ t_text t0 = text "(" /\
      map t_text ops = [text "{"; text "["] /\ map t_text (significant (aft ++ CstProofs.toks (SynErr ExpectedTilde c))) = [text "]"; text "+"; text "3"]
  | _ => False
  end.
Proof.
  vm_compute. eexists. eexists. eexists. eexists. split; [apply (fetch_below [0; 2; 1; 3]%nat); vm_compute; reflexivity|].
  split; [left; eexists; eexists; reflexivity|]. repeat split.
Qed.
Example C34_case_same : rendered (parsed "{{a}") = Some [text "<!{<{a}>>"].
Proof. vm_compute. reflexivity. Qed.

(** C45.  What stands to the right of an operator binds at least as tightly as the operator:
    more tightly, or equally for an operator that associates to the right. *)
Theorem C45_right_operands : forall o dbg first input l s' n ns k op ch p a rest b, 0 < o_tab_width o ->
  parse_cst_raw o dbg keep first input = Ok (l, s') ->
  In n l -> preorder n ns -> In (Op k op ch) ns -> k = KBinary \/ k = KInfix -> root_precedence (Op k op ch) = Some p ->
  parts ch = a :: rest -> In b rest -> binds p b.
Proof. exact parse_right_operands. Qed.
Print Assumptions C45_right_operands.
Theorem C45_prefix_operands : forall o dbg first input l s' n ns op ch t a p, 0 < o_tab_width o ->
  parse_cst_raw o dbg keep first input = Ok (l, s') ->
  In n l -> preorder n ns -> In (Op KPrefix op ch) ns -> parts ch = [Tok t; a] -> prefix_of (t_kind t) = PP_PrefixOperator p op -> binds p a.
Proof. exact parse_prefix_operands. Qed.
Print Assumptions C45_prefix_operands.
Example C45_case : rendered (parsed "a=b=c->-d*e+f") = Some [text "(a=(b=(c->(((-d)*e)+f))))"].
Proof. vm_compute. reflexivity. Qed.

(** C60.  What stands to the left of an operator could not have gone on with it: at the right
    end of the left operand there is no operator that binds more loosely, or equally and
    associates to the right.  This is so of every operand that an operator follows, in chains
    as well; only a line that ends at top level before a later operator of a chain can end
    its operand too.  The exceptions are products without a sign. *)
Theorem C60_left_operands : forall o dbg first input l s' n ns m a k p q, 0 < o_tab_width o -> parse_cst_raw o dbg keep first input = Ok (l, s') ->
  In n l -> preorder n ns -> In m ns -> left_operand m a k -> joining_precedence k = Some p -> open_at_end a q ->
  ends_operand q p \/ implicit_exception a k q.
Proof. exact parse_left_operands. Qed.
Print Assumptions C60_left_operands.
Example C60_case : rendered (parsed "-a*b+c^d!") = Some [text "(((-a)*b)+(c^(d!)))"] /\ rendered (parsed "x=!a+b&&c[d]@e//f") = Some [text "(x=(((!(a+b))&&((c@[d])@e))//f))"].
Proof. vm_compute. auto. Qed.
(** the left operand [!(a+b)] of the [&&], which ends in the operands of two operators *)
Example C60_hypotheses : exists s' n ns m a, parsed "!a+b&&c" = Ok ([n], s') /\ preorder n ns /\ In m ns /\ left_operand m a TK_AmpAmp /\ render a = text "(!(a+b))" /\
  joining_precedence TK_AmpAmp = Some PREC_AMPAMP /\ open_at_end a PREC_PREFIX_BANG /\ open_at_end a PREC_INFIX_PLUS.
Proof.
  assert (L : forall kd op ch a t r k, In kd [KBinary; KTernary; KInfix; KPostfix] -> parts ch = a :: Tok t :: r -> t_kind t = k -> left_operand (Op kd op ch) a k)
    by (intros kd op ch a t r k H H' <-; exact (left_op _ _ _ _ _ _ H H')).
  destruct (parsed "!a+b&&c") as [[l s']| |] eqn:E; vm_compute in E; try discriminate E. injection E as <- <-.
  eexists _, _, _, _, _. split; [reflexivity|]. split; [apply Verif.CstProofs.preorder_nodes|]. split; [left; reflexivity|]. split; [eapply L; [cbn; auto|reflexivity|reflexivity]|].
  split; [vm_compute; reflexivity|]. split; [vm_compute; reflexivity|]. split.
  - eapply open_here; [eapply last_prefix; [reflexivity|vm_compute; auto|discriminate]|reflexivity].
  - eapply open_below; [eapply last_prefix; [reflexivity|vm_compute; auto|discriminate]|].
    eapply open_here; [eapply (last_infix _ _ _ _ []); [reflexivity|vm_compute; auto|discriminate]|reflexivity].
Qed.
(** the middle operand [!(a+b)] of a chain *)
Example C60_later_hypotheses : exists s' n ns m a, parsed "x;!a+b ;c" = Ok ([n], s') /\ preorder n ns /\ In m ns /\ left_operand m a TK_Semi /\ render a = text "(!(a+b))" /\
  joining_precedence TK_Semi = Some PREC_SEMI /\ open_at_end a PREC_PREFIX_BANG.
Proof.
  assert (L : forall kd op pre a mid t post ch k, In kd [KTernary; KInfix] -> ch = pre ++ a :: map Tok mid ++ Tok t :: post -> isTrivia (t_kind t) = false ->
    forallb (fun u => isTriviaButNotToplevelNewline (t_kind u)) mid = true -> t_kind t = k -> left_operand (Op kd op ch) a k).
  { intros kd op pre a mid t post ch k H -> H2 H3 <-. apply left_later; auto. apply Forall_forall. rewrite forallb_forall in H3. exact H3. }
  destruct (parsed "x;!a+b ;c") as [[l s']| |] eqn:E; vm_compute in E; try discriminate E. injection E as <- <-.
  eexists _, _, _, _, _. split; [reflexivity|]. split; [apply Verif.CstProofs.preorder_nodes|]. split; [left; reflexivity|].
  split; [eapply (L _ _ [_; _] _ [_] _ [_]); [cbn; auto|reflexivity|reflexivity|reflexivity|reflexivity]|].
  split; [vm_compute; reflexivity|]. split; [vm_compute; reflexivity|].
  eapply open_here; [eapply last_prefix; [reflexivity|vm_compute; auto|discriminate]|reflexivity].
Qed.
Definition newline : Ascii.ascii := Ascii.ascii_of_nat 10.
(** The end of a line is needed: here the operand of the [!] ends at the newline, but the sum
    goes on after it. *)
Example C60_newline : rendered (parsed (String.append "a+!b" (String newline "+c"))) = Some [text (String.append "(a+(!b)" (String newline "+c)"))] /\ rendered (parsed "a+!b +c") = Some [text "(a+(!(b +c)))"] /\
  ~ ends_operand PREC_PREFIX_BANG PREC_INFIX_PLUS.
Proof. split; [vm_compute; reflexivity|]. split; [vm_compute; reflexivity|]. unfold ends_operand. intros [H|[H _]]; vm_compute in H; discriminate H. Qed.
(** The exceptions are needed: a differential is not taken by the integral that has one, and
    a third [;;] starts a factor, although the product binds more tightly. *)
Example C60_exceptions :
  rendered (parsed "\[Integral]a \[DifferentialD]x \[DifferentialD]y") = Some [text "((\[Integral]a (\[DifferentialD]x)) (\[DifferentialD]y))"] /\
  rendered (parsed "a;;b;;c;;d") = Some [text "((a;;b;;c)(;;d))"] /\
  ~ ends_operand PREC_CLASS_INTEGRATIONOPERATORS PREC_STAR /\ ~ ends_operand PREC_SEMISEMI PREC_STAR.
Proof. split; [vm_compute; reflexivity|]. split; [vm_compute; reflexivity|]. unfold ends_operand. split; intros [H|[H _]]; vm_compute in H; discriminate H. Qed.
(** After an operand that is missing the parser does not look for an operator, so there the
    last operator can be a loose one. *)
Example C60_dead_end : rendered (parsed "a;*b") = Some [text "((a;)*b)"].
Proof. vm_compute. reflexivity. Qed.

(** C35 and C44 for parsed trees: aggregation is defined on every expression, and the source
    of every node is that of its tokens. *)
Theorem C35_parsed_trees_aggregate : forall o dbg b input l s' n, 0 < o_tab_width o -> parse_cst_raw o dbg keep b input = Ok (l, s') -> In n l ->
  no_comment_groups n /\ (trivia_node n \/ exists n', aggregate_cst n = Ok (Some n')).
Proof. exact parse_aggregates. Qed.
Print Assumptions C35_parsed_trees_aggregate.
Theorem C44_parsed_trees_have_sources : forall o dbg b input l s' n ns m ts, 0 < o_tab_width o -> parse_cst_raw o dbg keep b input = Ok (l, s') ->
  In n l -> preorder n ns -> In m ns -> tokens_of m ts -> exists a e, in_a_row a ts e /\ get_source m = Ok (mkspan a e).
Proof. exact parse_source. Qed.
Print Assumptions C44_parsed_trees_have_sources.
