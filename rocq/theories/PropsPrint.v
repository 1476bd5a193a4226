(** Property C69: text that spells an expression is parsed as that expression.
    Statements only; the proofs are in ParserPrint.v and PrintResults.v.  Specification:
    SpecPrint.v, with the words of SpecLex.v. *)
From Coq Require Import String ZArith List Bool Lia.
From Verif Require Import Base Source WLChar GenTokenKind GenPrec GenOps GenParselets TokenKind Parselets LongNames ByteDecoder CharDecoder Tokenizer Cst SpecCst
  SpecText SpecReader SpecTokenizer PropsReader PropsTokenizer Parser SpecParser SpecParse ParserTheorems CstProofs PropsParser ErrorReparse SpecReparse SpecRepair RepairProofs
  PropsRepair SpecLex ParserPrint PrintResults SpecPrint.
Import ListNotations.
Local Open Scope Z_scope.

(** C69.  Text that spells one expression after the other, each with brackets wherever the
    precedence of the operators requires them, is parsed as exactly those expressions, whatever
    blanks and comments stand between their tokens, and whatever line breaks inside brackets,
    behind operators, and between the expressions. *)
Theorem C69_parsed : forall o dbg es input l s', 0 < o_tab_width o -> proper_program es -> spells 0 true (program_words es) input ->
  parse_cst_seq o dbg NotScript input = Ok (l, s') -> Forall2 shows es (parts l).
Proof. exact public_shows. Qed.
Print Assumptions C69_parsed.
Theorem C69_one : forall o dbg e input l s', 0 < o_tab_width o -> proper e -> spells 0 true (words e) input ->
  parse_cst_seq o dbg NotScript input = Ok (l, s') -> exists n, parts l = [n] /\ shows e n.
Proof. intros o dbg e input l s' Ht P S H. apply one_shown. exact (public_shows o dbg [e] input l s' Ht (one_proper e P) S H). Qed.
Print Assumptions C69_one.
(** The parser does return, except for the aborts of C31. *)
Theorem C69_returns : forall o dbg es input, 0 < o_tab_width o -> proper_program es -> spells 0 true (program_words es) input -> ~ has_surrogate_escape input ->
  (dbg = true -> never_lexed o input TK_LongName_InvisibleComma) ->
  exists l s', parse_cst_seq o dbg NotScript input = Ok (l, s') /\ Forall2 shows es (parts l).
Proof. exact public_returns. Qed.
Print Assumptions C69_returns.
(** So a text spells one list of expressions at most: the grammar is not ambiguous. *)
Theorem C69_unique : forall es es' input, proper_program es -> proper_program es' -> ~ has_surrogate_escape input ->
  spells 0 true (program_words es) input -> spells 0 true (program_words es') input -> es = es'.
Proof.
  intros e e' input P P' U S S'. assert (Ht : 0 < o_tab_width default_opts) by reflexivity.
  assert (Hd : false = true -> never_lexed default_opts input TK_LongName_InvisibleComma) by discriminate.
  destruct (public_returns default_opts false e input Ht P S U Hd) as (l & s & E & Sn). pose proof (public_shows _ _ _ _ _ _ Ht P' S' E) as Sn'.
  exact (programs_once e e' (parts l) P P' Sn Sn').
Qed.
Print Assumptions C69_unique.
(** Every expression whose operators have the right number of operands can be spelled: with
    parentheses around all operands, which change nothing else. *)
Theorem C69_brackets : forall e, formed e -> proper (guarded e) /\ bare (guarded e) = bare e.
Proof. intros e H. split; [exact (proj1 guarded_proper e H)|exact (proj1 guarded_bare e)]. Qed.
Print Assumptions C69_brackets.
(** Printing and parsing: proper expressions of ordinary words, written one in each line with
    blanks between the words, are read back; and so are any expressions, with parentheses around
    them and all operands. *)
Theorem C69_printed : forall o dbg es, 0 < o_tab_width o -> proper_program es -> Forall (fun e => Forall ordinary (words e)) es -> ~ has_surrogate_escape (print_program es) ->
  (dbg = true -> never_lexed o (print_program es) TK_LongName_InvisibleComma) ->
  exists l s', parse_cst_seq o dbg NotScript (print_program es) = Ok (l, s') /\ Forall2 shows es (parts l).
Proof. intros o dbg es Ht P W U D. apply public_returns; auto. apply program_spells; auto. Qed.
Print Assumptions C69_printed.
Theorem C69_printed_guarded : forall o dbg es, 0 < o_tab_width o -> Forall formed es -> Forall (fun e => Forall ordinary (words e)) es ->
  let es' := map (fun e => paren (guarded e)) es in ~ has_surrogate_escape (print_program es') -> (dbg = true -> never_lexed o (print_program es') TK_LongName_InvisibleComma) ->
  exists l s', parse_cst_seq o dbg NotScript (print_program es') = Ok (l, s') /\ Forall2 shows es' (parts l).
Proof.
  intros o dbg es Ht F W es' U D. apply C69_printed; auto; [apply parens_proper; exact F|]. apply Forall_map. eapply Forall_impl; [|exact W]. intros e H. apply paren_words, (proj1 guarded_words e H).
Qed.
Print Assumptions C69_printed_guarded.

(** ** Cases *)
Definition sym (s : string) : expr := Leaf (TK_Symbol, text s).
Definition num (s : string) : expr := Leaf (TK_Integer, text s).
Definition op (k : Z) (s : string) : word := (k, text s).
(** [-a^2 + b c], and [f[x, {1}]] over two lines, with a comment *)
Definition sum : expr :=
  Infix (Prefix (op TK_Minus "-") (Binary (sym "a") (op TK_Caret "^") (num "2"))) (Last (op TK_Plus "+") (Infix (sym "b") (Last implicit_times (sym "c")))).
Definition call : expr :=
  Apply (sym "f") (op TK_OpenSquare "[") (Several (sym "x") (Last (op TK_Comma ",") (Group (op TK_OpenCurly "{") (Single (num "1")) (op TK_CloseCurly "}")))) (op TK_CloseSquare "]").
Local Ltac fit := match goal with
  | |- True => exact I
  | |- ?P /\ ?Q => split; fit
  | |- exists p o, ?x = Some (p, o) /\ _ => let r := eval vm_compute in x in match r with Some (?a, ?b) => exists a, b; split; [vm_compute; reflexivity|fit] end
  | |- exists q, ?x = Some (q, _) => eexists; vm_compute; reflexivity
  | |- exists u o, prefix_of ?k = PP_Group u o => do 2 eexists; vm_compute; reflexivity
  | |- exists u o, infix_of ?k = IP_Call u o => do 2 eexists; vm_compute; reflexivity
  | |- bracketed _ _ => reflexivity
  | |- comma _ => reflexivity
  | |- stops _ _ => let q := fresh in let E := fresh in intros q E; vm_compute in E; first [discriminate E|injection E as <-; unfold ends_operand; cbn; lia]
  | |- forall q o, ?x = Some (q, o) -> ~ _ => let q := fresh in let o := fresh in let E := fresh in let X := fresh in intros q o E; vm_compute in E; first [discriminate E|injection E as <- <-; intros X; unfold ends_operand in X; cbn in X; lia]
  | |- forall p o, ?x = Some (p, o) -> _ => let p := fresh in let o := fresh in let E := fresh in intros p o E; vm_compute in E; first [discriminate E|injection E as <- <-; fit]
  | |- forall q, as_infix _ <> _ => let q := fresh in let E := fresh in intros q E; vm_compute in E; discriminate E
  | |- fst _ = TK_Fake_ImplicitTimes -> _ => let E := fresh in intros E; first [split; reflexivity|vm_compute in E; discriminate E]
  | |- _ \/ _ => first [left; vm_compute; reflexivity|right; vm_compute; reflexivity]
  | |- joins _ _ _ => split; fit
  | |- proper _ => cbn [proper proper_tail proper_body proper_list begins ends tail_ends head_word fst op sum call sym num implicit_times]; fit
  | |- _ => idtac
  end.
Example C69_proper : proper sum /\ proper call.
Proof. split; unfold sum, call, sym, num; fit. all: cbn [proper_tail proper_body proper_list begins ends tail_ends head_word fst op sum call sym num implicit_times]. all: fit. Qed.
(** Without its brackets [(a + b)*c] is not such an expression. *)
Example C69_improper : ~ proper (Infix (Infix (sym "a") (Last (op TK_Plus "+") (sym "b"))) (Last (op TK_Star "*") (sym "c"))).
Proof.
  intros (p & o & E & _ & (H & _) & _). vm_compute in E. injection E as <- <-. destruct (H _ _ eq_refl) as [X _]. specialize (X _ eq_refl). vm_compute in X. destruct X as [X|[X _]]; discriminate X.
Qed.
Lemma a_letter : forall b e, 97 <= b <= 122 -> ends_name e -> lexeme TK_Symbol [b] e.
Proof. intros b e H E. apply lex_name; auto. left. apply sym_name. exists [b], []. split; [reflexivity|]. split; [apply lt_ascii; unfold letter; lia|constructor]. Qed.
Lemma a_digit : forall b e, 49 <= b <= 57 -> after_number [b] e -> lexeme TK_Integer [b] e.
Proof.
  intros b e H E. apply lex_number; auto. change [b] with ([b] ++ [] ++ []). apply (num_of [b] None [b] false [] false [] false).
  - apply man_int. split; [discriminate|]. constructor; [unfold digit_byte; lia|constructor].
  - constructor.
  - constructor.
  - discriminate.
  - reflexivity.
  - intros N. destruct (N I).
Qed.
(** a sufficient check that an operator is the longest *)
Fixpoint is_prefix (a b : list Z) : bool := match a, b with [], _ => true | x :: a, y :: b => if x =? y then is_prefix a b else false | _ :: _, [] => false end.
Definition op_check (w : list Z) (k : Z) (e : list Z) : bool :=
  existsb (fun c => if snd c =? k then zlist_eqb (fst c) w else false) operators &&
  forallb (fun c => if Nat.leb (length (fst c)) (length w) then true else negb (is_prefix (fst c) (w ++ e))) operators &&
  negb (existsb (zlist_eqb w) [[46]; [47; 46]; [40]; [37]]) &&
  negb (zin 92 (firstn 4 (w ++ e))) && negb (k =? TK_Whitespace).
Lemma is_prefix_app : forall a b, is_prefix a (a ++ b) = true.
Proof. induction a as [|x a IH]; intros b; cbn [is_prefix app]; auto. rewrite Z.eqb_refl. auto. Qed.
Lemma an_operator : forall w k e, op_check w k e = true -> lexeme k w e.
Proof.
  intros w k e H. unfold op_check in H. repeat (apply andb_true_iff in H as [H ?]). rename H into H4, H3 into H3, H2 into H2, H1 into H1, H0 into H0.
  apply existsb_exists in H4 as ([w' k'] & HIn & E). cbn [fst snd] in E. destruct (Z.eqb_spec k' k) as [ -> |]; [|discriminate E]. apply zlist_eqb_eq in E. subst w'.
  apply negb_true_iff in H0. apply Z.eqb_neq in H0. apply lex_operator; auto.
  - split; [exact HIn|]. split.
    + intros U. apply negb_true_iff in H2. assert (X : existsb (zlist_eqb w) [[46]; [47; 46]; [40]; [37]] = true); [|congruence].
      apply existsb_exists. exists w. split; [|apply zlist_eqb_eq; reflexivity]. unfold unless in U. cbn [In]. destruct U as [[[U|U] _]|[[U _]|[U _]]]; subst w; auto 10.
    + intros op' k'' e' HIn' E' _. pose proof (proj1 (forallb_forall _ _) H3 _ HIn') as F. cbn [fst] in F. destruct (Nat.leb_spec (length op') (length w)); auto. rewrite E', is_prefix_app in F. discriminate F.
  - intros X. apply negb_true_iff in H1. assert (Y : zin 92 (firstn 4 (w ++ e)) = true) by (apply zin_In; exact X). congruence.
Qed.
Local Ltac name_end := match goal with |- ends_name (?b :: ?r) => split; [right; left; exists b, r; split; [reflexivity|]; unfold letter; lia|let b := fresh in let r := fresh in let E := fresh in let X := fresh in intros (b & r & E & X); injection E as <- _; unfold digit_byte in X; lia]
  | |- ends_name [] => split; [left; reflexivity|let E := fresh in intros (? & ? & E & _); discriminate E] end.
Local Ltac number_end := match goal with |- after_number _ (?b :: ?r) => right; exists b, r; split; [reflexivity|]; split; [unfold digit_byte; lia|]; split; [cbn [In]; lia|]; split; [intros _; unfold alnum, digit_byte; lia|]; split; [lia|lia] end.
Local Ltac read w e := let w' := eval vm_compute in (text w) in let e' := eval vm_compute in e in apply (spells_cons _ _ _ w' e');
  [first [apply gap_none|apply gap_blank; [lia|]; apply gap_none|idtac]|first [apply a_letter; [lia|name_end]|apply a_digit; [lia|number_end]|apply an_operator; vm_compute; reflexivity]|cbn [behind]].
Example C69_spelled : spells 0 true (words sum) (text "-a^2 + b c") /\ spells 0 true (words call) (text "f[x, (* {y, *)" ++ 10 :: text "{1}] ").
Proof.
  split.
  - vm_compute. read "-"%string (text "a^2 + b c"). read "a"%string (text "^2 + b c"). read "^"%string (text "2 + b c"). read "2"%string (text " + b c"). read "+"%string (text " b c"). read "b"%string (text " c"). read "c"%string (text ""). apply spells_nil, gap_none.
  - vm_compute. read "f"%string (text "[x, (* {y, *)" ++ 10 :: text "{1}] "). read "["%string (text "x, (* {y, *)" ++ 10 :: text "{1}] "). read "x"%string (text ", (* {y, *)" ++ 10 :: text "{1}] ").
    read ","%string (text " (* {y, *)" ++ 10 :: text "{1}] "). read "{"%string (text "1}] ").
    { vm_compute. apply gap_blank; [lia|]. apply gap_comment with (t := 10 :: text "{1}] "); [vm_compute; reflexivity|]. apply (gap_line _ [10]); [reflexivity|left; reflexivity|]. apply gap_none. }
    read "1"%string (text "}] "). read "}"%string (text "] "). read "]"%string (text " "). apply spells_nil, gap_blank; [lia|]. apply gap_none.
Qed.
(** Three lines, two expressions: a line break behind an operator does not end the expression, and
    a line that begins with a sign does not go on with a single name. *)
Definition two : list expr := [Binary (sym "a") (op TK_Equal "=") (sym "b"); Prefix (op TK_Minus "-") (sym "c")].
Example C69_lines : proper_program two /\ spells 0 true (program_words two) (text "a =" ++ 10 :: text "b" ++ 10 :: text "-c") /\
  rendered (parse_cst_seq default_opts true NotScript (text "a =" ++ 10 :: text "b" ++ 10 :: text "-c")) = Some [text "(a =" ++ 10 :: text "b)"; [10]; text "(-c)"].
Proof.
  split; [|split; [|vm_compute; reflexivity]].
  - cbn [proper_program two]. split; [unfold sym; fit|]. split; [split; [exact I|vm_compute; discriminate]|]. split; [unfold sym; fit|]. auto.
  - vm_compute. read "a"%string (text " =" ++ 10 :: text "b" ++ 10 :: text "-c"). read "="%string (10 :: text "b" ++ 10 :: text "-c"). read "b"%string (10 :: text "-c").
    { apply (gap_line _ [10]); [reflexivity|left; reflexivity|]. apply gap_none. }
    apply (spells_line _ [10] (text "-c")); [apply gap_none|left; reflexivity|]. vm_compute. read "-"%string (text "c"). read "c"%string (text ""). apply spells_nil, gap_none.
Qed.
(** But it does go on with a sum: the condition on programs is needed. *)
Example C69_sum_goes_on : ~ proper_program [Infix (sym "a") (Last (op TK_Plus "+") (sym "b")); Prefix (op TK_Minus "-") (sym "c")] /\
  rendered (parse_cst_seq default_opts true NotScript (text "a + b" ++ 10 :: text "-c")) = Some [text "(a + b" ++ 10 :: text "-c)"].
Proof.
  split; [|vm_compute; reflexivity]. intros (_ & (((H & _) & _) & _)). exact (H _ _ _ eq_refl eq_refl).
Qed.
Example C69_formed : formed sum /\ Forall ordinary (words sum) /\ proper (guarded sum).
Proof.
  assert (F : formed sum).
  { cbn [formed sum sym num op formed_tail fst]. split.
    - exists 86, IOP_Plus. split; [vm_compute; reflexivity|]. split; [intros E; vm_compute in E; discriminate E|]. split; [|right; vm_compute; reflexivity].
      exists PREC_STAR, IOP_Times. split; [vm_compute; reflexivity|]. split; [reflexivity|]. right. vm_compute. reflexivity.
    - split; [do 2 eexists; vm_compute; reflexivity|]. split; [do 2 eexists; vm_compute; reflexivity|]. split; [right|left]; vm_compute; reflexivity. }
  assert (L : forall b, 97 <= b <= 122 -> ordinary (TK_Symbol, [b])).
  { intros b H. apply ord_name. left. apply sym_name. exists [b], []. split; [reflexivity|]. split; [apply lt_ascii; unfold letter; lia|constructor]. }
  split; [exact F|]. split; [|exact (proj1 (C69_brackets _ F))].
  vm_compute. repeat (constructor; [first [apply L; lia|apply ord_operator; [vm_compute; tauto|discriminate]|apply ord_number]|]); [|constructor].
  change [50] with ([50] ++ [] ++ []). apply (num_of [50] None [50] false [] false [] false);
    [apply man_int; split; [discriminate|]; constructor; [unfold digit_byte; lia|constructor]|constructor|constructor|discriminate|reflexivity|intros N; destruct (N I)].
Qed.
Example C69_case : map (fun s => rendered (public s)) ["-a^2 + b c"; "(a + b) c"; "a -> b -> c"; "a - b - c"; "f[x, {1}]"]%string =
  [Some [text "((-(a^2)) + (b c))"]; Some [text "(<((a + b))> c)"]; Some [text "(a -> (b -> c))"]; Some [text "(a - b - c)"]; Some [text "(f@[(x, <{1}>)])"]].
Proof. vm_compute. reflexivity. Qed.
