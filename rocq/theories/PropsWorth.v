(** Property C70: the value of a text.
    Statements only; the proofs are in WorthProofs.v.  Specification: SpecWorth.v, with the
    expressions and texts of SpecPrint.v and the worlds of SpecValue.v. *)
From Coq Require Import String.
From Coq Require Import ZArith List Bool Lia.
From Verif Require Import Base Source GenTokenKind GenPrec GenOps GenSymbols GenParselets TokenKind Parselets LongNames ByteDecoder CharDecoder Tokenizer Cst SpecCst
  SpecText TextProofs SpecReader SpecTokenizer PropsReader PropsTokenizer Parser SpecParser SpecParse ParserTheorems CstProofs ErrorReparse SpecReparse SpecRepair RepairProofs
  SpecLex FormatRound ParserPrint PrintResults Ast Abstract PropsAbstract PropsValue WorthProofs SpecValue SpecPrint SpecWorth.
Import ListNotations.
Local Open Scope string_scope.
Local Open Scope list_scope.
Local Open Scope Z_scope.

(** C70.  If a text spells expressions, however it is laid out, then the abstract syntax trees of
    the text have the values of those expressions, in every world in which Plus adds, Times
    multiplies, and so on, and under all settings of the quirks.  The value of an expression is
    read off the expression: no concrete syntax tree is mentioned. *)
Theorem C70_value : forall w, lawful w -> forall o dbg a es input l s' asts, 0 < o_tab_width o -> (forall s, SpecValue.bare s -> a_fmt a s = 34 :: s ++ [34]) ->
  proper_program es -> spells 0 true (program_words es) input -> parse_cst_seq o dbg NotScript input = Ok (l, s') -> to_ast a l = Ok asts ->
  Forall2 (fun e t => forall v, worth w e v -> denotes w t v) es asts.
Proof. exact value_of_text. Qed.
Print Assumptions C70_value.
(** The trees do exist, in release builds, if all the expressions have a value: of the cases in
    which abstraction gives up (C52) only that of an invisible application is left. *)
Theorem C70_returns : forall w, lawful w -> forall o dbg a es vs input, 0 < o_tab_width o -> (forall s, SpecValue.bare s -> a_fmt a s = 34 :: s ++ [34]) ->
  proper_program es -> spells 0 true (program_words es) input -> Forall2 (worth w) es vs ->
  well_formed_no_bom input -> ~ has_surrogate_escape input -> (dbg = true -> never_lexed o input TK_LongName_InvisibleComma) ->
  a_dbg a = false -> (q_infix_binary_at a = true -> Forall (fun x => fst x <> TK_LongName_InvisibleApplication) (program_words es)) ->
  exists l s' asts, parse_cst_seq o dbg NotScript input = Ok (l, s') /\ to_ast a l = Ok asts /\ Forall2 (denotes w) asts vs.
Proof. exact text_has_value. Qed.
Print Assumptions C70_returns.
(** An expression has one value at most. *)
Theorem C70_one : forall w e v v', worth w e v -> worth w e v' -> v = v'.
Proof. intros w e v v' W W'. exact (proj1 (proj1 (worth_once w) e) v v' W W'). Qed.
Print Assumptions C70_one.
(** Printing, parsing and abstraction: expressions that are printed one in each line keep their
    values. *)
Theorem C70_printed : forall w, lawful w -> forall o dbg a es vs, 0 < o_tab_width o -> (forall s, SpecValue.bare s -> a_fmt a s = 34 :: s ++ [34]) ->
  proper_program es -> Forall (fun e => Forall ordinary (words e)) es -> Forall2 (worth w) es vs ->
  well_formed_no_bom (print_program es) -> ~ has_surrogate_escape (print_program es) -> (dbg = true -> never_lexed o (print_program es) TK_LongName_InvisibleComma) ->
  a_dbg a = false -> (q_infix_binary_at a = true -> Forall (fun x => fst x <> TK_LongName_InvisibleApplication) (program_words es)) ->
  exists l s' asts, parse_cst_seq o dbg NotScript (print_program es) = Ok (l, s') /\ to_ast a l = Ok asts /\ Forall2 (denotes w) asts vs.
Proof. intros w L o dbg a es vs Ht Q P W V. eapply text_has_value; eauto. apply program_spells; auto. Qed.
Print Assumptions C70_printed.

(** ** Cases *)
Definition asym (s : string) : expr := Leaf (TK_Symbol, bytes s).
Definition anum (s : string) : expr := Leaf (TK_Integer, bytes s).
Definition an (k : Z) (s : string) : SpecPrint.word := (k, bytes s).
(** [-2^2 + 3 (4 - 1) - 6] *)
Definition arithmetic : expr :=
  Infix (Prefix (an TK_Minus "-") (Binary (anum "2") (an TK_Caret "^") (anum "2")))
    (Then (an TK_Plus "+") (Infix (anum "3") (Last implicit_times (paren (Infix (anum "4") (Last (an TK_Minus "-") (anum "1"))))))
      (Last (an TK_Minus "-") (anum "6"))).
(** [f[{1, x}, g'']] *)
Definition calls : expr :=
  Apply (asym "f") (an TK_OpenSquare "[")
    (Several (SpecPrint.Group (an TK_OpenCurly "{") (Several (anum "1") (Last (an TK_Comma ",") (asym "x"))) (an TK_CloseCurly "}"))
      (Last (an TK_Comma ",") (Postfix (Postfix (asym "g") (an TK_SingleQuote "'")) (an TK_SingleQuote "'"))))
    (an TK_CloseSquare "]").
(** [1 < 3 == 3] *)
Definition comparison : expr := Infix (anum "1") (Then (an TK_Less "<") (anum "3") (Last (an TK_EqualEqual "==") (anum "3"))).
Definition program : list expr := [arithmetic; calls; comparison].
Definition values : list value :=
  [Value (-1) []; Value (code (bytes "f")) [Value 0 [Value 1 []; Value (code (bytes "x")) []]; apply_to Integers (app Integers "Derivative" [Value 2 []]) [name Integers "g"]]; truth true].
Local Ltac fit := match goal with
  | |- True => exact I
  | |- ?P /\ ?Q => split; fit
  | |- exists p o, ?x = Some (p, o) /\ _ => let r := eval vm_compute in x in match r with Some (?a, ?b) => exists a, b; split; [vm_compute; reflexivity|fit] end
  | |- exists q, ?x = Some (q, _) => eexists; vm_compute; reflexivity
  | |- exists u o, prefix_of ?k = PP_Group u o => do 2 eexists; vm_compute; reflexivity
  | |- exists u o, infix_of ?k = IP_Call u o => do 2 eexists; vm_compute; reflexivity
  | |- bracketed _ _ => reflexivity
  | |- comma _ => reflexivity
  | |- stops _ _ => let q := fresh in let E := fresh in intros q E; vm_compute in E; first [discriminate E|injection E as <-; unfold ends_operand; cbn; lia]
  | |- forall q o, ?x = Some (q, o) -> ~ _ => let q := fresh in let o := fresh in let E := fresh in let X := fresh in intros q o E; vm_compute in E; first [discriminate E|injection E as <- <-; intros X; unfold ends_operand in X; cbn in X; lia]
  | |- forall p o, ?x = Some (p, o) -> _ => let p := fresh in let o := fresh in let E := fresh in intros p o E; vm_compute in E; first [discriminate E|injection E as <- <-; fit]
  | |- forall q, as_infix _ <> _ => let q := fresh in let E := fresh in intros q E; vm_compute in E; discriminate E
  | |- fst _ = TK_Fake_ImplicitTimes -> _ => let E := fresh in intros E; first [split; reflexivity|vm_compute in E; discriminate E]
  | |- _ \/ _ => first [left; vm_compute; reflexivity|right; vm_compute; reflexivity]
  | |- joins _ _ _ => split; fit
  | |- proper _ => cbn [proper proper_tail proper_body proper_list begins ends tail_ends head_word fst an asym anum paren implicit_times]; fit
  | |- _ => idtac
  end.
Example C70_proper : proper_program program.
Proof.
  cbn [proper_program program]. split; [unfold arithmetic, asym, anum; fit; cbn [proper_tail proper_body proper_list begins ends tail_ends head_word fst an asym anum paren implicit_times]; fit|].
  split; [split; [vm_compute|vm_compute; discriminate]|].
  - repeat split; intros; discriminate.
  - split; [unfold calls, asym, anum; fit; cbn [proper_tail proper_body proper_list begins ends tail_ends head_word fst an asym anum paren implicit_times]; fit|].
    split; [split; [exact I|vm_compute; discriminate]|]. split; [unfold comparison, anum; fit; cbn [proper_tail proper_body proper_list begins ends tail_ends head_word fst an asym anum paren implicit_times]; fit|]. auto.
Qed.
Lemma compared_found : forall k x p, find (fun p => zin k (snd p)) (PLAIN_COMPARISONS ++ OTHER_COMPARISONS ++ VECTOR_COMPARISONS) = Some p -> compared (k, x) (fst p).
Proof. intros k x p F. apply find_some in F as [H K]. exists (snd p). split; [rewrite <- surjective_pairing; exact H|apply zin_In; exact K]. Qed.
Ltac no_heads := repeat (apply Forall_cons; [let E := fresh in intros (? & ? & ? & E & _); discriminate E|]); apply Forall_nil.
Ltac priming := first [apply primes_one; [reflexivity|intros ? ? X; discriminate X] | eapply primes_more; [priming|reflexivity]].
Ltac value :=
  first
  [ apply worth_number; left; reflexivity | apply worth_name; discriminate
  | apply worth_parentheses; [reflexivity|value]
  | eapply worth_minus; [vm_compute; reflexivity|value] | eapply worth_power; [vm_compute; reflexivity|value|value]
  | eapply worth_sum; [vm_compute; reflexivity|value|all_values] | eapply worth_product; [vm_compute; reflexivity|value|all_values]
  | eapply worth_comparison; [vm_compute; reflexivity|repeat (apply Forall2_cons; [eapply compared_found; vm_compute; reflexivity|]); apply Forall2_nil|left; repeat (constructor; [vm_compute; intuition discriminate|]); constructor|value|all_values]
  | eapply worth_call; [reflexivity|intros (? & ? & ? & X & _); discriminate X|value|value_inside]
  | eapply worth_group; [vm_compute; reflexivity|cbn; intuition discriminate|value_inside]
  | eapply worth_primes; [priming|value] ]
with all_values := (cbn [operands links map snd ops fst]; repeat (apply Forall2_cons; [value|]); apply Forall2_nil)
with value_inside := first [apply worth_none | apply worth_one; value | apply worth_some; [no_heads|value|all_values]].
Example C70_worth : Forall2 (worth Integers) program values.
Proof.
  unfold program, values. repeat (apply Forall2_cons; [match goal with |- worth _ ?e _ => let e' := eval unfold arithmetic, calls, comparison, paren, asym, anum, an in e in eassert (M : worth Integers e' _) by value end; exact M|]). apply Forall2_nil.
Qed.
(** The text with one of them in each line, and all that is asked of it. *)
Lemma ascii_clean : forall s, Forall (fun b => 0 <= b < 128) s -> well_formed_no_bom s.
Proof.
  intros s H. exists s. split; [eapply Forall_impl; [|exact H]; intros b B; cbn beta in B; left; lia|]. split; [|symmetry; apply encode_ascii; exact H].
  intros X. rewrite Forall_forall in H. specialize (H _ X). vm_compute in H. destruct H as [_ H]. discriminate H.
Qed.
Definition printed : list Z := print_program program.
Lemma letters : forall b, 97 <= b <= 122 -> ordinary (TK_Symbol, [b]).
Proof. intros b H. apply ord_name. left. apply sym_name. exists [b], []. split; [reflexivity|]. split; [apply lt_ascii; unfold letter; lia|constructor]. Qed.
Lemma digits : forall b, 49 <= b <= 57 -> ordinary (TK_Integer, [b]).
Proof.
  intros b H. apply ord_number. change [b] with ([b] ++ [] ++ []). apply (num_of [b] None [b] false [] false [] false);
    [apply man_int; split; [discriminate|]; constructor; [unfold digit_byte; lia|constructor]|constructor|constructor|discriminate|reflexivity|intros N; destruct (N I)].
Qed.
Example C70_hypotheses : Forall (fun e => Forall ordinary (words e)) program /\ well_formed_no_bom printed /\ ~ has_surrogate_escape printed /\
  Forall (fun x => fst x <> TK_LongName_InvisibleApplication) (program_words program).
Proof.
  split; [|split; [|split]].
  - unfold program. repeat (apply Forall_cons; [vm_compute; repeat (apply Forall_cons; [first [apply letters; lia|apply digits; lia|apply ord_operator; [vm_compute; tauto|discriminate]]|]); apply Forall_nil|]). apply Forall_nil.
  - apply ascii_clean. vm_compute. repeat (apply Forall_cons; [split; [discriminate|reflexivity]|]). apply Forall_nil.
  - apply no_numeric_escape_ok. vm_compute. reflexivity.
  - vm_compute. repeat (apply Forall_cons; [discriminate|]). apply Forall_nil.
Qed.
(** So the abstract trees of the printed text have the values -1, f[{1, x}, Derivative[2][g]] and
    True. *)
Example C70_case : exists l s' asts, parse_cst_seq default_opts false NotScript printed = Ok (l, s') /\ to_ast release l = Ok asts /\ Forall2 (denotes Integers) asts values.
Proof.
  destruct C70_hypotheses as (H1 & H2 & H3 & H4). apply (C70_printed Integers Integers_lawful default_opts false release program values); auto; [reflexivity|exact C70_proper|exact C70_worth|discriminate].
Qed.
