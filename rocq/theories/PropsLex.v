(** Properties C46-C49: which token a text is.  Statements only; the proofs are in
    LexResults.v.  Specification: SpecLex.v and SpecTokenizer.v. *)
From Coq Require Import String ZArith List Bool Lia.
From Verif Require Import Base Source WLChar GenTokenKind GenLongNames LongNames ByteDecoder CharDecoder Tokenizer
  SpecText SpecReader SpecTokenizer SpecLex PropsReader PropsTokenizer LexResults.
Import ListNotations.
Local Open Scope Z_scope.

(** C46.  The longest operator the rest of the input begins with is the next token, whatever
    the context and the options; blanks, line breaks and the end of the input are tokens too. *)
Theorem C46_operator : forall o input s g pol t s1, 0 < o_tab_width o -> reached o input s -> p_scan pol = false -> ask o (AsToken g pol) s = Ok (t, s1) ->
  forall op k e, longest_operator op k e -> ~ In 92 (firstn 4 (op ++ e)) -> rest (cur s) = op ++ e -> t_kind t = k /\ t_text t = op.
Proof. exact operator_token. Qed.
Print Assumptions C46_operator.

Theorem C46_percents : forall o input s g pol t s1, 0 < o_tab_width o -> reached o input s -> p_scan pol = false -> ask o (AsToken g pol) s = Ok (t, s1) ->
  forall n e, (2 <= n)%nat -> ~ starts_with (fun b => b = 37 \/ b = 92) e -> rest (cur s) = repeat 37 n ++ e ->
  t_kind t = TK_PercentPercent /\ t_text t = repeat 37 n.
Proof. exact percents_token. Qed.
Print Assumptions C46_percents.

Theorem C46_line_break : forall o input s g pol t s1, 0 < o_tab_width o -> reached o input s -> p_scan pol = false -> ask o (AsToken g pol) s = Ok (t, s1) ->
  forall w e, line_break w e -> rest (cur s) = w ++ e ->
  t_kind t = (if p_toplevel pol && negb g then TK_ToplevelNewline else TK_InternalNewline) /\ t_text t = w.
Proof. exact line_break_token. Qed.
Print Assumptions C46_line_break.

Theorem C46_end : forall o input s g pol t s1, 0 < o_tab_width o -> reached o input s -> p_scan pol = false -> ask o (AsToken g pol) s = Ok (t, s1) ->
  rest (cur s) = [] -> t_kind t = TK_EndOfFile /\ t_text t = [].
Proof. exact end_token. Qed.
Print Assumptions C46_end.

Lemma in_kinds : forall k n, existsb (fun e => if fst e =? k then String.eqb (snd e) n else false) KINDS = true -> In (k, n) KINDS.
Proof.
  intros k n H. apply existsb_exists in H as ((k' & n') & HIn & E). cbn [fst snd] in E. destruct (Z.eqb_spec k' k) as [->|]; [|discriminate]. apply String.eqb_eq in E. subst n'. exact HIn.
Qed.
Lemma in_names : forall n p, existsb (fun e => if snd e =? p then zlist_eqb (fst e) n else false) LN_TABLE = true -> In (n, p) LN_TABLE.
Proof.
  intros n p H. apply existsb_exists in H as ((m & q) & HIn & E). cbn [fst snd] in E. destruct (Z.eqb_spec q p) as [->|]; [|discriminate]. apply zlist_eqb_eq in E. subst m. exact HIn.
Qed.
Lemma operators_bound : forall op' k', In (op', k') operators -> (length op' <= 3)%nat.
Proof.
  intros op' k' H. assert (F : forallb (fun e => Nat.leb (length (fst e)) 3) operators = true) by (vm_compute; reflexivity).
  apply (proj1 (forallb_forall _ _) F) in H. apply Nat.leb_le in H. exact H.
Qed.
(** Maximal munch at work: [a=!=b], [a=!b], [a/.1], [a/.b], and the input ends. *)
Example C46_hypotheses : longest_operator (text "=!=") TK_EqualBangEqual (text "b") /\ ~ In 92 (firstn 4 (text "=!=" ++ text "b")).
Proof.
  split; [|vm_compute; lia]. split; [|split].
  - vm_compute. tauto.
  - unfold unless. vm_compute. intros [[[?|?] _]|[[? _]|[? _]]]; discriminate.
  - intros op' k' e' H _ _. apply operators_bound in H. exact H.
Qed.
Example C46_case : map (fun i => shown (tokenize_raw default_opts NotScript (text i))) ["=!="; "=!b"; "/.1"; "/.b"; "*)"; "%%%"]%string =
  [ Some [(TK_EqualBangEqual, text "=!=")];
    Some [(TK_Equal, text "="); (TK_Bang, text "!"); (TK_Symbol, text "b")];
    Some [(TK_Slash, text "/"); (TK_Real, text ".1")];
    Some [(TK_SlashDot, text "/."); (TK_Symbol, text "b")];
    Some [(TK_Error_UnexpectedCommentCloser, text "*)")];
    Some [(TK_PercentPercent, text "%%%")] ].
Proof. vm_compute. reflexivity. Qed.

(** C47.  A symbol with its contexts is one token; in a slot it is a string.  A backquote in
    front of something that is not a letter makes it an error that ends with the backquote. *)
Theorem C47_symbol : forall o input s g pol t s1, 0 < o_tab_width o -> reached o input s -> p_scan pol = false -> ask o (AsToken g pol) s = Ok (t, s1) ->
  forall w e, symbol w -> ends_name e -> rest (cur s) = w ++ e ->
  t_kind t = (if has_slot pol then TK_String else TK_Symbol) /\ t_text t = w.
Proof. exact symbol_token. Qed.
Print Assumptions C47_symbol.
Example C47_slots : map has_slot [TOPLEVEL; INSIDE_SLOT; INSIDE_SLOTSEQUENCE; INSIDE_OUT] = [false; true; false; false].
Proof. reflexivity. Qed.

Theorem C47_dangling_backquote : forall o input s g pol t s1, 0 < o_tab_width o -> reached o input s -> p_scan pol = false -> ask o (AsToken g pol) s = Ok (t, s1) ->
  forall w e, w = [] \/ symbol w -> no_letter e -> rest (cur s) = w ++ 96 :: e ->
  t_kind t = TK_Error_ExpectedLetterlike /\ t_text t = w ++ [96].
Proof. exact dangling_token. Qed.
Print Assumptions C47_dangling_backquote.

(** [a1`\[Alpha]b] in front of a plus sign, and a character that is a letter because
    it does not stand alone *)
Example C47_hypotheses : symbol (text "a1`\[Alpha]b") /\ ends_name (text "+") /\ no_letter (text "\[Rule]x").
Proof.
  assert (Na : ~ stands_alone 0x3B1).
  { intros (n & k & HIn & Hk).
    assert (E : forall m q, In (m, q) LN_TABLE -> q = 0x3B1 -> m = text "Alpha").
    { intros m q H E. assert (F : forallb (fun e => if snd e =? 0x3B1 then zlist_eqb (fst e) (text "Alpha") else true) LN_TABLE = true) by (vm_compute; reflexivity).
      apply (proj1 (forallb_forall _ _) F) in H. cbn [fst snd] in H. subst q. apply zlist_eqb_eq in H. exact H. }
    specialize (E _ _ HIn eq_refl). subst n. inversion Hk as [k' s' H1 H2|H1|H1|H1].
    - assert (F : forallb (fun e => negb (zlist_eqb (bytes_of_string (snd e)) (bytes_of_string "LongName_" ++ text "Alpha"))) KINDS = true) by (vm_compute; reflexivity).
      apply (proj1 (forallb_forall _ _) F) in H1. cbn [snd] in H1. rewrite H2 in H1. vm_compute in H1. discriminate.
    - assert (F : existsb (zlist_eqb (text "Alpha")) blank_names = true) by (apply existsb_exists; eexists; split; [exact H1|apply zlist_eqb_eq; reflexivity]). vm_compute in F. discriminate.
    - assert (F : existsb (zlist_eqb (text "Alpha")) line_break_names = true) by (apply existsb_exists; eexists; split; [exact H1|apply zlist_eqb_eq; reflexivity]). vm_compute in F. discriminate.
    - assert (F : existsb (zlist_eqb (text "Alpha")) unhandled_names = true) by (apply existsb_exists; eexists; split; [exact H1|apply zlist_eqb_eq; reflexivity]). vm_compute in F. discriminate. }
  split; [|split].
  - left. change (text "a1`\[Alpha]b") with (text "a1" ++ 96 :: text "\[Alpha]b"). apply sym_context.
    + exists (text "a"), (text "1"). split; [reflexivity|]. split; [apply (lt_ascii 97); unfold letter; lia|]. apply (np_digit 49 []); [unfold digit_byte; lia|constructor].
    + apply sym_name. exists (text "\[Alpha]"), (text "b"). split; [reflexivity|]. split.
      * apply (lt_wide 0x3B1); [|apply (sp_name 0x3B1 (text "Alpha")); apply in_names; vm_compute; reflexivity].
        split; [unfold scalar; lia|]. split; [lia|]. split; [discriminate|]. split; [cbn [In box_characters]; lia|exact Na].
      * apply (np_letter [98] []); [apply (lt_ascii 98); unfold letter; lia|constructor].
  - split; [right; left; exists 43, []; split; [reflexivity|]; unfold letter; repeat split; lia|]. intros (b & r & E & H). injection E as <- <-. unfold digit_byte in H. lia.
  - right. right. exists 0xF522, (text "\[Rule]"), (text "x"). split; [reflexivity|].
    assert (HIn : In (text "Rule", 0xF522) LN_TABLE) by (apply in_names; vm_compute; reflexivity).
    split; [|apply (sp_name _ (text "Rule") HIn)]. exists (text "Rule"), TK_LongName_Rule. split; auto.
    apply (nk_operator _ _ _ "LongName_Rule"%string); [|reflexivity]. apply in_kinds. vm_compute. reflexivity.
Qed.
Example C47_case : map (fun i => shown (tokenize_raw default_opts NotScript (text i))) ["a1`\[Alpha]b+"; "a`\[Rule]x"; "`1"]%string =
  [ Some [(TK_Symbol, text "a1`\[Alpha]b"); (TK_Plus, text "+")];
    Some [(TK_Error_ExpectedLetterlike, text "a`"); (TK_LongName_Rule, text "\[Rule]"); (TK_Symbol, text "x")];
    Some [(TK_Error_ExpectedLetterlike, text "`"); (TK_Integer, text "1")] ].
Proof. vm_compute. reflexivity. Qed.

(** C48.  Numbers: digits with an optional base, fraction, precision or accuracy, and
    exponent are one token, of the kind the number has. *)
Theorem C48_number : forall o input s g pol t s1, 0 < o_tab_width o -> reached o input s -> p_scan pol = false -> ask o (AsToken g pol) s = Ok (t, s1) ->
  forall w k e, p_intshort pol = false -> number w k -> after_number w e -> rest (cur s) = w ++ e -> t_kind t = k /\ t_text t = w.
Proof. exact number_token. Qed.
Print Assumptions C48_number.

(** A base that is not between 2 and 36 is an error, whatever follows. *)
Theorem C48_bad_base : forall o input s g pol t s1, 0 < o_tab_width o -> reached o input s -> p_scan pol = false -> ask o (AsToken g pol) s = Ok (t, s1) ->
  forall w e, p_intshort pol = false -> bad_base w -> rest (cur s) = w ++ e -> t_kind t = TK_Error_Number.
Proof. exact bad_base_token. Qed.
Print Assumptions C48_bad_base.

(** After a hash or a percent sign only the digits count. *)
Theorem C48_index : forall o input s g pol t s1, 0 < o_tab_width o -> reached o input s -> p_scan pol = false -> ask o (AsToken g pol) s = Ok (t, s1) ->
  forall ds e, p_intshort pol = true -> digits ds -> ~ starts_with (fun b => digit_byte b \/ b = 92) e -> rest (cur s) = ds ++ e ->
  t_kind t = TK_Integer /\ t_text t = ds.
Proof. exact index_token. Qed.
Print Assumptions C48_index.
Example C48_policies : map p_intshort [TOPLEVEL; INSIDE_SLOT; INSIDE_SLOTSEQUENCE; INSIDE_OUT] = [false; true; true; true].
Proof. reflexivity. Qed.

Lemma d1 : digit_byte 49. Proof. unfold digit_byte. lia. Qed.
Lemma d3 : digit_byte 51. Proof. unfold digit_byte. lia. Qed.
(** [16^^f.f`3*^-1] in front of [*x] *)
Example C48_hypotheses : number (text "16^^f.f`3*^-1") TK_Real /\ after_number (text "16^^f.f`3*^-1") (text "*x") /\ bad_base (text "37^^").
Proof.
  split; [|split].
  - change (text "16^^f.f`3*^-1") with (([49; 54] ++ 94 :: 94 :: [102] ++ 46 :: [102]) ++ (96 :: [] ++ [51]) ++ (42 :: 94 :: 45 :: [49])).
    apply (num_of _ (Some 16) ([102] ++ [102]) true _ true _ true).
    + apply (man_base_frac [49; 54] [102] [102]); [split; [discriminate|repeat constructor; unfold digit_byte; lia]| | |discriminate]; repeat constructor; unfold alnum; lia.
    + apply prec_some; [left; reflexivity|]. apply dec_int. split; [discriminate|]. constructor; [apply d3|constructor].
    + apply exp_minus; [split; [discriminate|constructor; [apply d1|constructor]]|]. split; auto. intros _. vm_compute. discriminate.
    + intros b E. injection E as <-. lia.
    + intros _. reflexivity.
    + intros N. exfalso. apply N. repeat constructor.
  - right. exists 42, (text "x"). split; [reflexivity|]. split; [unfold digit_byte; lia|]. split; [cbn; lia|]. split; [intros _; unfold alnum, digit_byte; lia|]. split; [|intros _ [?|?]; discriminate].
    intros _ (b & r & E & H). injection E as <- _. lia.
  - exists [51; 55]. split; [reflexivity|]. split; [split; [discriminate|repeat constructor; unfold digit_byte; lia]|]. vm_compute. intros [_ H]. apply H. reflexivity.
Qed.
Example C48_case : map (fun i => shown (tokenize_raw default_opts NotScript (text i)))
    ["16^^f.f`3*^-1*x"; "2*^-3"; "2*^-0"; "37^^1"; "2^^12"; "1``.5+"; "007.x"; "2^^1f"; "1`-x"]%string =
  [ Some [(TK_Real, text "16^^f.f`3*^-1"); (TK_Star, text "*"); (TK_Symbol, text "x")];
    Some [(TK_Rational, text "2*^-3")]; Some [(TK_Integer, text "2*^-0")]; Some [(TK_Error_Number, text "37^^1")]; Some [(TK_Error_Number, text "2^^12")];
    Some [(TK_Real, text "1``.5"); (TK_Plus, text "+")]; Some [(TK_Real, text "007."); (TK_Symbol, text "x")]; Some [(TK_Error_Number, text "2^^1f")];
    Some [(TK_Real, text "1`"); (TK_Minus, text "-"); (TK_Symbol, text "x")] ].
Proof. vm_compute. reflexivity. Qed.

(** C49.  A character with a name that stands alone is a token by itself, the same however
    it is written; if its name is that of a token kind, it is of that kind. *)
Theorem C49_named_character : forall o input s g pol t s1, 0 < o_tab_width o -> reached o input s -> p_scan pol = false -> ask o (AsToken g pol) s = Ok (t, s1) ->
  forall name p k w e, In (name, p) LN_TABLE -> named_kind (if p_toplevel pol && negb g then TK_ToplevelNewline else TK_InternalNewline) name k -> spelling p w ->
  rest (cur s) = w ++ e -> t_kind t = k /\ t_text t = w.
Proof. exact spelled_token. Qed.
Print Assumptions C49_named_character.
Example C49_hypotheses : In (text "Rule", 0xF522) LN_TABLE /\ named_kind TK_ToplevelNewline (text "Rule") TK_LongName_Rule /\
  spelling 0xF522 (utf8 0xF522) /\ spelling 0xF522 (text "\:F522") /\ spelling 0xF522 (text "\[Rule]").
Proof.
  assert (HIn : In (text "Rule", 0xF522) LN_TABLE).
  { apply in_names. vm_compute. reflexivity. }
  split; auto. split; [apply (nk_operator _ _ _ "LongName_Rule"%string); [apply in_kinds; vm_compute; reflexivity|reflexivity]|]. split; [apply sp_literal|]. split.
  - apply (sp_hex4 _ (text "F522")); [split; [reflexivity|repeat constructor]|reflexivity].
  - apply (sp_name _ (text "Rule") HIn).
Qed.
Example C49_case : shown (tokenize_raw default_opts NotScript (text "a\[Rule]b\:F522" ++ utf8 0xF522)) =
  Some [(TK_Symbol, text "a"); (TK_LongName_Rule, text "\[Rule]"); (TK_Symbol, text "b"); (TK_LongName_Rule, text "\:F522"); (TK_LongName_Rule, utf8 0xF522)].
Proof. vm_compute. reflexivity. Qed.
