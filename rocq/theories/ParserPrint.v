(** Text that spells an expression is parsed as that expression: by partial correctness. *)
From Coq Require Import String ZArith List Bool Lia Arith.
From Verif Require Import Base Source WLChar GenLongNames LongNames ByteDecoder CharDecoder Decode SpecText Iter
  TextProofs Logic LongNamesProofs WlDecode SpecReader ReaderProofs GenTokenKind TokenKind Format FormatProofs Tokenizer TokLogic
  TokenizerProofs SpecTokenizer TokenLoop TokSim TokSpecs TokAgree TokResults ReparseProofs GenPrec GenOps GenParselets Parselets Cst SpecCst CstProofs Parser SpecParser SpecParse
  ParserLogic ParserRules ParserProofs ParserResults ParserTheorems RepairProofs ParserGaps TokKinds
  SpecLex LexProofs LexChars LexSymbols LexNumbers LexMore LexResults SpecLines ParserLines SpecPrint.
Import ListNotations.
Local Open Scope Z_scope.

(** ** Words and the tokens read *)
Section Words.
Variable o : opts.
Lemma plain_scan : forall g, p_scan (grouped g TOPLEVEL) = false.
Proof. intros []; reflexivity. Qed.

Lemma nextToken_blank : forall pol s b e, Inv o s -> p_scan pol = false -> b = 32 \/ b = 9 -> rest (cur s) = b :: e -> po (nextToken o pol) s (fun t _ => t_kind t = TK_Whitespace /\ t_text t = [b]).
Proof.
  intros pol s b e HI Hp Hb R. unfold nextToken. apply po_mark. apply (po_nextWL o); [assumption|assumption|]. intros c s1 I1 E1.
  rewrite R, twl_ascii in E1 by lia. injection E1 as <- E1.
  assert (X : dispatch o (cur s) (wl b) pol = mk_token TK_Whitespace (cur s)) by (destruct Hb as [-> | ->]; reflexivity). rewrite X.
  apply po_mk_token. intros t T1 T2 _. split; auto. rewrite T2, R, E1. apply buf1.
Qed.
Lemma reads_blank : forall g p t b e, reads o (AsToken g TOPLEVEL) p t -> b = 32 \/ b = 9 -> fst p = b :: e -> t_kind t = TK_Whitespace /\ fst (past t) = e.
Proof.
  intros g p t b e Hr Hb Hp. destruct (reads_asked o (AsToken g TOPLEVEL) p t eq_refl Hr) as (_ & A & _). destruct Hr as (z & z' & I & <- & E).
  destruct (ask_grouped o g TOPLEVEL z t z' (fun t => t_kind t = TK_Whitespace /\ t_text t = [b]) E (nextToken_blank (grouped g TOPLEVEL) z b e I (plain_scan g) Hb Hp)) as [T1 T2].
  split; auto. rewrite Hp, T2 in A. injection A as A. symmetry. exact A.
Qed.
Lemma reads_word : forall g p t k w e, reads o (AsToken g TOPLEVEL) p t -> lexeme k w e -> fst p = w ++ e -> t_kind t = k /\ t_text t = w /\ fst (past t) = e.
Proof.
  intros g p t k w e Hr HL Hp. destruct (reads_asked o (AsToken g TOPLEVEL) p t eq_refl Hr) as (_ & A & _). destruct Hr as (z & z' & I & <- & E).
  assert (H : t_kind t = k /\ t_text t = w).
  { unfold here in Hp. cbn [fst] in Hp. assert (S : p_scan (grouped g TOPLEVEL) = false) by (destruct g; reflexivity). inversion HL; subst.
    - pose proof (ask_grouped o g TOPLEVEL z t z' _ E (nextToken_symbol o _ z w e _ _ I S H (st_end e H0) Hp)) as [T1 T2].
      rewrite buf_between_app in T2. split; auto. rewrite T1. destruct g; reflexivity.
    - refine (ask_grouped o g TOPLEVEL z t z' (fun t => t_kind t = k /\ t_text t = w) E (nextToken_number o _ z w k e I S _ H H0 Hp)). destruct g; reflexivity.
    - pose proof (ask_grouped o g TOPLEVEL z t z' (fun t => string_post (w0 ++ e) (cur z) t z') E) as K. cbn [app] in Hp.
      assert (K' : string_post (w0 ++ e) (cur z) t z').
      { apply K. eapply po_conseq; [apply nextToken_string; eauto|]. intros a s2 X. exact X. }
      unfold string_post in K'. rewrite H in K'. destruct K' as [K1 K2]. split; auto. rewrite K2, Hp. change (34 :: w0 ++ e) with ((34 :: w0) ++ e). apply buf_between_app.
    - exact (ask_grouped o g TOPLEVEL z t z' (fun t => t_kind t = k /\ t_text t = w) E (nextToken_operator o _ z w k e I S H H1 Hp)).
    - refine (ask_grouped o g TOPLEVEL z t z' (fun t => t_kind t = k /\ t_text t = w) E (nextToken_spelled o _ z name p k w e I S H _ H2 Hp)). eapply nk_operator; eauto. }
  destruct H as [H1 H2]. split; auto. split; auto. rewrite Hp, H2 in A. apply app_inv_head in A. symmetry. exact A.
Qed.
Definition word_kind (k : Z) : bool := if isTrivia k then false else if k =? TK_EndOfFile then false else if k =? TK_Fake_ImplicitTimes then false else negb (k =? TK_ToplevelNewline).
Lemma named_kinds : forallb (fun e : Z * string => if zlist_eqb (firstn 9 (bytes_of_string (snd e))) (bytes_of_string "LongName_") then word_kind (fst e) else true) KINDS = true.
Proof. vm_compute. reflexivity. Qed.
Lemma operator_kinds : forallb (fun e : list Z * Z => if snd e =? TK_Whitespace then true else word_kind (snd e)) operators = true.
Proof. vm_compute. reflexivity. Qed.
Lemma lexeme_kind : forall k w e, lexeme k w e -> word_kind k = true.
Proof.
  intros k w e H. inversion H; subst; try reflexivity.
  - inversion H0; subst. assert (D : digits_fit base ds \/ ~ digits_fit base ds).
    { unfold digits_fit. destruct base as [b|]; auto. destruct (Forall_dec (fun d => digit_value d < b) (fun d => Z_lt_dec _ _) ds); auto. }
    destruct D as [D|D]; [rewrite (H6 D)|rewrite (H7 D)]; try reflexivity. destruct (real || pr), neg; reflexivity.
  - destruct H0 as (I & _). pose proof (proj1 (forallb_forall _ _) operator_kinds _ I) as K. cbn [snd] in K. apply Z.eqb_neq in H1. rewrite H1 in K. exact K.
  - pose proof (proj1 (forallb_forall _ _) named_kinds _ H1) as K. cbn [fst snd] in K. rewrite H2 in K.
    replace (firstn 9 (bytes_of_string "LongName_" ++ name)) with (bytes_of_string "LongName_") in K by reflexivity. exact K.
Qed.
Lemma word_kind_facts : forall k, word_kind k = true -> isTrivia k = false /\ k <> TK_EndOfFile /\ k <> TK_Fake_ImplicitTimes /\ k <> TK_ToplevelNewline.
Proof.
  intros k H. unfold word_kind in H. destruct (isTrivia k); [discriminate|]. destruct (Z.eqb_spec k TK_EndOfFile); [discriminate|]. destruct (Z.eqb_spec k TK_Fake_ImplicitTimes); [discriminate|].
  apply negb_true_iff, Z.eqb_neq in H. auto.
Qed.

(** ** The words at a place *)
Definition at_depth (d : nat) (f : bool) (p : place) (l : list word) : Prop := spells d f l (fst p).
Definition at_words (G : list Z) : bool -> place -> list word -> Prop := at_depth (length G).
Definition is_line (w : word) : bool := fst w =? TK_ToplevelNewline.
(** the words from the next line on that has one *)
Fixpoint solid (l : list word) : list word := match l with [] => [] | w :: l' => if is_line w then solid l' else l end.
Lemma gap_more : forall b t r, gap b t r -> gap true t r.
Proof. intros b t r H. induction H; [apply gap_none|apply gap_blank; auto|eapply gap_comment; eauto|eapply gap_line; eauto]. Qed.
Lemma at_more : forall d f p l, at_depth d f p l -> at_depth d true p l.
Proof.
  intros d f p l H. unfold at_depth in *. inversion H; subst; [apply spells_nil; auto|eapply spells_cons; eauto; eapply gap_more; eauto|eapply spells_line; eauto; eapply gap_more; eauto].
Qed.
Definition next_kind (l : list word) : Z := match l with [] => TK_EndOfFile | w :: _ => fst w end.
Lemma reads_end : forall g p t, reads o (AsToken g TOPLEVEL) p t -> fst p = [] -> t_kind t = TK_EndOfFile.
Proof. intros g p t (z & z' & I & <- & E) H. exact (proj1 (ask_grouped o g TOPLEVEL z t z' _ E (nextToken_end o (grouped g TOPLEVEL) z I (plain_scan g) H))). Qed.
Lemma reads_comment : forall g p t c e, reads o (AsToken g TOPLEVEL) p t -> after_comment 1 c = Some e -> fst p = 40 :: 42 :: c -> t_kind t = TK_Comment /\ fst (past t) = e.
Proof.
  intros g p t c e Hr Hc Hp. destruct (reads_asked o (AsToken g TOPLEVEL) p t eq_refl Hr) as (_ & A & _). destruct Hr as (z & z' & I & <- & E).
  assert (K : comment_post c 1 (cur z) t z').
  { apply (ask_grouped o g TOPLEVEL z t z' (fun t => comment_post c 1 (cur z) t z') E). eapply po_conseq; [apply (nextToken_comment o _ z c I (plain_scan g) Hp)|]. intros a s2 X. exact X. }
  unfold comment_post in K. rewrite Hc in K. destruct K as [K1 K2]. split; auto. rewrite Hp in A. destruct (after_comment_suffix (length c) 1 c e (le_n _) Hc) as [q Eq].
  change (fst (here z)) with (rest (cur z)) in *. rewrite K2, Hp, Eq in A. change (40 :: 42 :: q ++ e) with ((40 :: 42 :: q) ++ e) in A. rewrite buf_between_app in A. apply app_inv_head in A. symmetry. exact A.
Qed.
Lemma reads_line : forall g p t w e, reads o (AsToken g TOPLEVEL) p t -> line_break w e -> fst p = w ++ e -> t_kind t = (if g then TK_InternalNewline else TK_ToplevelNewline) /\ fst (past t) = e.
Proof.
  intros g p t w e Hr H Hp. destruct (reads_asked o (AsToken g TOPLEVEL) p t eq_refl Hr) as (_ & A & _). destruct Hr as (z & z' & I & <- & E).
  assert (C : exists c, clean_step (rest (cur z)) c w e /\ is_line_end c = true).
  { change (fst (here z)) with (rest (cur z)) in Hp. rewrite Hp. destruct H as [ -> | [ -> | [ -> H ] ] ].
    - exists 10. split; auto. apply (cs_char 10 e); [unfold scalar; lia|lia].
    - exists CRLF. split; auto. apply cs_crlf.
    - exists 13. split; auto. apply (cs_char 13 e); [unfold scalar; lia|]. intros _ X. apply H. destruct e as [|b e]; [discriminate|]. exists b, e. auto. }
  destruct C as (c & C & Ec).
  destruct (ask_grouped o g TOPLEVEL z t z' (fun t => t_kind t = newline_with_policy (grouped g TOPLEVEL) /\ t_text t = w) E (nextToken_newline o _ z c w e I (plain_scan g) C Ec)) as [K1 K2].
  split; [rewrite K1; destruct g; reflexivity|]. rewrite Hp, K2 in A. apply app_inv_head in A. symmetry. exact A.
Qed.

(** the next token is passed over, or it is the next word *)
Definition first_word (d : nat) (t : token) (l : list word) : Prop :=
  t_kind t = next_kind l /\ isTrivia (t_kind t) = false /\ match l with [] => True | w :: l' => (t_kind t, t_text t) = w /\ at_depth (behind d (fst w)) (wants (fst w)) (past t) l' /\ t_kind t <> TK_EndOfFile end.
Lemma at_reads : forall G f p l t, at_words G f p l -> reads o (AsToken (isg G) TOPLEVEL) p t ->
  (isTrivia (t_kind t) = true /\ at_words G f (past t) l /\ (t_kind t = TK_ToplevelNewline -> l = [] \/ f = true) /\ zin (t_kind t) [TK_Whitespace; TK_Comment; TK_InternalNewline; TK_ToplevelNewline] = true) \/
  (t_kind t = TK_ToplevelNewline /\ exists w l', l = w :: l' /\ is_line w = true /\ at_words G true (past t) l') \/
  first_word (length G) t l.
Proof.
  intros G f p l t H Hr. unfold at_words, at_depth in *.
  assert (T : forall lines r, gap lines (fst p) r -> (lines = true -> (l = [] \/ f = true) \/ isg G = true) -> (forall t0, gap lines t0 r -> spells (length G) f l t0) ->
    (isTrivia (t_kind t) = true /\ spells (length G) f l (fst (past t)) /\ (t_kind t = TK_ToplevelNewline -> l = [] \/ f = true) /\ zin (t_kind t) [TK_Whitespace; TK_Comment; TK_InternalNewline; TK_ToplevelNewline] = true) \/ fst p = r).
  { intros lines r Hg Hl Hk. inversion Hg; subst; auto; left.
    - destruct (reads_blank _ _ _ _ _ Hr H1 (eq_sym H0)) as [K1 K2]. rewrite K1, K2. repeat split; auto. discriminate.
    - destruct (reads_comment _ _ _ _ _ Hr H1 (eq_sym H0)) as [K1 K2]. rewrite K1, K2. repeat split; auto. discriminate.
    - destruct (reads_line _ _ _ _ _ Hr H2 (eq_sym H0)) as [K1 K2]. rewrite K1, K2. split; [destruct (isg G); reflexivity|]. split; auto. split; [|destruct (isg G); reflexivity].
      intros X. destruct (Hl eq_refl) as [Y|Y]; auto. rewrite Y in X. discriminate X. }
  inversion H; subst.
  - destruct (T true [] H0 (fun _ => or_introl (or_introl eq_refl)) (fun t0 X => spells_nil _ _ _ X)) as [X|X]; [left; exact X|right; right].
    pose proof (reads_end _ _ _ Hr X) as K. unfold first_word. cbn [next_kind]. split; auto. rewrite K. split; [reflexivity|exact I].
  - destruct (T _ _ H0) as [X|X]; [intros Y; apply orb_true_iff in Y as [Y|Y]; [left; right; exact Y|right; destruct G; [discriminate Y|reflexivity]]|intros t0 X; econstructor; eauto|left; exact X|right; right].
    destruct (reads_word _ _ _ _ _ _ Hr H1 X) as (K1 & K2 & K3). destruct (word_kind_facts _ (lexeme_kind _ _ _ H1)) as (W1 & W2 & W3 & W4). unfold first_word, at_depth.
    cbn [next_kind fst]. rewrite K1. split; auto. split; auto. split; [rewrite K2; reflexivity|]. rewrite K3. auto.
  - destruct G as [|c G]; [|discriminate]. cbn [length] in *. destruct (T _ _ H1) as [X|X]; [intros Y; left; right; exact Y|intros t0 X; eapply spells_line; eauto|left; exact X|right; left].
    destruct (reads_line _ _ _ _ _ Hr H2 X) as [K1 K2]. split; auto. exists line, l0. split; auto. split; [reflexivity|]. rewrite K2. exact H3.
Qed.
Lemma triv_line : isTrivia TK_ToplevelNewline = true. Proof. vm_compute. reflexivity. Qed.
Lemma triv_nl_line : isTriviaButNotToplevelNewline TK_ToplevelNewline = false. Proof. vm_compute. reflexivity. Qed.
Lemma triv_blanks : forall k, In k [TK_Whitespace; TK_Comment; TK_InternalNewline] -> isTriviaButNotToplevelNewline k = true.
Proof. apply forallb_forall. vm_compute. reflexivity. Qed.
Lemma solid_eq : forall w l, is_line w = false -> solid (w :: l) = w :: l.
Proof. intros w l H. cbn [solid]. rewrite H. reflexivity. Qed.
Lemma first_solid : forall d t l, first_word d t l -> solid l = l.
Proof.
  intros d t [|w l] (K1 & K2 & K3); [reflexivity|]. apply solid_eq. unfold is_line. apply Z.eqb_neq. intros X. cbn [next_kind] in K1. rewrite K1, X, triv_line in K2. discriminate K2.
Qed.
Lemma at_strip : forall G f p l ts t p', at_words G f p l -> strip o (AsToken (isg G) TOPLEVEL) isTrivia p ts t p' ->
  parts (map Tok ts) = [] /\ at_words G true p' (solid l) /\ first_word (length G) t (solid l).
Proof.
  intros G f p l ts t p' H St. revert f l H. induction St as [p t Hr Hn|p t ts u p' Hr Hn St IH]; intros f l H.
  - split; [reflexivity|]. destruct (at_reads _ _ _ _ _ H Hr) as [(K & _)|[(K & _)|K]]; [congruence|rewrite K, triv_line in Hn; discriminate Hn|]. rewrite (first_solid _ _ _ K). split; auto. eapply at_more; eauto.
  - unfold parts in *. cbn [map filter trivia_leaf]. rewrite Hn. cbn [negb]. destruct (at_reads _ _ _ _ _ H Hr) as [(_ & K & _)|[(_ & w & l' & -> & Kw & K)|(_ & K & _)]]; [exact (IH _ _ K)| |congruence].
    cbn [solid]. rewrite Kw. exact (IH _ _ K).
Qed.
Lemma at_strip_line : forall G p l ts t p', at_words G false p l -> strip o (AsToken (isg G) TOPLEVEL) isTriviaButNotToplevelNewline p ts t p' ->
  parts (map Tok ts) = [] /\ at_words G false p' l /\ (first_word (length G) t l \/ (t_kind t = TK_ToplevelNewline /\ (l = [] \/ next_kind l = TK_ToplevelNewline))).
Proof.
  intros G p l ts t p' H St. induction St as [p t Hr Hn|p t ts u p' Hr Hn St IH].
  - split; [reflexivity|]. split; auto. destruct (at_reads _ _ _ _ _ H Hr) as [(K & K2 & K3 & K4)|[(K & w & l' & -> & Kw & _)|K]]; auto; right.
    + apply zin_In in K4. cbn in K4. destruct K4 as [X|[X|[X|[X|[]]]]]; rewrite <- X in Hn; try (rewrite triv_blanks in Hn by (cbn [In]; auto); discriminate Hn). symmetry in X. split; auto. destruct (K3 X) as [Y|Y]; [auto|discriminate Y].
    + split; auto. right. apply Z.eqb_eq in Kw. exact Kw.
  - unfold parts in *. cbn [map filter trivia_leaf]. destruct (at_reads _ _ _ _ _ H Hr) as [(K1 & K2 & _)|[(K & _)|(_ & K & _)]].
    + rewrite K1. exact (IH K2).
    + rewrite K, triv_nl_line in Hn. discriminate Hn.
    + rewrite (triv_newline _ Hn) in K. discriminate K.
Qed.
End Words.

(** ** Tables *)
Definition UNDERS : list Z := [TK_Under; TK_UnderUnder; TK_UnderUnderUnder; TK_UnderDot].
Definition plain_kind (k : Z) : bool :=
  negb (zin k UNDERS) &&
  match infix_of k with
  | IP_InfixImplicitTimes | IP_BinaryOperator _ _ | IP_InfixOperator _ _ | IP_Times | IP_PostfixOperator _ _ | IP_Call _ _ | IP_Comma | IP_Equal | IP_ColonEqual | IP_InfixAssertFalse | IP_InfixToplevelNewline => true
  | _ => false
  end.
Definition implicit (k : Z) : bool := match infix_of k with IP_InfixImplicitTimes => true | _ => false end.
(** the kind of the operator the parser sees *)
Definition seen_kind (k : Z) : Z := if implicit k then TK_Fake_ImplicitTimes else k.
Definition mark (t : token) : token := if implicit (t_kind t) then tok_at_start TK_Fake_ImplicitTimes t else t.
Lemma mark_kind : forall t, t_kind (mark t) = seen_kind (t_kind t).
Proof. intros t. unfold mark, seen_kind. destruct (implicit (t_kind t)); reflexivity. Qed.
Lemma greater_ends : forall p q, prec_greater p q = true <-> ends_operand p q.
Proof. intros p q. unfold prec_greater, ends_operand. rewrite lor_one, Z.ltb_lt. destruct (Z.odd p); split; intros H; lia. Qed.
Lemma process_plain : forall t s, plain_kind (t_kind t) = true -> process_implicit_times t s = Ok (mark t, s).
Proof. intros t s H. unfold process_implicit_times, mark, implicit. unfold plain_kind in H. apply andb_true_iff in H as [_ H]. destruct (infix_of (t_kind t)); try discriminate H; reflexivity. Qed.
Lemma prec_plain : forall k s, plain_kind k = true -> get_precedence (infix_of (seen_kind k)) s = Ok (match joining_precedence (seen_kind k) with Some p => p | None => 0 end, s).
Proof.
  intros k s H. unfold seen_kind, implicit, joining_precedence. unfold plain_kind in H. apply andb_true_iff in H as [_ H]. destruct (infix_of k) eqn:E; try discriminate H; try (rewrite E; reflexivity). reflexivity.
Qed.
Definition starter (k : Z) : bool := match prefix_of k with PP_Leaf | PP_Symbol | PP_PrefixOperator _ _ | PP_Group _ _ => true | _ => false end.
Definition print_facts (k : Z) : bool :=
  (if starter k then negb (isCloser k) && (TokenToCloser k =? -1) && negb (is_comma k) && negb (zin k (TK_Dot :: TK_EndOfFile :: UNDERS)) else true) &&
  (match joining_precedence k with Some p => if plain_kind k then (2 <=? p) && (p <? PREC_HIGHEST) else true | None => true end) &&
  (match prefix_of k with PP_PrefixOperator p _ => 3 <? p | _ => true end) &&
  (match infix_of k with IP_InfixOperator p op => (3 <? p) && negb (op =? IOP_Times) | IP_BinaryOperator p _ | IP_PostfixOperator p _ => 3 <? p | _ => true end) &&
  (if TokenToCloser k =? -1 then true else isCloser k && (match infix_of k with IP_InfixAssertFalse => true | _ => false end)) &&
  (match infix_of k with IP_Comma => is_comma k | _ => negb (is_comma k) end) &&
  (match infix_of k with IP_Call u op => (match prefix_of k with PP_Group u' op' => (u =? u') && (op =? op') | _ => false end) | _ => true end) &&
  (match infix_of k with IP_InfixImplicitTimes | IP_SemiSemi => true | _ => negb (zin k UNDERS) end).
Lemma print_facts_all : forallb print_facts SOLID_KINDS = true.
Proof. vm_compute. reflexivity. Qed.
Lemma solid_print : forall k, solidk k = true -> print_facts k = true.
Proof. exact (solidk_forall _ print_facts_all). Qed.
Lemma prefix_table : forallb (fun e : Z * prefix_parselet => match snd e with PP_PrefixOperator p _ => 3 <? p | _ => true end) PREFIX_PARSELETS = true.
Proof. vm_compute. reflexivity. Qed.
Lemma infix_table : forallb (fun e : Z * infix_parselet => match snd e with
    | IP_InfixOperator p op => if zin op [IOP_Times; IOP_CodeParser_InternalInvalid] then false else 3 <? p | IP_BinaryOperator p _ | IP_PostfixOperator p _ => 3 <? p | _ => true end) INFIX_PARSELETS = true.
Proof. vm_compute. reflexivity. Qed.
Lemma prefix_prec : forall k p op, as_prefix k = Some (p, op) -> prefix_of k = PP_PrefixOperator p op /\ 3 < p.
Proof.
  intros k p op H. unfold as_prefix in H. destruct (prefix_of k) as [| | | | | | |p0 op0| | | | | | | | | |] eqn:E; try discriminate H. injection H as -> ->. split; auto.
  unfold prefix_of in E. destruct (assoc k PREFIX_PARSELETS) as [v|] eqn:A; [|discriminate E]. apply ParserProofs.assoc_in in A. subst v.
  pose proof (proj1 (forallb_forall _ _) prefix_table _ A) as K. cbn [snd] in K. apply Z.ltb_lt in K. exact K.
Qed.
Lemma infix_row : forall k ip, infix_of k = ip -> ip <> IP_InfixImplicitTimes -> match ip with
  | IP_InfixOperator p op => 3 < p /\ op <> IOP_Times /\ op <> IOP_CodeParser_InternalInvalid | IP_BinaryOperator p _ | IP_PostfixOperator p _ => 3 < p | _ => True end.
Proof.
  intros k ip E N. unfold infix_of in E. destruct (assoc k INFIX_PARSELETS) as [v|] eqn:A; [|congruence]. apply ParserProofs.assoc_in in A. subst v.
  pose proof (proj1 (forallb_forall _ _) infix_table _ A) as K. cbn [snd] in K. destruct ip; try exact I; try (apply Z.ltb_lt in K; exact K).
  destruct (zin op [IOP_Times; IOP_CodeParser_InternalInvalid]) eqn:Z1; [discriminate K|]. apply Z.ltb_lt in K. split; auto. split; intros ->; vm_compute in Z1; discriminate.
Qed.
Lemma infix_high_table : forallb (fun e : Z * infix_parselet => match snd e with
    | IP_InfixOperator p _ | IP_BinaryOperator p _ | IP_PostfixOperator p _ => p <? PREC_HIGHEST | _ => true end) INFIX_PARSELETS = true.
Proof. vm_compute. reflexivity. Qed.
Lemma infix_high : forall k ip, infix_of k = ip -> ip <> IP_InfixImplicitTimes -> match ip with
  | IP_InfixOperator p _ | IP_BinaryOperator p _ | IP_PostfixOperator p _ => p < PREC_HIGHEST | _ => True end.
Proof.
  intros k ip E N. unfold infix_of in E. destruct (assoc k INFIX_PARSELETS) as [v|] eqn:A; [|congruence]. apply ParserProofs.assoc_in in A. subst v.
  pose proof (proj1 (forallb_forall _ _) infix_high_table _ A) as K. cbn [snd] in K. destruct ip; try exact I; apply Z.ltb_lt in K; exact K.
Qed.
Lemma unders_implicit : forall k, zin k UNDERS = true -> infix_of k = IP_InfixImplicitTimes.
Proof. intros k H. apply zin_In in H. cbn in H. destruct H as [<-|[<-|[<-|[<-|[]]]]]; reflexivity. Qed.
(** the operators among the kinds *)
Definition operator_kind (k p : Z) : Prop := plain_kind k = true /\ implicit k = false /\ joining_precedence k = Some p.
Lemma operator_kind_of : forall k p, joining_precedence k = Some p ->
  match infix_of k with IP_BinaryOperator _ _ | IP_InfixOperator _ _ | IP_Times | IP_PostfixOperator _ _ | IP_Call _ _ | IP_Comma | IP_Equal | IP_ColonEqual => True | _ => False end -> operator_kind k p.
Proof.
  intros k p J H. unfold operator_kind, plain_kind, implicit. destruct (zin k UNDERS) eqn:U; [apply unders_implicit in U; rewrite U in H; destruct H|]. cbn [negb andb].
  destruct (infix_of k); try destruct H; auto.
Qed.
Lemma postfix_prec : forall k p op, as_postfix k = Some (p, op) -> operator_kind k p /\ 3 < p /\ infix_of k = IP_PostfixOperator p op.
Proof.
  intros k p op H. unfold as_postfix in H. destruct (infix_of k) as [| | | | | | |p0 op0| | | | | | | | | | | |] eqn:E; try discriminate H. injection H as -> ->.
  split; [|split; [exact (infix_row _ _ E ltac:(discriminate))|auto]]. apply operator_kind_of; [unfold joining_precedence; rewrite E; reflexivity|rewrite E; exact I].
Qed.
Lemma binary_prec : forall k p op, as_binary k = Some (p, op) -> operator_kind k p /\ 3 < p.
Proof.
  intros k p op H. unfold as_binary in H. destruct (infix_of k) as [| | | |p0 op0| | |p0 op0| | | | | | | | | | | |] eqn:E; try discriminate H; injection H as <- <-;
  (split; [apply operator_kind_of; [unfold joining_precedence; rewrite E; reflexivity|rewrite E; exact I]|first [exact (infix_row _ _ E ltac:(discriminate))|vm_compute; reflexivity]]).
Qed.
Lemma infix_prec : forall k p op, as_infix k = Some (p, op) -> operator_kind k p /\ 3 < p /\ op <> IOP_CodeParser_InternalInvalid /\
  ((infix_of k = IP_Times /\ op = IOP_Times /\ p = PREC_STAR) \/ (infix_of k = IP_InfixOperator p op /\ op <> IOP_Times)).
Proof.
  intros k p op H. unfold as_infix in H. destruct (infix_of k) as [| | | | |p0 op0| | | | | | | | | | | | | |] eqn:E; try discriminate H; injection H as <- <-;
  (split; [apply operator_kind_of; [unfold joining_precedence; rewrite E; reflexivity|rewrite E; exact I]|]).
  - destruct (infix_row _ _ E ltac:(discriminate)) as (A & B & C). split; auto.
  - split; [reflexivity|]. split; [discriminate|]. left; auto.
Qed.
Lemma comma_op : operator_kind TK_Comma PREC_COMMA. Proof. repeat split; reflexivity. Qed.
Lemma call_op : forall k u op, infix_of k = IP_Call u op -> operator_kind k PREC_CALL.
Proof. intros k u op E. apply operator_kind_of; [unfold joining_precedence; rewrite E; reflexivity|rewrite E; exact I]. Qed.
Lemma is_infix_iff : forall o k, o <> IOP_CodeParser_InternalInvalid -> is_infix_op o (infix_of k) = true <-> exists q, as_infix k = Some (q, o).
Proof.
  intros o k N. unfold is_infix_op, get_op, as_infix. destruct (infix_of k) eqn:E;
    (split; intros H; [try discriminate H; try (apply Z.eqb_eq in H; subst; try contradiction; eexists; reflexivity)|destruct H as [q H]; try discriminate H; injection H as <- <-; apply Z.eqb_refl]).
Qed.
Lemma closer_table : forallb (fun k => (if zin k UNDERS then false else true) && (match infix_of k with IP_InfixAssertFalse => true | _ => false end) && (if is_comma k then false else true)) CLOSERS = true.
Proof. vm_compute. reflexivity. Qed.
Lemma closer_kind : forall k, TokenToCloser k <> Closer_AssertFalse -> plain_kind k = true /\ implicit k = false /\ joining_precedence k = None /\ is_comma k = false /\ as_infix k = None.
Proof.
  intros k H. destruct (closer_cases k) as [K|K]; [|contradiction]. pose proof (proj1 (forallb_forall _ _) closer_table _ K) as T. cbn beta in T.
  unfold plain_kind, implicit, joining_precedence, as_infix. destruct (zin k UNDERS); [discriminate T|]. destruct (infix_of k); try discriminate T. destruct (is_comma k); [discriminate T|]. auto 10.
Qed.
Lemma opener_closer : forall k c, GroupOpenerToCloser k = Ok c -> c <> Closer_AssertFalse.
Proof. intros k c H X. unfold GroupOpenerToCloser, switch in H. repeat match type of H with (if ?b then _ else _) = _ => destruct b; [injection H as <-; discriminate X|] end. discriminate H. Qed.

(** words that are not brackets *)
Definition flat (k : Z) : Prop := forall d, behind d k = d.
Lemma opener_rows : forall k c, GroupOpenerToCloser k = Ok c -> match prefix_of k with PP_Group _ _ => True | _ => False end /\
  match infix_of k with IP_Call _ _ | IP_InfixImplicitTimes => True | _ => False end /\ TokenToCloser k = Closer_AssertFalse.
Proof.
  intros k c H. unfold GroupOpenerToCloser, switch in H.
  repeat match type of H with (if ?a =? ?b then _ else _) = _ => destruct (Z.eqb_spec a b) as [->|_]; [split; [exact I|split; [exact I|reflexivity]]|] end. discriminate H.
Qed.
Lemma closer_rows : forallb (fun k => match prefix_of k, infix_of k with PP_PrefixCloser, IP_InfixAssertFalse => true | _, _ => false end) CLOSERS = true.
Proof. vm_compute. reflexivity. Qed.
Lemma flat_of : forall k, (forall c, GroupOpenerToCloser k <> Ok c) -> TokenToCloser k = Closer_AssertFalse -> flat k.
Proof. intros k H1 H2 d. unfold behind. rewrite H2, Z.eqb_refl. destruct (GroupOpenerToCloser k) as [c| |] eqn:E; auto. destruct (H1 c eq_refl). Qed.
Lemma flat_prefix : forall k, match prefix_of k with PP_Leaf | PP_Symbol | PP_PrefixOperator _ _ => True | _ => False end -> flat k.
Proof.
  intros k H. apply flat_of.
  - intros c E. destruct (opener_rows _ _ E) as (A & _). destruct (prefix_of k); auto.
  - destruct (closer_cases k) as [X|X]; auto. pose proof (proj1 (forallb_forall _ _) closer_rows _ X) as K. cbn beta in K. destruct (prefix_of k); try discriminate K. destruct H.
Qed.
Lemma flat_infix : forall k, match infix_of k with IP_Call _ _ | IP_InfixImplicitTimes | IP_InfixAssertFalse => False | _ => True end -> flat k.
Proof.
  intros k H. apply flat_of.
  - intros c E. destruct (opener_rows _ _ E) as (_ & A & _). destruct (infix_of k); auto.
  - destruct (closer_cases k) as [X|X]; auto. pose proof (proj1 (forallb_forall _ _) closer_rows _ X) as K. cbn beta in K. destruct (prefix_of k); try discriminate K. destruct (infix_of k); try discriminate K. destruct H.
Qed.
Lemma flat_binary : forall k p op, as_binary k = Some (p, op) -> flat k.
Proof. intros k p op H. apply flat_infix. unfold as_binary in H. destruct (infix_of k); try discriminate H; exact I. Qed.
Lemma flat_chain : forall k p op, as_infix k = Some (p, op) -> flat k.
Proof. intros k p op H. apply flat_infix. unfold as_infix in H. destruct (infix_of k); try discriminate H; exact I. Qed.
Lemma open_behind : forall k c d, GroupOpenerToCloser k = Ok c -> behind d k = S d.
Proof. intros k c d H. unfold behind. rewrite H. reflexivity. Qed.
Lemma close_behind : forall k d, TokenToCloser k <> Closer_AssertFalse -> behind (S d) k = d.
Proof. intros k d H. unfold behind. destruct (GroupOpenerToCloser k) as [c| |] eqn:E; [destruct (opener_rows _ _ E) as (_ & _ & X); contradiction| |]; apply Z.eqb_neq in H; rewrite H; reflexivity. Qed.

(** ** Steps of the parser *)
Section Steps.
Variable o : opts.
Variable dbg : bool.
Variable base : st.
Variable repair : Z -> list cst -> res (list cst).
Local Notation good := (good o base).
Local Notation run := (run o dbg repair).

(** [u] is the token at [z], the first of the words [l] *)
Record sees (G : list Z) (z : st) (u : token) (l : list word) : Prop := mksees {
  se_looks : looks o (qtop G) z u;
  se_solid : solidk (t_kind u) = true;
  se_kind : t_kind u = next_kind l;
  se_at : at_words G true (here z) l;
  se_word : match l with [] => True | w :: l' => (t_kind u, t_text u) = w /\ at_depth (behind (length G) (fst w)) (wants (fst w)) (past u) l' /\ t_kind u <> TK_EndOfFile end }.
Lemma qtop_as : forall G, qtop G = AsToken (isg G) TOPLEVEL. Proof. intros []; reflexivity. Qed.
Lemma S_look : forall z st C G f l (Q : list token * token -> pst -> Prop), good z -> at_words G f (here z) l ->
  (forall ts u z', good z' -> R o z z' -> strip o (qtop G) isTrivia (here z) ts u (here z') -> parts (map Tok ts) = [] -> sees G z' u (solid l) -> Q (ts, u) (mkp z' st C G)) ->
  LW (current_token o dbg) (mkp z st C G) Q.
Proof.
  intros z st C G f l Q Hg Ha HQ. apply (L_current o dbg base); auto. intros ts u z' G' R' St HL Hs. pose proof St as St'. rewrite qtop_as in St'. destruct (at_strip o _ _ _ _ _ _ _ Ha St') as (A1 & A2 & A3 & A4 & A5). apply HQ; auto. constructor; auto.
Qed.
Lemma solid_flush : forall l, next_kind l <> TK_ToplevelNewline -> solid l = l.
Proof. intros [|w l] H; [reflexivity|]. apply solid_eq. apply Z.eqb_neq. exact H. Qed.
Lemma solid_line : forall l, next_kind l = TK_ToplevelNewline -> solid l <> l.
Proof.
  assert (H : forall l, (length (solid l) <= length l)%nat) by (induction l as [|w l IH]; cbn [solid]; [lia|destruct (is_line w); cbn [length]; lia]).
  intros [|w l] E X; [discriminate E|]. cbn [next_kind] in E. cbn [solid] in X. unfold is_line in X. rewrite E, Z.eqb_refl in X. specialize (H l). rewrite X in H. cbn [length] in H. lia.
Qed.
Lemma S_current : forall z st C G f l (Q : list token * token -> pst -> Prop), good z -> at_words G f (here z) l -> next_kind l <> TK_ToplevelNewline ->
  (forall ts u z', good z' -> R o z z' -> strip o (qtop G) isTrivia (here z) ts u (here z') -> parts (map Tok ts) = [] -> sees G z' u l -> Q (ts, u) (mkp z' st C G)) ->
  LW (current_token o dbg) (mkp z st C G) Q.
Proof. intros z st C G f l Q Hg Ha Hf HQ. eapply S_look; eauto. rewrite (solid_flush _ Hf). exact HQ. Qed.
Lemma S_current_nl : forall z st C G l (Q : list token * token -> pst -> Prop), good z -> at_words G false (here z) l ->
  (forall ts u z', good z' -> R o z z' -> strip o (qtop G) isTriviaButNotToplevelNewline (here z) ts u (here z') -> parts (map Tok ts) = [] ->
    sees G z' u l \/ (t_kind u = TK_ToplevelNewline /\ (l = [] \/ next_kind l = TK_ToplevelNewline)) -> Q (ts, u) (mkp z' st C G)) ->
  LW (current_token_not_newline o) (mkp z st C G) Q.
Proof.
  intros z st C G l Q Hg Ha HQ. apply (L_current_nl o base); auto. intros ts u z' G' R' St HL Hs. pose proof St as St'. rewrite qtop_as in St'. destruct (at_strip_line o _ _ _ _ _ _ Ha St') as (A1 & A2 & [(A3 & A4 & A5)|A3]); apply HQ; auto.
  left. destruct Hs as [Hs|Hs]; [|rewrite Hs, triv_line in A4; discriminate A4]. constructor; auto. eapply at_more; eauto.
Qed.
Lemma S_eat : forall z st C G f l (Q : token -> pst -> Prop), good z -> at_words G f (here z) l -> next_kind l <> TK_ToplevelNewline ->
  (forall ts u z', good z' -> parts (map Tok ts) = [] -> sees G z' u l -> Q u (mkp z' (st ++ map Tok ts) C G)) -> LW (eat_trivia o dbg) (mkp z st C G) Q.
Proof. intros z st C G f l Q Hg Ha Hf HQ. unfold eat_trivia. apply LW_bind. eapply S_current; eauto. intros ts u z' G' R' St Hp Hu. cbv beta iota. apply LW_bind, L_trivia, LW_ret. apply HQ; auto. Qed.
Lemma S_skip : forall z u w l st C G G' G2 (Q : unit -> pst -> Prop), good z -> sees G z u (w :: l) -> behind (length G) (fst w) = length G2 ->
  (forall z', good z' -> at_words G2 (wants (fst w)) (here z') l -> Q tt (mkp z' st C G')) -> LW (pskip u) (mkp z st C G') Q.
Proof.
  intros z u w l st C G G' G2 Q Hg [HL Hs Hk Ha (Hw & Hp & Ne)] Hb HQ. apply (L_skip o base (qtop G) z u); auto; [rewrite qtop_as; reflexivity|].
  intros z' Gz' Hz' R'. apply HQ; auto. rewrite Hz'. unfold at_words. rewrite <- Hb. exact Hp.
Qed.
Lemma S_next : forall z u w l st C G (Q : unit -> pst -> Prop), good z -> sees G z u (w :: l) -> flat (fst w) -> (forall z', good z' -> at_words G (wants (fst w)) (here z') l -> Q tt (mkp z' (st ++ [Tok u]) C G)) ->
  LW (push_syntax_and_next dbg u) (mkp z st C G) Q.
Proof. intros z u w l st C G Q Hg HS Hf HQ. unfold push_syntax_and_next. apply LW_bind, L_syntax. eapply S_skip; eauto. Qed.
Lemma S_open : forall z u w l st C G c (Q : unit -> pst -> Prop), good z -> sees G z u (w :: l) -> GroupOpenerToCloser (fst w) = Ok c -> (forall z', good z' -> at_words (c :: G) (wants (fst w)) (here z') l -> Q tt (mkp z' (st ++ [Tok u]) C (c :: G))) ->
  LW (push_syntax_and_next dbg u) (mkp z st C (c :: G)) Q.
Proof. intros z u w l st C G c Q Hg HS Hf HQ. unfold push_syntax_and_next. apply LW_bind, L_syntax. eapply (S_skip z u w l _ _ G _ (c :: G)); eauto. eapply open_behind; eauto. Qed.
Lemma S_close : forall z u w l st C G c (Q : unit -> pst -> Prop), good z -> sees (c :: G) z u (w :: l) -> TokenToCloser (fst w) <> Closer_AssertFalse -> (forall z', good z' -> at_words G (wants (fst w)) (here z') l -> Q tt (mkp z' (st ++ [Tok u]) C (c :: G))) ->
  LW (push_syntax_and_next dbg u) (mkp z st C (c :: G)) Q.
Proof. intros z u w l st C G c Q Hg HS Hf HQ. unfold push_syntax_and_next. apply LW_bind, L_syntax. eapply (S_skip z u w l _ _ (c :: G) _ G); eauto. apply (close_behind _ (length G)). exact Hf. Qed.
Lemma S_back : forall triv z z' ts u st C G (Q : unit -> pst -> Prop), good z -> good z' -> R o z z' -> strip o (qtop G) triv (here z) ts u (here z') ->
  (forall z2, good z2 -> here z2 = here z -> Q tt (mkp z2 st C G)) -> LW (trivia_reset ts) (mkp z' st C G) Q.
Proof. intros triv z z' ts u st C G Q Hg Hg' HR St HQ. eapply (L_back o base (qtop G) triv z z'); eauto. rewrite qtop_as. reflexivity. Qed.

Lemma LW_run : forall k c s Q, (forall k', LW (answer o dbg repair (run k') c) s Q) -> LW (run k c) s Q.
Proof. intros [|k] c s Q H; [intros a s' E; discriminate E|]. exact (H k). Qed.

(** climbing: the next word goes on, or it does not *)
Lemma climb_stop : forall k z st C G l (Q : unit -> pst -> Prop), good z -> at_words G false (here z) l -> plain_kind (next_kind l) = true -> 0 <= cprec C -> stops (cprec C) (seen_kind (next_kind l)) ->
  (forall z', good z' -> at_words G false (here z') l -> Q tt (mkp z' st C G)) -> LW (run k CClimb) (mkp z st C G) Q.
Proof.
  intros k z st C G l Q Hg Ha Hp Hc Hst HQ. apply LW_run. clear k. intros k. cbn [answer]. unfold climb. apply LW_bind. eapply S_current_nl; eauto. intros ts u z' G' R' St Hts [Hu|(Hk & _)]; cbv beta iota.
  2: { apply LW_bind. intros t s1 E. unfold process_implicit_times in E. rewrite Hk in E. change (infix_of TK_ToplevelNewline) with IP_InfixToplevelNewline in E. injection E as <- <-.
    apply LW_bind. intros p s1 E. rewrite Hk in E. change (infix_of TK_ToplevelNewline) with IP_InfixToplevelNewline in E. cbn [get_precedence] in E. injection E as <- <-.
    intros a s' E. change (top_prec (mkp z' st C G)) with (cprec C) in E. rewrite greater_zero in E by exact Hc. revert a s' E. change (LW (trivia_reset ts) (mkp z' st C G) Q).
    eapply (S_back _ z z'); eauto. intros z2 G2 H2. apply HQ; auto. rewrite H2. exact Ha. }
  pose proof (se_kind _ _ _ _ Hu) as Hk. apply LW_bind. intros t s1 E. rewrite process_plain in E by (rewrite Hk; exact Hp). injection E as <- <-. apply LW_bind. intros p s1 E.
  rewrite mark_kind, Hk, prec_plain in E by exact Hp. injection E as <- <-.
  assert (B : prec_greater (cprec C) (match joining_precedence (seen_kind (next_kind l)) with Some p => p | None => 0 end) = true).
  { destruct (joining_precedence (seen_kind (next_kind l))) as [p|] eqn:J; [apply greater_ends; apply Hst; exact J|apply greater_zero; exact Hc]. }
  intros a s' E. change (top_prec (mkp z' st C G)) with (cprec C) in E. rewrite B in E. revert a s' E. change (LW (trivia_reset ts) (mkp z' st C G) Q).
  eapply (S_back _ z z'); eauto. intros z2 G2 H2. apply HQ; auto. rewrite H2. exact Ha.
Qed.
Lemma climb_go : forall k z S n C G l p (Q : unit -> pst -> Prop), good z -> at_words G false (here z) l -> plain_kind (next_kind l) = true ->
  joining_precedence (seen_kind (next_kind l)) = Some p -> ~ ends_operand (cprec C) p ->
  (forall k' ts u z', good z' -> parts (map Tok ts) = [] -> sees G z' u l -> LW (run k' (CInfix (mark u))) (mkp z' (S ++ ([n] ++ map Tok ts)) (mkctx p (length S) :: C) G) Q) ->
  LW (run k CClimb) (mkp z (S ++ [n]) C G) Q.
Proof.
  intros k z S n C G l p Q Hg Ha Hp Hj Hst HQ. apply LW_run. clear k. intros k. cbn [answer]. unfold climb. apply LW_bind. eapply S_current_nl; eauto. intros ts u z' G' R' St Hts [Hu|(_ & [ -> |X])]; [|discriminate Hj|rewrite X in Hj; discriminate Hj]. cbv beta iota.
  pose proof (se_kind _ _ _ _ Hu) as Hk. apply LW_bind. intros t s1 E. rewrite process_plain in E by (rewrite Hk; exact Hp). injection E as <- <-. apply LW_bind. intros p' s1 E.
  rewrite mark_kind, Hk, prec_plain, Hj in E by exact Hp. injection E as <- <-.
  assert (B : prec_greater (cprec C) p = false) by (destruct (prec_greater (cprec C) p) eqn:B; auto; apply greater_ends in B; contradiction).
  intros a s' E. change (top_prec (mkp z' (S ++ [n]) C G)) with (cprec C) in E. rewrite B in E. revert a s' E.
  change (LW (push_context p ;; push_trivia ts ;; run k (CInfix (mark u)))%parser (mkp z' (S ++ [n]) C G) Q).
  apply LW_bind, L_context. apply LW_bind, L_trivia. rewrite <- app_assoc. apply HQ; auto.
Qed.
End Steps.

(** ** Facts about expressions *)
Scheme expr_rec2 := Induction for expr Sort Prop with tail_rec2 := Induction for tail Sort Prop with body_rec2 := Induction for body Sort Prop.
Combined Scheme expr_ind2 from expr_rec2, tail_rec2, body_rec2.

Lemma starter_kind : forall e, proper e -> starter (first_kind e) = true.
Proof.
  apply (expr_rec2 (fun e => proper e -> starter (first_kind e) = true) (fun _ => True) (fun _ => True)); try exact (fun _ _ => I); try (intros; exact I); cbn [proper first_kind]; unfold starter.
  - intros w [-> | ->]; reflexivity.
  - intros w a _ (p & o & H & _). apply prefix_prec in H as [-> _]. reflexivity.
  - intros a IH w (p & o & _ & H & _). auto.
  - intros a IH w b _ (p & o & _ & H & _). auto.
  - intros a IH r _ (p & o & _ & H & _). auto.
  - intros w b _ v ((u & o & ->) & _). reflexivity.
  - intros h IH w b _ v (_ & _ & H & _). auto.
Qed.
Lemma first_words : forall e l, next_kind (words e ++ l) = first_kind e.
Proof.
  induction e; intros l0; cbn [words first_kind]; rewrite ?app_nil_r, <- ?app_assoc; try reflexivity; auto.
Qed.
Lemma starter_table : forallb (fun k => negb (starter k)) (TK_Dot :: TK_EndOfFile :: TK_Comma :: TK_LongName_InvisibleComma :: TK_ToplevelNewline :: UNDERS ++ CLOSERS) = true.
Proof. vm_compute. reflexivity. Qed.
Lemma starter_facts : forall k, starter k = true -> k <> TK_Dot /\ k <> TK_EndOfFile /\ is_comma k = false /\ zin k UNDERS = false /\ TokenToCloser k = Closer_AssertFalse.
Proof.
  intros k H. assert (N : ~ In k (TK_Dot :: TK_EndOfFile :: TK_Comma :: TK_LongName_InvisibleComma :: TK_ToplevelNewline :: UNDERS ++ CLOSERS)).
  { intros X. pose proof (proj1 (forallb_forall _ _) starter_table _ X) as K. cbn beta in K. rewrite H in K. discriminate K. }
  split; [intros ->; apply N; left; reflexivity|]. split; [intros ->; apply N; right; left; reflexivity|]. split.
  - unfold is_comma. apply orb_false_iff. split; apply Z.eqb_neq; intros ->; apply N; [right; right; left; reflexivity|right; right; right; left; reflexivity].
  - split.
    + destruct (zin k UNDERS) eqn:E; auto. exfalso. apply N. apply zin_In in E. do 5 right. apply in_or_app. auto.
    + destruct (closer_cases k) as [X|X]; auto. exfalso. apply N. do 5 right. apply in_or_app. auto.
Qed.
Lemma starter_line : forall k, starter k = true -> k <> TK_ToplevelNewline.
Proof. intros k H ->. discriminate H. Qed.
Lemma first_line : forall e l, proper e -> next_kind (words e ++ l) <> TK_ToplevelNewline.
Proof. intros e l H. rewrite first_words. apply starter_line, starter_kind, H. Qed.
Lemma starter_plain_table : forallb (fun '(k, p) => match p with PP_Leaf | PP_Symbol | PP_PrefixOperator _ _ | PP_Group _ _ => match infix_of k with IP_InfixDifferentialD => true | _ => plain_kind k end | _ => true end) PREFIX_PARSELETS = true.
Proof. vm_compute. reflexivity. Qed.
Lemma starter_plain : forall k, starter k = true -> infix_of k <> IP_InfixDifferentialD -> plain_kind k = true.
Proof.
  intros k H N. unfold starter in H. unfold prefix_of in H. destruct (assoc k PREFIX_PARSELETS) as [p|] eqn:E; [|discriminate H]. apply ParserProofs.assoc_in in E. pose proof (proj1 (forallb_forall _ _) starter_plain_table _ E) as K. cbv beta iota in K.
  destruct p; try discriminate H; destruct (infix_of k); try exact K; contradiction.
Qed.
Lemma starter_closer : forall k, solidk k = true -> starter k = true -> isCloser k = false.
Proof.
  intros k Hs H. apply solid_print in Hs. unfold print_facts in Hs. do 7 apply andb_true_iff in Hs as [Hs _]. rewrite H in Hs. do 3 apply andb_true_iff in Hs as [Hs _]. apply negb_true_iff in Hs. exact Hs.
Qed.
(** tokens that end every operand *)
Definition finish (k : Z) : Prop := (joining_precedence k = None \/ joining_precedence k = Some PREC_COMMA) /\ as_infix k = None.
Lemma finish_stops : forall k p, finish k -> 3 < p -> stops p k.
Proof. intros k p [[H|H] _] Hp q E; rewrite H in E; [discriminate E|]. injection E as <-. left. unfold PREC_COMMA. lia. Qed.
Lemma finish_ends : forall k, finish k -> forall e, proper e -> ends e k.
Proof.
  intros k Hk. apply (expr_rec2 (fun e => proper e -> ends e k) (fun r => forall p o, proper_tail p o r -> tail_ends r k) (fun _ => True)); cbn [proper ends proper_tail tail_ends]; try (intros; exact I).
  - intros w a IH (p & o & H & _ & Ha). split; auto. intros p' o' E. rewrite H in E. injection E as <- <-. apply finish_stops; auto. apply prefix_prec in H. tauto.
  - intros a _ w b IH (p & o & H & _ & _ & _ & Hb). split; auto. intros p' o' E. rewrite H in E. injection E as <- <-. apply finish_stops; auto. apply binary_prec in H. tauto.
  - intros a _ r IH (p & o & H & _ & _ & Hr). split; [|eauto]. intros p' o' E. rewrite H in E. injection E as <- <-. split; [apply finish_stops; auto; apply infix_prec in H; tauto|].
    intros q. rewrite (proj2 Hk). discriminate.
  - intros w b IH p o (_ & _ & Hb). auto.
  - intros w b _ r IH p o (_ & _ & _ & _ & _ & Hr). eauto.
Qed.
Lemma ends_apart : forall k e, ends e (seen_kind k) -> apart e k.
Proof.
  intros k. assert (T : forall w o0, (forall p o, as_infix w = Some (p, o) -> stops p (seen_kind k) /\ (forall q, as_infix (seen_kind k) <> Some (q, o))) -> forall p q, as_infix w = Some (p, o0) -> as_infix k <> Some (q, o0)).
  { intros w o0 H p q E X. destruct (H _ _ E) as [_ K]. apply (K q). unfold seen_kind. destruct (implicit k) eqn:Ei; auto. unfold implicit in Ei. unfold as_infix in X. destruct (infix_of k); discriminate. }
  apply (expr_rec2 (fun e => ends e (seen_kind k) -> apart e k) (fun r => tail_ends r (seen_kind k) -> tail_apart r k) (fun _ => True)); cbn [ends apart tail_ends tail_apart]; try (intros; exact I); try tauto.
  intros a _ r IH [H1 H2]. split; auto. intros p o q. eapply T; eauto.
Qed.
(** what is behind an expression, in the same line or the next, does not belong to it *)
Definition closes (e : expr) (l : list word) : Prop := ends e (seen_kind (next_kind l)) /\ apart e (next_kind (solid l)).
Definition fine (l : list word) : Prop := plain_kind (next_kind l) = true /\ plain_kind (next_kind (solid l)) = true.
Definition flush (l : list word) : Prop := next_kind l <> TK_ToplevelNewline.
Lemma closes_flush : forall e l, flush l -> ends e (seen_kind (next_kind l)) -> closes e l.
Proof. intros e l F H. split; auto. rewrite (solid_flush _ F). apply ends_apart. exact H. Qed.
Lemma fine_flush : forall l, flush l -> plain_kind (next_kind l) = true -> fine l.
Proof. intros l F H. split; auto. rewrite (solid_flush _ F). exact H. Qed.
Lemma flush_closer : forall l, TokenToCloser (next_kind l) <> Closer_AssertFalse -> flush l.
Proof. intros l H X. rewrite X in H. apply H. reflexivity. Qed.
Lemma flush_join : forall l p, joining_precedence (seen_kind (next_kind l)) = Some p -> flush l.
Proof. intros l p H X. rewrite X in H. discriminate H. Qed.
Lemma low_takes : forall p q, p = 0 \/ p = PREC_COMMA -> 3 < q -> ~ ends_operand p q.
Proof. intros p q [-> | ->] Hq [X|[X _]]; unfold PREC_COMMA in X; lia. Qed.
Lemma low_begins : forall p, p = 0 \/ p = PREC_COMMA -> forall e, proper e -> begins p e.
Proof.
  intros p Hp. apply (expr_rec2 (fun e => proper e -> begins p e) (fun _ => True) (fun _ => True)); cbn [proper begins]; try (intros; exact I).
  - intros a IH w (q & o & H & Ha & _). split; auto. intros q' o' E. rewrite H in E. injection E as <- <-. apply low_takes; auto. apply postfix_prec in H. tauto.
  - intros a IH w b _ (q & o & H & Ha & _). split; auto. intros q' o' E. rewrite H in E. injection E as <- <-. apply low_takes; auto. apply binary_prec in H. tauto.
  - intros a IH r _ (q & o & H & Ha & _). split; auto. intros q' o' E. rewrite H in E. injection E as <- <-. apply low_takes; auto. apply infix_prec in H. tauto.
  - intros h IH w b _ v (_ & _ & Hh & _). split; auto. apply low_takes; auto. reflexivity.
Qed.
Lemma finish_closer : forall k, TokenToCloser k <> Closer_AssertFalse -> finish k /\ plain_kind k = true /\ seen_kind k = k.
Proof. intros k H. destruct (closer_kind k H) as (A & B & C & D & E). split; [split; auto|]. split; auto. unfold seen_kind. rewrite B. reflexivity. Qed.
Lemma finish_comma : finish TK_Comma /\ plain_kind TK_Comma = true /\ seen_kind TK_Comma = TK_Comma.
Proof. split; [split; [right; reflexivity|reflexivity]|]. split; reflexivity. Qed.
Lemma finish_eof : finish TK_EndOfFile /\ plain_kind TK_EndOfFile = true /\ seen_kind TK_EndOfFile = TK_EndOfFile.
Proof. split; [split; [left; reflexivity|reflexivity]|]. split; reflexivity. Qed.
Lemma plain_high : forall k q, plain_kind k = true -> joining_precedence (seen_kind k) = Some q -> q < PREC_HIGHEST.
Proof.
  intros k q Hp J. unfold seen_kind in J. destruct (implicit k); [injection J as <-; reflexivity|]. unfold plain_kind in Hp. apply andb_true_iff in Hp as [_ Hp].
  unfold joining_precedence in J. destruct (infix_of k) eqn:E; try discriminate Hp; try discriminate J; try (injection J as <-; reflexivity).
  - injection J as <-. pose proof (infix_high _ _ E ltac:(discriminate)) as K. exact K.
  - injection J as <-. pose proof (infix_high _ _ E ltac:(discriminate)) as K. exact K.
  - injection J as <-. pose proof (infix_high _ _ E ltac:(discriminate)) as K. exact K.
Qed.
(** an operator of a chain, as the parser sees it *)
Definition stands (op : word) (l : list word) : Prop := fst op = TK_Fake_ImplicitTimes -> op = implicit_times /\ implicit (next_kind l) = true.
Lemma stands_kind : forall op l p, operator_kind (fst op) p -> stands op l -> zin (next_kind l) UNDERS = false -> seen_kind (next_kind (written op ++ l)) = fst op /\ plain_kind (next_kind (written op ++ l)) = true.
Proof.
  intros op l p (P & I & J) Hs Hu. unfold written. destruct (Z.eqb_spec (fst op) TK_Fake_ImplicitTimes) as [E|E]; cbn [app next_kind].
  - destruct (Hs E) as [_ K]. unfold seen_kind. rewrite K, E. split; auto. unfold plain_kind. rewrite Hu. unfold implicit in K. destruct (infix_of (next_kind l)); try discriminate K. reflexivity.
  - unfold seen_kind. rewrite I. auto.
Qed.
Lemma joins_stands : forall o op b l, joins o op b -> proper b -> (exists q, as_infix (fst op) = Some (q, o)) /\ stands op (words b ++ l) /\ zin (next_kind (words b ++ l)) UNDERS = false.
Proof.
  intros o op b l [H1 H2] Hb. split; auto. rewrite first_words. split; [|apply starter_facts, starter_kind; auto]. intros E. destruct (H2 E) as [A B]. split; auto. rewrite first_words. unfold implicit. rewrite B. reflexivity.
Qed.

(** ** The parser follows the expression *)
Section Follow.
Variable o : opts.
Variable dbg : bool.
Variable base : st.
Variable repair : Z -> list cst -> res (list cst).
Local Notation good := (good o base).
Local Notation run := (run o dbg repair).
Local Notation sees := (sees o).

Lemma tok_parts : forall t, isTrivia (t_kind t) = false -> parts [Tok t] = [Tok t].
Proof. intros t H. apply parts_solid. exact H. Qed.
(** stepping over an operator, written or not *)
Lemma S_mark : forall z u op l p st C G (Q : unit -> pst -> Prop), good z -> operator_kind (fst op) p -> flat (fst op) -> stands op l -> zin (next_kind l) UNDERS = false -> sees G z u (written op ++ l) ->
  (forall z' t f, good z' -> at_words G f (here z') l -> is_word op t -> parts [t] = [t] -> Q tt (mkp z' (st ++ [t]) C G)) ->
  LW (push_syntax_and_next dbg (mark u)) (mkp z st C G) Q.
Proof.
  intros z u op l p st C G Q Hg Ho Hfl Hs Hu HS HQ. destruct (stands_kind op l p Ho Hs Hu) as [K1 K2]. rewrite <- (se_kind _ _ _ _ _ HS) in K1. unfold written in HS. destruct (Z.eqb_spec (fst op) TK_Fake_ImplicitTimes) as [E|E].
  - destruct (Hs E) as [E1 E2]. cbn [app] in HS. unfold mark. rewrite (se_kind _ _ _ _ _ HS), E2. unfold push_syntax_and_next. apply LW_bind, L_syntax. apply LW_PW.
    apply (PW_skip_fake o base True (qtop G)); [exact Hg|rewrite qtop_as; reflexivity|exact (se_looks _ _ _ _ _ HS)|reflexivity|discriminate|]. intros z' G' H' _. apply (HQ z' _ true); auto.
    + rewrite H'. exact (se_at _ _ _ _ _ HS).
    + exists (tok_at_start TK_Fake_ImplicitTimes u). split; [reflexivity|]. rewrite E1. reflexivity.
  - cbn [app] in HS. destruct Ho as (P & I & J). pose proof (se_kind _ _ _ _ _ HS) as Hk. cbn [next_kind] in Hk. unfold mark. rewrite Hk, I. eapply S_next; eauto. intros z' G' A'. apply (HQ z' _ (wants (fst op))); auto.
    + exists u. split; auto. destruct (se_word _ _ _ _ _ HS) as [X _]. exact X.
    + apply tok_parts. apply solidk_trivia. exact (se_solid _ _ _ _ _ HS).
Qed.

(** the ends and the steps of the loops of chains *)
Definition loop_of (op : Z) : call := if op =? IOP_Times then CTimesLoop else CInfixLoop op.
Definition operand_loop (k : nat) (op : Z) : P unit := (u <- eat_trivia o dbg ;; run k (CPrefix u) ;; run k (loop_of op))%parser.
Definition in_sight (G : list Z) (z : st) (u : token) (l : list word) : Prop :=
  sees G z u l \/ (solid l <> l /\ (t_kind u = TK_ToplevelNewline \/ (t_kind u = next_kind (solid l) /\ implicit (t_kind u) = false))).
Lemma times_look : forall k z st C G l (Q : unit -> pst -> Prop), good z -> at_words G false (here z) l -> fine l ->
  (forall triv ts u z0 z1, good z0 -> here z0 = here z -> good z1 -> R o z0 z1 -> strip o (qtop G) triv (here z0) ts u (here z1) -> parts (map Tok ts) = [] -> in_sight G z1 u l ->
    LW (if negb (is_infix_op IOP_Times (infix_of (t_kind (mark u)))) then (trivia_reset ts ;; reduce_op KInfix IOP_Times ;; run k CClimb)%parser
        else (commit_syntax_and_next dbg ts (mark u) ;; u <- eat_trivia o dbg ;; run k (CPrefix u) ;; run k CTimesLoop)%parser) (mkp z1 st C G) Q) ->
  LW (times_loop o dbg (run k)) (mkp z st C G) Q.
Proof.
  intros k z st C G l Q Hg Ha [Hp Hp2] HQ. unfold times_loop. apply LW_bind. eapply S_look; eauto. intros ts u z1 G1 R1 St Hts Hu. cbv beta iota.
  pose proof (se_kind _ _ _ _ _ Hu) as Hk. apply LW_bind. intros t s1 E. rewrite process_plain in E by (rewrite Hk; exact Hp2). injection E as <- <-. apply LW_bind. rewrite mark_kind.
  assert (D : solid l = l \/ solid l <> l) by (destruct (Z.eq_dec (next_kind l) TK_ToplevelNewline) as [X|X]; [right; apply solid_line; exact X|left; apply solid_flush; exact X]).
  destruct (Z.eqb_spec (seen_kind (t_kind u)) TK_Fake_ImplicitTimes) as [Ef|Nf].
  - apply LW_bind. eapply (S_back o base _ z z1); eauto. intros z2 G2 H2. apply LW_bind. apply (S_current_nl o base) with (l := l); [exact G2|rewrite H2; exact Ha|]. intros ts3 u3 z3 G3 R3 St3 Hts3 Hu3. cbv beta iota.
    assert (I3 : in_sight G z3 u3 l /\ plain_kind (t_kind u3) = true).
    { destruct Hu3 as [Hu3|(Hk3 & [ -> |Hn])]; [split; [left; exact Hu3|rewrite (se_kind _ _ _ _ _ Hu3); exact Hp]|rewrite Hk in Ef; discriminate Ef|]. rewrite Hk3. split; [|reflexivity]. right. split; [apply solid_line; exact Hn|auto]. }
    destruct I3 as [I3 P3]. apply LW_bind. intros t s1 E. rewrite process_plain in E by exact P3. injection E as <- <-. apply LW_ret. cbv beta iota.
    exact (HQ _ ts3 u3 z2 z3 G2 H2 G3 R3 St3 Hts3 I3).
  - apply LW_ret. cbv beta iota. apply (HQ _ ts u z z1 Hg eq_refl G1 R1 St Hts). destruct D as [D|D]; [left; rewrite <- D; exact Hu|right]. split; auto. right. split; auto. unfold seen_kind in Nf. destruct (implicit (t_kind u)); auto; contradiction.
Qed.
Lemma chain_stop : forall k op z W ch q C G l (Q : unit -> pst -> Prop), op <> IOP_CodeParser_InternalInvalid -> good z -> at_words G false (here z) l -> fine l ->
  (forall p, as_infix (seen_kind (next_kind l)) <> Some (p, op)) -> (forall p, as_infix (next_kind (solid l)) <> Some (p, op)) ->
  (forall k' z', good z' -> at_words G false (here z') l -> LW (run k' CClimb) (mkp z' (W ++ [Op KInfix op ch]) C G) Q) ->
  LW (run k (loop_of op)) (mkp z (W ++ ch) (mkctx q (length W) :: C) G) Q.
Proof.
  intros k op z W ch q C G l Q No Hg Ha Hp Hn Hn2 HQ. apply LW_run. clear k. intros k.
  assert (Nf : forall k0, (forall p, as_infix k0 <> Some (p, op)) -> is_infix_op op (infix_of k0) = false).
  { intros k0 H. destruct (is_infix_op op (infix_of k0)) eqn:E; auto. apply is_infix_iff in E as [p E]; auto. destruct (H p E). }
  assert (T : forall triv z0 z1 ts u, good z0 -> here z0 = here z -> good z1 -> R o z0 z1 -> strip o (qtop G) triv (here z0) ts u (here z1) ->
    LW (trivia_reset ts ;; reduce_op KInfix op ;; run k CClimb)%parser (mkp z1 (W ++ ch) (mkctx q (length W) :: C) G) Q).
  { intros triv z0 z1 ts u G0 H0 G1 R1 St. apply LW_bind. eapply (S_back o base triv z0 z1); eauto. intros z2 G2 H2. apply LW_bind, L_reduce. apply HQ; auto. rewrite H2, H0. exact Ha. }
  unfold loop_of. destruct (Z.eqb_spec op IOP_Times) as [->|Nt]; cbn [answer].
  - eapply times_look; eauto. intros triv ts u z0 z1 G0 H0 G1 R1 St Hts Hu. assert (K : is_infix_op IOP_Times (infix_of (t_kind (mark u))) = false).
    { rewrite mark_kind. destruct Hu as [Hu|(_ & [Hu|(Hu & Hi)])]; [rewrite (se_kind _ _ _ _ _ Hu); apply Nf; exact Hn|rewrite Hu; reflexivity|]. unfold seen_kind. rewrite Hi, Hu. apply Nf. exact Hn2. }
    rewrite K. cbn [negb]. exact (T triv z0 z1 ts u G0 H0 G1 R1 St).
  - unfold infix_loop. apply LW_bind. eapply S_look; eauto. intros ts u z1 G1 R1 St Hts Hu. cbv beta iota. rewrite Nf; [cbn [negb]; eapply (T isTrivia z z1); eauto|].
    intros p. rewrite (se_kind _ _ _ _ _ Hu). apply Hn2.
Qed.
Lemma chain_go : forall k op w l p z st C G (Q : unit -> pst -> Prop), good z -> as_infix (fst w) = Some (p, op) -> stands w l -> zin (next_kind l) UNDERS = false -> at_words G false (here z) (written w ++ l) ->
  (forall k' z' ts t f, good z' -> at_words G f (here z') l -> parts (map Tok ts) = [] -> is_word w t -> parts [t] = [t] -> LW (operand_loop k' op) (mkp z' (st ++ map Tok ts ++ [t]) C G) Q) ->
  LW (run k (loop_of op)) (mkp z st C G) Q.
Proof.
  intros k op w l p z st C G Q Hg Hw Hs Hu Ha HQ. destruct (infix_prec _ _ _ Hw) as (Ho & Hp3 & No & Hcase). pose proof (flat_chain _ _ _ Hw) as Hfl. destruct (stands_kind w l p Ho Hs Hu) as [K1 K2]. assert (Fl : flush (written w ++ l)) by (apply (flush_join _ p); rewrite K1; apply Ho). pose proof (fine_flush _ Fl K2) as Fn. apply LW_run. clear k. intros k.
  assert (T : is_infix_op op (infix_of (fst w)) = true) by (apply is_infix_iff; eauto).
  specialize (HQ k). unfold operand_loop in HQ. unfold loop_of in *. destruct (Z.eqb_spec op IOP_Times) as [->|Nt]; cbn [answer].
  - eapply times_look; eauto. intros triv ts u z0 z1 G0 H0 G1 R1 St Hts [HS|[HS _]]; [|destruct (HS (solid_flush _ Fl))]. rewrite mark_kind, (se_kind _ _ _ _ _ HS), K1, T. cbn [negb]. unfold commit_syntax_and_next. apply LW_bind, LW_bind, L_trivia.
    eapply S_mark; eauto. intros z2 t f2 G2 A2 W2 P2. rewrite <- app_assoc. eapply HQ; eauto.
  - unfold infix_loop. apply LW_bind. eapply S_current; eauto. intros ts u z1 G1 R1 St Hts HS. cbv beta iota.
    assert (Nf : fst w <> TK_Fake_ImplicitTimes) by (intros X; destruct Hcase as [(_ & X2 & _)|(X2 & _)]; [contradiction|rewrite X in X2; discriminate X2]).
    assert (Ew : written w ++ l = w :: l) by (unfold written; apply Z.eqb_neq in Nf; rewrite Nf; reflexivity). pose proof (se_kind _ _ _ _ _ HS) as Hk. rewrite Ew in Hk. cbn [next_kind] in Hk.
    rewrite Hk, T. cbn [negb]. unfold commit_syntax_and_next. apply LW_bind, LW_bind, L_trivia. rewrite Ew in HS. eapply S_next; eauto. intros z2 G2 A2. rewrite <- app_assoc. eapply HQ; eauto.
    + exists u. split; auto. destruct (se_word _ _ _ _ _ HS) as [X _]. exact X.
    + apply tok_parts. apply solidk_trivia. exact (se_solid _ _ _ _ _ HS).
Qed.

(** tokens behind which a line can end *)
Lemma quiet_closer : forall k, TokenToCloser k <> Closer_AssertFalse -> wants k = false.
Proof.
  intros k H. destruct (closer_cases k) as [X|X]; [|destruct (H X)]. apply (proj1 (forallb_forall (fun k => negb (wants k)) CLOSERS) eq_refl) in X. apply negb_true_iff in X. exact X.
Qed.
Lemma quiet_leaf_table : forallb (fun '(k, p) => match p with PP_Leaf | PP_Symbol => negb (wants k) | _ => true end) PREFIX_PARSELETS = true.
Proof. vm_compute. reflexivity. Qed.
Lemma quiet_leaf : forall k, prefix_of k = PP_Leaf \/ prefix_of k = PP_Symbol -> wants k = false.
Proof.
  intros k H. unfold prefix_of in H. destruct (assoc k PREFIX_PARSELETS) as [p|] eqn:E; [|destruct H; discriminate]. apply ParserProofs.assoc_in in E. pose proof (proj1 (forallb_forall _ _) quiet_leaf_table _ E) as K. cbv beta iota in K.
  destruct H as [ -> | -> ]; apply negb_true_iff in K; exact K.
Qed.
(** the closing bracket *)
Lemma group_end : forall k op c z W ch q C G f closer l (Q : unit -> pst -> Prop), good z -> TokenToCloser (fst closer) = c -> TokenToCloser (fst closer) <> Closer_AssertFalse -> at_words (c :: G) f (here z) (closer :: l) ->
  (forall k' z' ch' t, good z' -> at_words G false (here z') l -> parts ch' = parts ch ++ [t] -> is_word closer t -> LW (run k' CClimb) (mkp z' (W ++ [Op KGroup op ch']) C G) Q) ->
  LW (run k (CGroupLoop op c)) (mkp z (W ++ ch) (mkctx q (length W) :: C) (c :: G)) Q.
Proof.
  intros k op c z W ch q C G f closer l Q Hg Hc Nc Ha HQ. pose proof (flush_closer (closer :: l) Nc) as Fl. apply LW_run. clear k. intros k. cbn [answer]. unfold group_loop. apply LW_bind. eapply S_current; eauto. intros ts u z1 G1 R1 St Hts HS. cbv beta iota.
  pose proof (se_kind _ _ _ _ _ HS) as Hk. cbn [next_kind] in Hk. rewrite Hk, Hc, Z.eqb_refl. unfold commit_syntax_and_next. apply LW_bind, LW_bind, L_trivia. eapply S_close; eauto. intros z2 G2 A2. rewrite (quiet_closer _ Nc) in A2. rewrite <- !app_assoc.
  apply LW_bind. unfold reduce_group. apply L_reduce_group. eapply HQ; eauto.
  - rewrite !parts_app, Hts. cbn [app]. rewrite tok_parts; [reflexivity|]. apply solidk_trivia. exact (se_solid _ _ _ _ _ HS).
  - exists u. split; auto. destruct (se_word _ _ _ _ _ HS) as [X _]. exact X.
Qed.
(** the end of a list *)
Lemma comma_stop : forall k z W ch q C G l (Q : unit -> pst -> Prop), good z -> at_words G false (here z) l -> flush l -> is_comma (next_kind l) = false ->
  (forall z', good z' -> at_words G false (here z') l -> Q tt (mkp z' (W ++ [Op KInfix IOP_CodeParser_Comma ch]) C G)) ->
  LW (run k CCommaLoop) (mkp z (W ++ ch) (mkctx q (length W) :: C) G) Q.
Proof.
  intros k z W ch q C G l Q Hg Ha Fl Hn HQ. apply LW_run. clear k. intros k. cbn [answer]. unfold comma_loop. apply LW_bind. eapply S_current; eauto. intros ts u z1 G1 R1 St Hts HS. cbv beta iota.
  rewrite (se_kind _ _ _ _ _ HS), Hn. cbn [negb]. apply LW_bind. eapply (S_back o base isTrivia z z1); eauto. intros z2 G2 H2. apply L_reduce. apply HQ; auto. rewrite H2. exact Ha.
Qed.
Definition item_loop (k : nat) : P unit := (comma_operand o dbg (run k) ;; run k CCommaLoop)%parser.
Lemma comma_go : forall k w l z st C G (Q : unit -> pst -> Prop), good z -> comma w -> at_words G false (here z) (w :: l) ->
  (forall k' z' ts t f, good z' -> at_words G f (here z') l -> parts (map Tok ts) = [] -> is_word w t -> parts [t] = [t] -> LW (item_loop k') (mkp z' (st ++ map Tok ts ++ [t]) C G) Q) ->
  LW (run k CCommaLoop) (mkp z st C G) Q.
Proof.
  intros k w l z st C G Q Hg Hw Ha HQ. assert (Hfl : flat (fst w)) by (rewrite Hw; apply flat_infix; exact I). assert (Fl : flush (w :: l)) by (unfold flush; cbn [next_kind]; rewrite Hw; discriminate). apply LW_run. clear k. intros k. cbn [answer]. unfold comma_loop. apply LW_bind. eapply S_current; eauto. intros ts u z1 G1 R1 St Hts HS. cbv beta iota.
  pose proof (se_kind _ _ _ _ _ HS) as Hk. cbn [next_kind] in Hk. rewrite Hk, Hw. change (is_comma TK_Comma) with true. cbn [negb]. unfold commit_syntax_and_next. apply LW_bind, LW_bind, L_trivia.
  eapply S_next; eauto. intros z2 G2 A2. rewrite <- app_assoc. eapply (HQ k); eauto.
  - exists u. split; auto. destruct (se_word _ _ _ _ _ HS) as [X _]. exact X.
  - apply tok_parts. apply solidk_trivia. exact (se_solid _ _ _ _ _ HS).
Qed.

(** ** The claims *)
Definition claim (e : expr) : Prop := forall k W C G z u l (Q : unit -> pst -> Prop), proper e -> begins (cprec C) e -> closes e l -> fine l -> 0 <= cprec C ->
  good z -> sees G z u (words e ++ l) ->
  (forall k' z' n, good z' -> at_words G false (here z') l -> shows e n -> parts [n] = [n] -> LW (run k' CClimb) (mkp z' (W ++ [n]) C G) Q) ->
  LW (run k (CPrefix u)) (mkp z W C G) Q.
Definition after_head (r : tail) : list word := match r with Last _ b => words b | Then _ b r => words b ++ tail_words r end.
Definition claim_tail (r : tail) : Prop := forall k p op W C G z f ch m l (Q : unit -> pst -> Prop), proper_tail p op r -> op <> IOP_CodeParser_InternalInvalid -> 0 <= p ->
  tail_ends r (seen_kind (next_kind l)) -> tail_apart r (next_kind (solid l)) -> stops p (seen_kind (next_kind l)) -> (forall q, as_infix (seen_kind (next_kind l)) <> Some (q, op)) -> (forall q, as_infix (next_kind (solid l)) <> Some (q, op)) -> fine l ->
  good z -> at_words G f (here z) (after_head r ++ l) -> (exists t, parts ch = m ++ [t] /\ is_word (head_word r) t) ->
  (forall k' z' ch' ps, good z' -> at_words G false (here z') l -> parts ch' = m ++ ps -> shows_tail r ps -> LW (run k' CClimb) (mkp z' (W ++ [Op KInfix op ch']) C G) Q) ->
  LW (operand_loop k op) (mkp z (W ++ ch) (mkctx p (length W) :: C) G) Q.
Definition claim_list (r : tail) : Prop := forall k W C G z f ch m l (Q : unit -> pst -> Prop), proper_list r -> TokenToCloser (next_kind l) <> Closer_AssertFalse ->
  good z -> at_words G f (here z) (after_head r ++ l) -> (exists t, parts ch = m ++ [t] /\ is_word (head_word r) t) ->
  (forall z' ch' ps, good z' -> at_words G false (here z') l -> parts ch' = m ++ ps -> shows_tail r ps -> Q tt (mkp z' (W ++ [Op KInfix IOP_CodeParser_Comma ch']) C G)) ->
  LW (item_loop k) (mkp z (W ++ ch) (mkctx PREC_COMMA (length W) :: C) G) Q.
Definition claim_body (b : body) : Prop := forall k op c W C G z f ch closer l (Q : unit -> pst -> Prop), proper_body b -> TokenToCloser (fst closer) = c -> c <> Closer_AssertFalse ->
  good z -> at_words (c :: G) f (here z) (body_words b ++ closer :: l) ->
  (forall k' z' ch' ps t, good z' -> at_words G false (here z') l -> parts ch' = parts ch ++ ps ++ [t] -> shows_body b ps -> is_word closer t -> LW (run k' CClimb) (mkp z' (W ++ [Op KGroup op ch']) C G) Q) ->
  LW (run k (CGroupLoop op c)) (mkp z (W ++ ch) (mkctx 0 (length W) :: C) (c :: G)) Q.

Lemma tail_words_head : forall r, tail_words r = written (head_word r) ++ after_head r.
Proof. intros [op b|op b r]; cbn [tail_words head_word after_head]; reflexivity. Qed.
Lemma opened : forall G z u w l, sees G z u (w :: l) -> is_word w (Tok u) /\ parts [Tok u] = [Tok u] /\ t_kind u = fst w.
Proof.
  intros G z u w l HS. destruct (se_word _ _ _ _ _ HS) as (X & _). split; [exists u; auto|]. split; [apply tok_parts, solidk_trivia; exact (se_solid _ _ _ _ _ HS)|]. rewrite <- X. reflexivity.
Qed.
Lemma op_node : forall kd op ch, parts [Op kd op ch] = [Op kd op ch]. Proof. reflexivity. Qed.

(** an operand behind an operator is read as a whole *)
Lemma operand : forall b k c W C G z u l (Q : unit -> pst -> Prop), claim b -> proper b -> begins (c_prec c) b -> closes b l -> stops (c_prec c) (seen_kind (next_kind l)) -> fine l -> 0 <= c_prec c ->
  good z -> sees G z u (words b ++ l) ->
  (forall z' n, good z' -> at_words G false (here z') l -> shows b n -> parts [n] = [n] -> Q tt (mkp z' (W ++ [n]) (c :: C) G)) ->
  LW (run k (CPrefix u)) (mkp z W (c :: C) G) Q.
Proof.
  intros b k c W C G z u l Q Hb Pb Bb Eb Sb Pl Hc Hg HS HQ. eapply Hb; eauto. intros k' z' n G' A' S' P'. eapply (climb_stop o dbg base); eauto. apply Pl.
Qed.

Lemma leaf_claim : forall w, claim (Leaf w).
Proof.
  intros w k W C G z u l Q Pe _ _ [Pl _] _ Hg HS HQ. cbn [words app proper] in *. destruct (opened _ _ _ _ _ HS) as (W1 & W2 & W3). apply LW_run. clear k. intros k. cbn [answer]. unfold parse_prefix. rewrite W3.
  assert (Hfl : flat (fst w)) by (apply flat_prefix; destruct Pe as [ -> | -> ]; exact I). pose proof (quiet_leaf _ Pe) as Qu.
  assert (T : LW (pbind (push_leaf_and_next dbg u) (fun _ => run k CClimb)) (mkp z W C G) Q).
  { unfold push_leaf_and_next. apply LW_bind, LW_bind, L_leaf. eapply (S_skip o base z u w l _ _ G _ G); [exact Hg|exact HS|apply Hfl|]. intros z' G' A'. rewrite Qu in A'. apply HQ; auto. }
  destruct Pe as [E|E]; rewrite E; [exact T|]. unfold prefix_symbol. apply LW_bind. eapply (S_skip o base z u w l _ _ G _ G); [exact Hg|exact HS|apply Hfl|]. intros z' G' A'. rewrite Qu in A'. apply LW_bind. apply (L_peek o base); auto.
  intros v z2 G2 H2 HL R2. assert (Fin : at_words G false (here z2) l) by (rewrite H2; exact A'). cut (zin (t_kind v) UNDERS = false).
  - intros Nu. unfold zin, UNDERS in Nu. cbn [existsb] in Nu. rewrite !orb_false_iff in Nu. destruct Nu as (N1 & N2 & N3 & N4 & _).
    rewrite N1, N2, N3, N4. unfold push_and_climb. apply LW_bind, L_leaf. apply HQ; auto.
  - apply looks_reads in HL. rewrite qtop_as in HL. destruct (at_reads o _ _ _ _ _ Fin HL) as [(_ & _ & _ & K)|[(K & _)|[K _]]].
    { apply zin_In in K. cbn in K. destruct K as [<-|[<-|[<-|[<-|[]]]]]; reflexivity. }
    { rewrite K. reflexivity. }
    rewrite K.
    unfold plain_kind in Pl. apply andb_true_iff in Pl as [Pl _]. apply negb_true_iff in Pl. exact Pl.
Qed.
Lemma prefix_claim : forall op a, claim a -> claim (Prefix op a).
Proof.
  intros op a Ha k W C G z u l Q (p & o' & Po & Ba & Pa) _ [[Es Ea] Ap] Pl Hc Hg HS HQ. cbn [apart] in Ap. pose proof (conj Ea Ap) as Ca. pose proof (first_line a l Pa) as Fl. cbn [words app] in HS. destruct (opened _ _ _ _ _ HS) as (W1 & W2 & W3). destruct (prefix_prec _ _ _ Po) as [Pp Pr]. specialize (Es _ _ Po). assert (Hfl : flat (fst op)) by (apply flat_prefix; rewrite Pp; exact I).
  apply LW_run. clear k. intros k. cbn [answer]. unfold parse_prefix. rewrite W3, Pp. unfold prefix_operator. apply LW_bind. eapply S_next; eauto. intros z1 G1 A1. apply LW_bind, L_context. apply LW_bind.
  eapply S_eat; eauto. intros ts v z2 G2 Hts HS2. apply LW_bind. rewrite <- app_assoc. eapply operand; eauto; [cbn [c_prec]; lia|]. intros z3 n G3 A3 S3 P3. rewrite <- app_assoc. apply LW_bind, L_reduce.
  apply HQ; auto. cbn [shows]. exists p, o', ([Tok u] ++ map Tok ts ++ [n]), (Tok u), n. split; auto. split; [rewrite <- app_assoc; reflexivity|]. rewrite !parts_app, Hts, W2, P3. auto.
Qed.
Lemma postfix_claim : forall a op, claim a -> claim (Postfix a op).
Proof.
  intros a op Ha k W C G z u l Q (p & o' & Po & Pa & Ea) [Bt Ba] _ Pl Hc Hg HS HQ. cbn [words] in HS. rewrite <- app_assoc in HS. cbn [app] in HS. destruct (postfix_prec _ _ _ Po) as ((K1 & K2 & K3) & K4 & K5). assert (Hfl : flat (fst op)) by (apply flat_infix; rewrite K5; exact I).
  assert (Se : seen_kind (fst op) = fst op) by (unfold seen_kind; rewrite K2; reflexivity).
  assert (Fl : flush (op :: l)) by (apply (flush_join _ p); cbn [next_kind]; rewrite Se; exact K3). assert (Qu : wants (fst op) = false) by (unfold wants; rewrite K5; reflexivity).
  apply (Ha k W C G z u (op :: l)); auto; [apply closes_flush; auto; cbn [next_kind]; rewrite Se; exact Ea|apply fine_flush; auto|]. intros k1 z1 n G1 A1 S1 P1. eapply (climb_go o dbg base) with (l := op :: l) (p := p); auto; [cbn [next_kind]; rewrite Se; exact K3|apply (Bt _ _ Po)|].
  intros k2 ts v z2 G2 Hts HS2. destruct (opened _ _ _ _ _ HS2) as (W1 & W2 & W3). unfold mark. rewrite W3, K2. apply LW_run. clear k2. intros k2. cbn [answer]. unfold parse_infix. rewrite W3, K5. unfold infix_postfix.
  apply LW_bind. eapply S_next; eauto. intros z3 G3 A3. rewrite Qu in A3. rewrite <- !app_assoc. apply LW_bind, L_reduce. apply HQ; auto. cbn [shows]. exists p, o', ([n] ++ map Tok ts ++ [Tok v]), (Tok v), n.
  split; auto. split; [reflexivity|]. rewrite !parts_app, Hts, W2, P1. auto.
Qed.
Lemma binary_claim : forall a op b, claim a -> claim b -> claim (Binary a op b).
Proof.
  intros a op b Ha Hb k W C G z u l Q (p & o' & Po & Pa & Ea & Bb & Pb) [Bt Ba] [[Es Eb] Ap] Pl Hc Hg HS HQ. cbn [apart] in Ap. pose proof (conj Eb Ap) as Cb. pose proof (first_line b l Pb) as Fb. cbn [words] in HS. rewrite <- app_assoc in HS. cbn [app] in HS. destruct (binary_prec _ _ _ Po) as ((K1 & K2 & K3) & K4). pose proof (flat_binary _ _ _ Po) as Hfl.
  assert (Se : seen_kind (fst op) = fst op) by (unfold seen_kind; rewrite K2; reflexivity). specialize (Es _ _ Po).
  assert (Fl : flush (op :: words b ++ l)) by (apply (flush_join _ p); cbn [next_kind]; rewrite Se; exact K3).
  apply (Ha k W C G z u (op :: words b ++ l)); auto; [apply closes_flush; auto; cbn [next_kind]; rewrite Se; exact Ea|apply fine_flush; auto|]. intros k1 z1 n G1 A1 S1 P1. eapply (climb_go o dbg base) with (l := op :: words b ++ l) (p := p); auto; [cbn [next_kind]; rewrite Se; exact K3|apply (Bt _ _ Po)|].
  intros k2 ts v z2 G2 Hts HS2. destruct (opened _ _ _ _ _ HS2) as (W1 & W2 & W3). unfold mark. rewrite W3, K2. apply LW_run. clear k2. intros k2. cbn [answer]. unfold parse_infix. rewrite W3.
  assert (T : forall z3 v2 ts2 rest, good z3 -> parts (map Tok ts2) = [] -> sees G z3 v2 (words b ++ l) -> rest = (reduce_op KBinary o' ;; run k2 CClimb)%parser ->
    LW (run k2 (CPrefix v2) ;; rest)%parser (mkp z3 ((W ++ ([n] ++ map Tok ts)) ++ [Tok v] ++ map Tok ts2) (mkctx p (length W) :: C) G) Q).
  { intros z3 v2 ts2 rest G3 Hts2 HS3 ->. apply LW_bind. eapply operand; eauto; [cbn [c_prec]; lia|]. intros z4 m G4 A4 S4 P4. rewrite <- !app_assoc. apply LW_bind, L_reduce. apply HQ; auto. cbn [shows].
    exists p, o', ([n] ++ map Tok ts ++ [Tok v] ++ map Tok ts2 ++ [m]), n, (Tok v), m. split; auto. split; [reflexivity|]. rewrite !parts_app, Hts, Hts2, W2, P1, P4. auto. }
  assert (U : LW (infix_binary o dbg (run k2) o' v) (mkp z2 (W ++ ([n] ++ map Tok ts)) (mkctx p (length W) :: C) G) Q).
  { unfold infix_binary. apply LW_bind. eapply S_next; eauto. intros z3 G3 A3. apply LW_bind. eapply S_eat; eauto. intros ts2 v2 z4 G4 Hts2 HS4. rewrite <- app_assoc. eapply T; eauto. }
  unfold as_binary in Po. destruct (infix_of (fst op)) as [| | | |p0 op0| | |p0 op0| | | | | | | | | | | |] eqn:Ei; try discriminate Po; injection Po as <- <-; try exact U.
  unfold infix_equal. apply LW_bind. eapply S_next; eauto. intros z3 G3 A3. apply LW_bind. eapply S_eat; eauto. intros ts2 v2 z4 G4 Hts2 HS4.
  assert (N : t_kind v2 =? TK_Dot = false). { apply Z.eqb_neq. rewrite (se_kind _ _ _ _ _ HS4), first_words. apply starter_facts, starter_kind. exact Pb. }
  rewrite N. rewrite <- app_assoc. eapply T; eauto.
Qed.
Lemma infix_claim : forall a r, claim a -> claim_tail r -> claim (Infix a r).
Proof.
  intros a r Ha Hr k W C G z u l Q (p & o' & Po & Pa & Ea & Pr) [Bt Ba] [[Es Er] [Ap1 Ap2]] Pl Hc Hg HS HQ. cbn [words] in HS. rewrite tail_words_head, <- !app_assoc in HS.
  destruct (infix_prec _ _ _ Po) as (Ho & K4 & No & Hcase). destruct (Es _ _ Po) as [Es1 Es2]. pose proof (flat_chain _ _ _ Po) as Hfl.
  assert (J : stands (head_word r) (after_head r ++ l) /\ zin (next_kind (after_head r ++ l)) UNDERS = false).
  { destruct r as [op b|op b r]; cbn [head_word after_head proper_tail] in *; rewrite <- ?app_assoc.
    - destruct Pr as (J & _ & Pb). destruct (joins_stands _ _ _ l J Pb) as (_ & J2 & J3). auto.
    - destruct Pr as (J & _ & Pb & _). destruct (joins_stands _ _ _ (tail_words r ++ l) J Pb) as (_ & J2 & J3). auto. }
  destruct J as [J1 J2]. destruct (stands_kind _ _ _ Ho J1 J2) as [Sk Pk].
  assert (Fl : flush (written (head_word r) ++ after_head r ++ l)) by (apply (flush_join _ p); rewrite Sk; apply Ho).
  apply (Ha k W C G z u (written (head_word r) ++ after_head r ++ l)); auto; [apply closes_flush; auto; rewrite Sk; exact Ea|apply fine_flush; auto|]. intros k1 z1 n G1 A1 S1 P1.
  eapply (climb_go o dbg base) with (l := written (head_word r) ++ after_head r ++ l) (p := p); auto; [rewrite Sk; apply Ho|apply (Bt _ _ Po)|].
  intros k2 ts v z2 G2 Hts HS2. apply LW_run. clear k2. intros k2. cbn [answer]. unfold parse_infix. rewrite mark_kind, (se_kind _ _ _ _ _ HS2), Sk.
  assert (U : LW (push_syntax_and_next dbg (mark v) ;; operand_loop k2 o')%parser (mkp z2 (W ++ ([n] ++ map Tok ts)) (mkctx p (length W) :: C) G) Q).
  { apply LW_bind. eapply S_mark; eauto. intros z3 t f3 G3 A3 W3 P3. rewrite <- app_assoc. eapply (Hr k2 p o' W C G z3 f3 _ [n] l); eauto; [lia| |].
    - exists t. rewrite !parts_app, Hts, P1, P3. auto.
    - intros k3 z4 ch' ps G4 A4 P4 S4. apply HQ; auto. cbn [shows]. exists p, o', ch', n, ps. auto. }
  unfold operand_loop, loop_of in U. destruct Hcase as [(Ei & -> & _)|(Ei & Nt)]; rewrite Ei; [exact U|]. apply Z.eqb_neq in Nt. rewrite Nt in U. exact U.
Qed.
Lemma last_claim : forall w b, claim b -> claim_tail (Last w b).
Proof.
  intros w b Hb k p op W C G z f ch m l Q (J & Bb & Pb) No Hp Eb Ap Es Ne Ne2 Pl Hg Ha (t & Pc & Wt) HQ. cbn [after_head tail_ends tail_apart head_word] in *. pose proof (conj Eb Ap) as Cb. pose proof (first_line b l Pb) as Fb. unfold operand_loop. apply LW_bind. eapply S_eat; eauto.
  intros ts u z1 G1 Hts HS. apply LW_bind. eapply operand; eauto. intros z2 n G2 A2 S2 P2. rewrite <- !app_assoc. eapply chain_stop; eauto. intros k3 z3 G3 A3. eapply HQ with (ps := [t; n]); eauto.
  - rewrite !parts_app, Hts, P2, Pc, <- app_assoc. reflexivity.
  - cbn [shows_tail]. eauto.
Qed.
Lemma then_claim : forall w b r, claim b -> claim_tail r -> claim_tail (Then w b r).
Proof.
  intros w b r Hb Hr k p op W C G z f ch m l Q (J & Bb & Pb & Eb & Sb & Pr) No Hp Er Ap Es Ne Ne2 Pl Hg Ha (t & Pc & Wt) HQ. cbn [after_head tail_ends tail_apart head_word] in *. rewrite tail_words_head, <- !app_assoc in Ha.
  assert (Jr : (exists q, as_infix (fst (head_word r)) = Some (q, op)) /\ stands (head_word r) (after_head r ++ l) /\ zin (next_kind (after_head r ++ l)) UNDERS = false).
  { destruct r as [op' b'|op' b' r]; cbn [head_word after_head proper_tail] in *; rewrite <- ?app_assoc.
    - destruct Pr as (J' & _ & Pb'). exact (joins_stands _ _ _ l J' Pb').
    - destruct Pr as (J' & _ & Pb' & _). exact (joins_stands _ _ _ (tail_words r ++ l) J' Pb'). }
  destruct Jr as ([q Pq] & J1 & J2). destruct (infix_prec _ _ _ Pq) as (Ho & _ & _ & _). destruct (stands_kind _ _ _ Ho J1 J2) as [Sk Pk].
  assert (Fl : flush (written (head_word r) ++ after_head r ++ l)) by (apply (flush_join _ q); rewrite Sk; apply Ho). pose proof (first_line b (written (head_word r) ++ after_head r ++ l) Pb) as Fb.
  unfold operand_loop. apply LW_bind. eapply S_eat; eauto. intros ts u z1 G1 Hts HS. apply LW_bind. eapply operand with (l := written (head_word r) ++ after_head r ++ l); eauto; [apply closes_flush; auto; rewrite Sk; exact Eb|rewrite Sk; exact Sb|apply fine_flush; auto|]. intros z2 n G2 A2 S2 P2.
  rewrite <- !app_assoc. eapply chain_go; eauto. intros k3 z3 ts3 t3 f3 G3 A3 Hts3 W3 P3. rewrite <- !app_assoc. eapply (Hr k3 p op W C G z3 f3 _ (m ++ [t; n]) l); eauto.
  - exists t3. rewrite !parts_app, Hts, Hts3, P2, P3, Pc, <- !app_assoc. auto.
  - intros k4 z4 ch' ps G4 A4 P4 S4. eapply HQ with (ps := t :: n :: ps); eauto; [rewrite P4, <- app_assoc; reflexivity|]. cbn [shows_tail]. eauto 10.
Qed.

Lemma item : forall b k W C G z f ch l (Q : unit -> pst -> Prop), claim b -> proper b -> finish (next_kind l) -> plain_kind (next_kind l) = true -> seen_kind (next_kind l) = next_kind l -> joining_precedence (next_kind l) = None \/ next_kind l = TK_Comma ->
  flush l -> good z -> at_words G f (here z) (words b ++ l) ->
  (forall z' ts n, good z' -> at_words G false (here z') l -> parts (map Tok ts) = [] -> shows b n -> parts [n] = [n] -> Q tt (mkp z' (W ++ ch ++ map Tok ts ++ [n]) (mkctx PREC_COMMA (length W) :: C) G)) ->
  LW (comma_operand o dbg (run k)) (mkp z (W ++ ch) (mkctx PREC_COMMA (length W) :: C) G) Q.
Proof.
  intros b k W C G z f ch l Q Hb Pb Hf Pl Sk Hj Fl Hg Ha HQ. pose proof (first_line b l Pb) as Fb. unfold comma_operand. apply LW_bind. eapply S_eat; eauto. intros ts u z1 G1 Hts HS.
  assert (N : is_comma (t_kind u) = false) by (rewrite (se_kind _ _ _ _ _ HS), first_words; apply starter_facts, starter_kind; exact Pb). rewrite N.
  eapply operand; eauto; rewrite ?Sk.
  - cbn [c_prec]. apply low_begins; auto.
  - apply closes_flush; auto. rewrite Sk. apply finish_ends; auto.
  - cbn [c_prec]. intros q E. destruct Hj as [Hj|Hj]; rewrite Hj in E; [discriminate E|]. injection E as <-. right. split; reflexivity.
  - apply fine_flush; auto.
  - cbn [c_prec]. vm_compute. discriminate.
  - intros z2 n G2 A2 S2 P2. rewrite <- !app_assoc. apply HQ; auto.
Qed.
Lemma last_list : forall w b, claim b -> claim_list (Last w b).
Proof.
  intros w b Hb k W C G z f ch m l Q (Hw & Pb) Hcl Hg Ha (t & Pc & Wt) HQ. pose proof (flush_closer l Hcl) as Fl. cbn [after_head head_word] in *. destruct (finish_closer _ Hcl) as (F1 & F2 & F3). destruct (closer_kind _ Hcl) as (_ & _ & Hj & Nc & _).
  unfold item_loop. apply LW_bind. eapply item; eauto. intros z2 ts n G2 A2 Hts S2 P2. eapply comma_stop; eauto. intros z3 G3 A3. eapply HQ with (ps := [t; n]); eauto.
  - rewrite !parts_app, Hts, P2, Pc, <- app_assoc. reflexivity.
  - cbn [shows_tail]. eauto.
Qed.
Lemma then_list : forall w b r, claim b -> claim_list r -> claim_list (Then w b r).
Proof.
  intros w b r Hb Hr k W C G z f ch m l Q (Hw & Pb & Pr) Hcl Hg Ha (t & Pc & Wt) HQ. cbn [after_head head_word] in *.
  assert (Hw2 : comma (head_word r)) by (destruct r as [op' b'|op' b' r]; exact (proj1 Pr)).
  assert (Ew : written (head_word r) = [head_word r]) by (unfold written; rewrite Hw2; reflexivity). rewrite tail_words_head, Ew, <- !app_assoc in Ha. cbn [app] in Ha.
  assert (Fl : flush (head_word r :: after_head r ++ l)) by (unfold flush; cbn [next_kind]; rewrite Hw2; discriminate).
  destruct finish_comma as (F1 & F2 & F3). unfold item_loop. apply LW_bind. eapply item with (l := head_word r :: after_head r ++ l); eauto; cbn [next_kind]; rewrite ?Hw2; auto.
  intros z2 ts n G2 A2 Hts S2 P2. eapply comma_go; eauto. intros k3 z3 ts3 t3 f3 G3 A3 Hts3 W3 P3. rewrite <- !app_assoc. eapply (Hr k3 W C G z3 f3 _ (m ++ [t; n]) l); eauto.
  - exists t3. rewrite !parts_app, Hts, Hts3, P2, P3, Pc, <- !app_assoc. auto.
  - intros z4 ch' ps G4 A4 P4 S4. eapply HQ with (ps := t :: n :: ps); eauto; [rewrite P4, <- app_assoc; reflexivity|]. cbn [shows_tail]. eauto 10.
Qed.
Lemma empty_claim : claim_body Empty.
Proof.
  intros k op c W C G z f ch closer l Q _ Hc Nc Hg Ha HQ. cbn [body_words app] in Ha. eapply group_end; eauto; [congruence|]. intros k' z' ch' t G' A' P' W'. eapply HQ with (ps := []); eauto. reflexivity.
Qed.
(** the first expression between brackets *)
Lemma first_in : forall a k op c W C G z f ch l (Q : unit -> pst -> Prop), claim a -> proper a -> finish (next_kind l) -> plain_kind (next_kind l) = true -> seen_kind (next_kind l) = next_kind l -> c <> Closer_AssertFalse ->
  flush l -> good z -> at_words (c :: G) f (here z) (words a ++ l) ->
  (forall k' k2 z' ts n, good z' -> at_words (c :: G) false (here z') l -> parts (map Tok ts) = [] -> shows a n -> parts [n] = [n] ->
    LW (run k' CClimb) (mkp z' ((W ++ ch ++ map Tok ts) ++ [n]) (mkctx 0 (length W) :: C) (c :: G)) (fun _ s => LW (run k2 (CGroupLoop op c)) s Q)) ->
  LW (run k (CGroupLoop op c)) (mkp z (W ++ ch) (mkctx 0 (length W) :: C) (c :: G)) Q.
Proof.
  intros a k op c W C G z f ch l Q Ha Pa Hf Pl Sk Nc Fl Hg Hz HQ. pose proof (first_line a l Pa) as Fa. apply LW_run. clear k. intros k. cbn [answer]. unfold group_loop. apply LW_bind. eapply S_current; eauto. intros ts u z1 G1 R1 St Hts HS. cbv beta iota.
  pose proof (se_kind _ _ _ _ _ HS) as Hk. rewrite first_words in Hk. pose proof (starter_kind _ Pa) as Sa. destruct (starter_facts _ Sa) as (_ & Ne & _ & _ & Nt).
  assert (B1 : TokenToCloser (t_kind u) =? c = false) by (apply Z.eqb_neq; rewrite Hk, Nt; congruence). assert (B2 : isCloser (t_kind u) = false) by (apply starter_closer; [exact (se_solid _ _ _ _ _ HS)|rewrite Hk; exact Sa]).
  assert (B3 : t_kind u =? TK_EndOfFile = false) by (apply Z.eqb_neq; rewrite Hk; exact Ne). rewrite B1, B2. apply LW_bind, L_trivia. rewrite B3. apply LW_bind. rewrite <- app_assoc.
  apply (Ha k (W ++ ch ++ map Tok ts) (mkctx 0 (length W) :: C) (c :: G) z1 u l); auto; rewrite ?Sk.
  - cbn [cprec c_prec]. apply low_begins; auto.
  - apply closes_flush; auto. rewrite Sk. apply finish_ends; auto.
  - apply fine_flush; auto.
  - cbn [cprec c_prec]. lia.
Qed.
Lemma single_claim : forall a, claim a -> claim_body (Single a).
Proof.
  intros a Ha k op c W C G z f ch closer l Q Pa Hc Nc Hg Hz HQ. cbn [body_words proper_body] in *. assert (Hcl : TokenToCloser (fst closer) <> Closer_AssertFalse) by congruence.
  destruct (finish_closer _ Hcl) as (F1 & F2 & F3). destruct (closer_kind _ Hcl) as (_ & _ & Hj & _ & _). pose proof (flush_closer (closer :: l) Hcl) as Fl. eapply (first_in a) with (l := closer :: l); eauto. intros k1 k2 z1 ts n G1 A1 Hts S1 P1.
  eapply (climb_stop o dbg base) with (l := closer :: l); eauto; [cbn [cprec c_prec]; lia|cbn [next_kind]; rewrite F3; intros q E; congruence|]. intros z2 G2 A2. rewrite <- !app_assoc. eapply group_end; eauto.
  intros k3 z3 ch' t G3 A3 P3 W3. eapply HQ with (ps := [n]); eauto; [|cbn [shows_body]; eauto]. rewrite P3, !parts_app, Hts, P1, <- !app_assoc. reflexivity.
Qed.
Lemma several_claim : forall a r, claim a -> claim_list r -> claim_body (Several a r).
Proof.
  intros a r Ha Hr k op c W C G z f ch closer l Q [Pa Pr] Hc Nc Hg Hz HQ. cbn [body_words] in *. assert (Hcl : TokenToCloser (fst closer) <> Closer_AssertFalse) by congruence.
  assert (Hw2 : comma (head_word r)) by (destruct r as [op' b'|op' b' r]; exact (proj1 Pr)).
  assert (Ew : written (head_word r) = [head_word r]) by (unfold written; rewrite Hw2; reflexivity). rewrite tail_words_head, Ew, <- !app_assoc in Hz. cbn [app] in Hz.
  assert (Fl : flush (head_word r :: after_head r ++ closer :: l)) by (unfold flush; cbn [next_kind]; rewrite Hw2; discriminate).
  destruct finish_comma as (F1 & F2 & F3). eapply (first_in a) with (l := head_word r :: after_head r ++ closer :: l); eauto; cbn [next_kind]; rewrite ?Hw2; auto.
  intros k1 k2 z1 ts n G1 A1 Hts S1 P1. eapply (climb_go o dbg base) with (l := head_word r :: after_head r ++ closer :: l) (p := PREC_COMMA); eauto; cbn [next_kind cprec c_prec]; rewrite ?Hw2, ?F3; auto.
  - intros [X|[X _]]; vm_compute in X; discriminate X.
  - intros k3 ts3 v z3 G3 Hts3 HS3. destruct (opened _ _ _ _ _ HS3) as (W1 & W2 & W3). unfold comma in Hw2. rewrite Hw2 in W3. unfold mark. rewrite W3. change (implicit TK_Comma) with false. cbv iota.
    apply LW_run. clear k3. intros k3. cbn [answer]. unfold parse_infix. rewrite W3. change (infix_of TK_Comma) with IP_Comma. cbv iota. unfold infix_comma. apply LW_bind, LW_debug. apply LW_bind. eapply S_next; eauto; [rewrite Hw2; apply flat_infix; exact I|].
    intros z4 G4 A4. rewrite <- app_assoc. eapply (Hr k3 (W ++ ch ++ map Tok ts) _ _ z4 _ _ [n] (closer :: l)); eauto.
    + exists (Tok v). rewrite !parts_app, Hts3, P1, W2. auto.
    + intros z5 ch' ps G5 A5 P5 S5. rewrite <- !app_assoc. eapply group_end; eauto. intros k6 z6 ch6 t6 G6 A6 P6 W6. eapply HQ with (ps := [Op KInfix IOP_CodeParser_Comma ch']); eauto.
      * rewrite P6, !parts_app, Hts, op_node, <- !app_assoc. reflexivity.
      * cbn [shows_body]. exists ch', n, ps. auto.
Qed.
(** brackets *)
Lemma group_of : forall k opener' op w b closer W C G z u l (Q : unit -> pst -> Prop), claim_body b -> prefix_of (fst w) = PP_Group opener' op -> bracketed w closer -> proper_body b ->
  good z -> sees G z u (w :: body_words b ++ closer :: l) ->
  (forall k' z' ch' ps t v, good z' -> at_words G false (here z') l -> parts ch' = t :: ps ++ [v] -> is_word w t -> shows_body b ps -> is_word closer v -> LW (run k' CClimb) (mkp z' (W ++ [Op KGroup op ch']) C G) Q) ->
  LW (prefix_group dbg (run k) opener' op u) (mkp z W C G) Q.
Proof.
  intros k opener' op w b closer W C G z u l Q Hb Pw Br Pb Hg HS HQ. destruct (opened _ _ _ _ _ HS) as (W1 & W2 & W3). rewrite <- W3 in Pw. destruct (group_facts u opener' op (se_solid _ _ _ _ _ HS) Pw) as (c & Hc1 & Hc2 & _ & _).
  unfold bracketed in Br. rewrite <- W3, Hc2 in Br. injection Br as Br. unfold prefix_group. apply LW_bind, LW_lift. intros c' E. rewrite Hc1 in E. injection E as <-. apply LW_bind, LW_lift. intros c' E. rewrite Hc2 in E. injection E as <-.
  apply LW_bind. intros [] s1 E. injection E as <-. cbn [tz stack ctxs groups]. apply LW_bind. eapply S_open; eauto; [rewrite <- W3; exact Hc2|]. intros z1 G1 A1. apply LW_bind, L_context. eapply Hb; eauto; [eapply opener_closer; eauto|].
  intros k' z' ch' ps t G' A' P' S' W'. rewrite W2 in P'. eapply HQ with (ps := ps); eauto. exact P'.
Qed.
Lemma group_claim : forall w b v, claim_body b -> claim (Group w b v).
Proof.
  intros w b v Hb k W C G z u l Q ((u' & op & Pw) & Br & Pb) _ _ _ _ Hg HS HQ. cbn [words] in HS. rewrite <- app_comm_cons, <- app_assoc in HS. cbn [app] in HS. destruct (opened _ _ _ _ _ HS) as (W1 & W2 & W3).
  apply LW_run. clear k. intros k. cbn [answer]. unfold parse_prefix. rewrite W3, Pw. eapply group_of; eauto. intros k' z' ch' ps t v' G' A' P' Wt Sb Wv. apply HQ; auto. cbn [shows]. exists u', op, ch', t, ps, v'. auto 10.
Qed.
Lemma call_group : forall k u op, solidk k = true -> infix_of k = IP_Call u op -> prefix_of k = PP_Group u op.
Proof.
  intros k u op Hs Hi. pose proof (solidk_infix _ Hs) as If. unfold infix_facts in If. rewrite Hi in If.
  apply andb_true_iff in If as [If _]. apply andb_true_iff in If as [If1 If2]. destruct (prefix_of k) as [| | | | | | |pp0 po0|opener' op'| | |i1 i2| | | | |u1 u2|] eqn:Ep; try discriminate.
  apply andb_true_iff in If1 as [E1 E2]. apply Z.eqb_eq in E1, E2. subst opener' op'. reflexivity.
Qed.
Lemma apply_claim : forall h w b v, claim h -> claim_body b -> claim (Apply h w b v).
Proof.
  intros h w b v Hh Hb k W C G z u l Q ((u' & op & Pw) & Br & Ph & Eh & Pb) [Bt Bh] _ [Pl Pl2] Hc Hg HS HQ. cbn [words] in HS. rewrite <- app_assoc, <- app_comm_cons, <- app_assoc in HS. cbn [app] in HS.
  destruct (call_op _ _ _ Pw) as (K1 & K2 & K3). assert (Se : seen_kind (fst w) = fst w) by (unfold seen_kind; rewrite K2; reflexivity).
  assert (Fl : flush (w :: body_words b ++ v :: l)) by (apply (flush_join _ PREC_CALL); cbn [next_kind]; rewrite Se; exact K3).
  apply (Hh k W C G z u (w :: body_words b ++ v :: l)); auto; [apply closes_flush; auto; cbn [next_kind]; rewrite Se; exact Eh|apply fine_flush; auto|]. intros k1 z1 n G1 A1 S1 P1.
  eapply (climb_go o dbg base) with (l := w :: body_words b ++ v :: l) (p := PREC_CALL); auto; [cbn [next_kind]; rewrite Se; exact K3|].
  intros k2 ts t z2 G2 Hts HS2. destruct (opened _ _ _ _ _ HS2) as (W1 & W2 & W3). unfold mark. rewrite W3, K2. apply LW_run. clear k2. intros k2. cbn [answer]. unfold parse_infix. rewrite W3, Pw. unfold infix_call.
  apply LW_bind, L_set. cbn [c_start]. apply LW_bind. assert (Pg : prefix_of (fst w) = PP_Group u' op) by (rewrite <- W3; apply call_group; [exact (se_solid _ _ _ _ _ HS2)|rewrite W3; exact Pw]).
  eapply (group_of k2 u' op w b v); eauto. intros k3 z3 ch' ps tw tv G3 A3 P3 Wt Sb Wv. eapply (climb_stop o dbg base) with (l := l); eauto; [cbn [cprec c_prec]; vm_compute; discriminate| |].
  - cbn [cprec c_prec]. intros q E. left. exact (plain_high _ _ Pl E).
  - intros z4 G4 A4. apply LW_bind. intros [] s' E. unfold reduce_call, pbind, pop_context, pop_node in E. cbn [ctxs tz stack groups c_start] in E.
    rewrite rev_app_distr in E. cbn [rev app tz stack ctxs groups] in E. rewrite rev_involutive in E. rewrite not_short, skipn_len, firstn_len in E.
    unfold plift in E. destruct (try_to_call_operator op) as [op'| |] eqn:Et; try discriminate E. cbn in E. injection E as <-. apply HQ; auto. cbn [shows].
    exists u', op, op', ([n] ++ map Tok ts), ch', n, tw, ps, tv. rewrite parts_app, P1, Hts. auto 12.
Qed.

Lemma claims : (forall e, claim e) /\ (forall r, claim_tail r /\ claim_list r) /\ (forall b, claim_body b).
Proof.
  apply expr_ind2.
  - apply leaf_claim.
  - intros; apply prefix_claim; auto.
  - intros; apply postfix_claim; auto.
  - intros; apply binary_claim; auto.
  - intros a Ha r [Hr _]. apply infix_claim; auto.
  - intros; apply group_claim; auto.
  - intros; apply apply_claim; auto.
  - intros w b Hb. split; [apply last_claim|apply last_list]; auto.
  - intros w b Hb r [Hr1 Hr2]. split; [apply then_claim|apply then_list]; auto.
  - exact empty_claim.
  - intros; apply single_claim; auto.
  - intros a Ha r [_ Hr]. apply several_claim; auto.
Qed.
End Follow.

(** ** Whole texts *)
Section Whole.
Variable o : opts.
Variable dbg : bool.
Variable base : st.
Variable repair : Z -> list cst -> res (list cst).
Local Notation good := (good o base).
Definition rest (es : list expr) : list word := match es with [] => [] | _ => line :: program_words es end.
Lemma program_cons : forall e r, program_words (e :: r) = words e ++ rest r.
Proof. intros e [|e' r]; cbn [program_words rest]; [rewrite app_nil_r|]; reflexivity. Qed.
Lemma rest_solid : forall e r, proper e -> solid (rest (e :: r)) = program_words (e :: r).
Proof. intros e r H. change (rest (e :: r)) with (line :: program_words (e :: r)). cbn [solid]. change (is_line line) with true. cbv iota. apply solid_flush. rewrite program_cons. apply first_line. exact H. Qed.
Lemma rest_line : forall r, rest r = [] \/ next_kind (rest r) = TK_ToplevelNewline.
Proof. intros [|e r]; auto. Qed.
Lemma finish_line : finish TK_ToplevelNewline /\ plain_kind TK_ToplevelNewline = true /\ seen_kind TK_ToplevelNewline = TK_ToplevelNewline.
Proof. split; [split; [left; reflexivity|reflexivity]|]. split; reflexivity. Qed.
Lemma rest_closes : forall e r, proper_program (e :: r) -> closes e (rest r) /\ fine (rest r) /\ joining_precedence (seen_kind (next_kind (rest r))) = None.
Proof.
  intros e r (Pe & Hn & Hr). destruct r as [|e' r].
  - destruct finish_eof as (F1 & F2 & F3). split; [apply closes_flush; [discriminate|]; cbn [rest next_kind]; rewrite F3; apply finish_ends; auto|]. split; [apply fine_flush; [discriminate|exact F2]|reflexivity].
  - destruct finish_line as (F1 & F2 & F3). destruct Hn as [Ha Hd]. destruct Hr as (Pe' & _). assert (K : next_kind (solid (rest (e' :: r))) = first_kind e') by (rewrite rest_solid, program_cons by exact Pe'; apply first_words).
    change (next_kind (rest (e' :: r))) with TK_ToplevelNewline. split; [|split; [split|reflexivity]].
    + split; [change (next_kind (rest (e' :: r))) with TK_ToplevelNewline; rewrite F3; apply finish_ends; auto|rewrite K; exact Ha].
    + exact F2.
    + rewrite K. apply starter_plain; [apply starter_kind; exact Pe'|exact Hd].
Qed.
Lemma loop_shows : forall k es f z x l s', good z -> proper_program es -> at_words [] f (here z) x -> x = program_words es \/ x = rest es -> parse_loop o dbg repair k (mkp z [] [] []) = Ok (l, s') -> Forall2 shows es (parts l).
Proof.
  induction k as [|k IH]; intros es f z x l s' Hg Pe Ha Hx E; [discriminate E|]. revert l s' E. change (LW (parse_loop o dbg repair (Datatypes.S k)) (mkp z [] [] []) (fun l _ => Forall2 shows es (parts l))). cbn [parse_loop].
  apply LW_bind, (L_peek o base); auto. intros t z1 G1 H1 HL R1. pose proof (looks_reads _ _ _ _ HL) as Hr. rewrite H1, qtop_as in Hr. change false with (isg []) in Hr.
  assert (T : forall f' x', isTrivia (t_kind t) = true -> at_words [] f' (past t) x' -> x' = program_words es \/ x' = rest es ->
    LW (if t_kind t =? TK_EndOfFile then pret [] else if isTrivia (t_kind t) then (pskip t ;; r <- parse_loop o dbg repair k ;; pret (Tok t :: r))%parser else pret []) (mkp z1 [] [] []) (fun l _ => Forall2 shows es (parts l))).
  { intros f' x' K A X'. assert (N : t_kind t <> TK_EndOfFile) by (intros X; rewrite X in K; discriminate K). pose proof N as N2. apply Z.eqb_neq in N2. rewrite N2, K. apply LW_bind. apply (L_skip o base (qtop []) z1 t); auto; [reflexivity|].
    intros z2 G2 H2 R2. apply LW_bind. intros l s E. apply LW_ret. unfold parts. cbn [filter trivia_leaf]. rewrite K. cbn [negb]. eapply (IH es f' z2 x'); eauto. rewrite H2. exact A. }
  destruct (at_reads o _ _ _ _ _ Ha Hr) as [(K & A & _)|[(K & w & x' & Ex & Kw & A)|(K & Kt & Kw)]].
  - specialize (T f x K A Hx). rewrite K in T |- *. exact T.
  - assert (K2 : isTrivia (t_kind t) = true) by (rewrite K; exact triv_line).
    assert (X' : x' = program_words es). { destruct es as [|e r]; [destruct Hx as [X|X]; rewrite X in Ex; discriminate Ex|]. destruct Hx as [X|X]; rewrite X in Ex; [|cbn [rest] in Ex; injection Ex as _ <-; reflexivity].
      exfalso. rewrite program_cons in Ex. apply (first_line e (rest r) (proj1 Pe)). rewrite Ex. cbn [next_kind]. apply Z.eqb_eq. exact Kw. }
    specialize (T true x' K2 A (or_introl X')). rewrite K2 in T |- *. exact T.
  - clear T. destruct es as [|e r].
    { assert (X : x = []) by (destruct Hx as [ -> | -> ]; reflexivity). rewrite K, X. change (next_kind [] =? TK_EndOfFile) with true. cbv iota. apply LW_ret. constructor. }
    assert (X : x = words e ++ rest r).
    { destruct Hx as [ -> | -> ]; [apply program_cons|]. exfalso. cbn [next_kind rest fst line] in K. rewrite K, triv_line in Kt. discriminate Kt. }
    subst x. clear Hx. destruct (rest_closes _ _ Pe) as (Cl1 & Fn & Jn). destruct Pe as (Pe & Hn & Pr).
    assert (Hs : solidk (t_kind t) = true) by (eapply reads_solid; eauto). pose proof (starter_kind _ Pe) as Sa. pose proof (first_words e (rest r)) as Fw. rewrite Fw in K. rewrite <- K in Sa.
    destruct (starter_facts _ Sa) as (_ & Ne & _). apply Z.eqb_neq in Ne. rewrite Ne, Kt, (starter_closer _ Hs Sa). apply LW_bind.
    assert (HS : sees o [] z1 t (words e ++ rest r)).
    { constructor; auto; [rewrite K; symmetry; exact Fw|rewrite H1; eapply at_more; exact Ha]. }
    intros u s1 E1. cbn beta in E1. pose proof (proj1 (claims o dbg base repair) e (depth_bound (mkp z1 [] [] [])) [] [] [] z1 t (rest r)) as Cl.
    assert (Q : exists z2 n, s1 = mkp z2 [n] [] [] /\ good z2 /\ at_words [] false (here z2) (rest r) /\ shows e n /\ parts [n] = [n]).
    { refine (Cl (fun _ s1 => exists z2 n, s1 = mkp z2 [n] [] [] /\ good z2 /\ at_words [] false (here z2) (rest r) /\ shows e n /\ parts [n] = [n]) Pe _ Cl1 Fn _ G1 HS _ u s1 E1).
      - apply low_begins; auto.
      - cbn [cprec]. lia.
      - intros k' z' n G' A' S' P'. eapply (climb_stop o dbg base) with (l := rest r); eauto; [apply Fn|cbn [cprec]; lia|intros q X; rewrite Jn in X; discriminate X|]. intros z2 G2 A2. exists z2, n. auto 10. }
    destruct Q as (z2 & n & -> & G2 & A2 & S2 & P2). apply LW_bind. intros m s2 E2. injection E2 as <- <-. apply LW_bind. intros v s3 E3. injection E3 as _ <-. apply LW_bind. intros l s E. apply LW_ret.
    apply (IH r _ _ _ _ _ G2 Pr A2 (or_intror eq_refl)) in E. change (n :: l) with ([n] ++ l). rewrite parts_app, P2. constructor; auto.
Qed.
End Whole.
Lemma program_shows : forall o dbg repair es input l s', 0 < o_tab_width o -> proper_program es -> spells 0 true (program_words es) input -> parse_cst_raw o dbg repair NotScript input = Ok (l, s') -> Forall2 shows es (parts l).
Proof.
  intros o dbg repair es input l s' Ht Pe Hs E. unfold parse_cst_raw, do_parse, pbind, tk, session_new in E. cbn [tz stack ctxs groups] in E.
  assert (G0 : good o (reader_new o input) (reader_new o input)).
  { split; [apply reader_new_Inv; auto|]. split; [apply R_refl|reflexivity]. }
  cbn [handle_first_line] in E. unfold ret in E. cbn [stack ctxs groups tz] in E. unfold pwith_fuel in E. cbn [tz] in E.
  match type of E with match ?x with _ => _ end = _ => destruct x as [[a t1]| |] eqn:P1; [|discriminate E|discriminate E] end.
  destruct (dbg && _); [discriminate E|]. injection E as <- <-. exact (loop_shows o dbg (reader_new o input) repair _ es true _ _ _ _ G0 Pe Hs (or_introl eq_refl) P1).
Qed.
