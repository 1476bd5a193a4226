(** Placeholders and colons: an invariant of the parser, by partial correctness. *)
From Coq Require Import ZArith List Bool Lia.
From Verif Require Import Base Source WLChar LongNames ByteDecoder CharDecoder Decode SpecText Iter
  TextProofs Logic LongNamesProofs WlDecode SpecReader ReaderProofs GenTokenKind TokenKind Format FormatProofs Tokenizer TokLogic
  TokenizerProofs SpecTokenizer TokenLoop TokSim TokAgree TokResults GenPrec GenOps GenParselets Parselets Cst SpecCst CstProofs Parser SpecParser SpecParse
  ParserLogic ParserRules ParserProofs ParserResults ParserTheorems SpecGaps.
Import ListNotations.
Local Open Scope Z_scope.

(** ** Tables *)
Definition other_infix (p : infix_parselet) : bool := match p with IP_Colon => false | _ => true end.
Definition place_facts (k : Z) : bool :=
  negb (zin k PLACEHOLDERS) &&
  match iprec (infix_of k) with
  | Some p => (2 <=? p) && (if p =? 2 then is_comma k else true) &&
      (if other_infix (infix_of k) then (p <? PREC_HIGHEST) && negb (p =? PREC_FAKE_PATTERNCOLON) else true)
  | None => true
  end &&
  match prefix_of k with
  | PP_PrefixOperator p op => (PREC_FAKE_PATTERNCOLON <? p) && (p <? PREC_HIGHEST) && negb (op =? PREOP_Get)
  | PP_Integral _ op => negb (op =? PREOP_Get)
  | PP_PrefixUnhandled => negb (isPossibleBeginning k) && negb (is_differential k) && negb (is_comma k) &&
      match infix_of k with
      | IP_Call _ _ | IP_SemiSemi | IP_Comma | IP_InfixImplicitTimes | IP_InfixAssertFalse | IP_InfixDifferentialD | IP_InfixToplevelNewline => false
      | _ => true
      end
  | PP_PrefixComma => negb (isPossibleBeginning k) && negb (is_differential k)
  | PP_PrefixCloser | PP_PrefixEndOfFile => negb (isPossibleBeginning k) && negb (is_differential k) && (isCloser k || (k =? TK_EndOfFile))
  | _ => true
  end &&
  match infix_of k with
  | IP_BinaryOperator _ op => negb (zin op [BOP_Pattern; BOP_Optional; BOP_Span; BOP_Put; BOP_PutAppend; BOP_Unset])
  | IP_InfixOperator _ op => negb (zin op [IOP_CodeParser_Comma; IOP_CompoundExpression; IOP_MessageName])
  | _ => true
  end &&
  (if is_comma k then match prefix_of k, infix_of k with PP_PrefixComma, IP_Comma => true | _, _ => false end
   else match prefix_of k, infix_of k with PP_PrefixComma, _ | _, IP_Comma => false | _, _ => true end).
Lemma place_facts_all : forallb place_facts SOLID_KINDS = true.
Proof. vm_compute. reflexivity. Qed.
Lemma pf : forall k, solidk k = true -> place_facts k = true.
Proof. exact (solidk_forall _ place_facts_all). Qed.
Ltac splitb H := repeat (apply andb_true_iff in H as [H ?]).
Lemma solid_plain : forall k, solidk k = true -> zin k PLACEHOLDERS = false.
Proof. intros k H. apply pf in H. unfold place_facts in H. do 4 apply andb_true_iff in H as [H _]. apply negb_true_iff in H. exact H. Qed.
Lemma solid_iprec : forall k p, solidk k = true -> iprec (infix_of k) = Some p ->
  2 <= p /\ (p = 2 -> is_comma k = true) /\ (infix_of k <> IP_Colon -> p < PREC_HIGHEST /\ p <> PREC_FAKE_PATTERNCOLON).
Proof.
  intros k p H Hp. apply pf in H. unfold place_facts in H. do 3 apply andb_true_iff in H as [H _]. apply andb_true_iff in H as [_ H]. rewrite Hp in H.
  apply andb_true_iff in H as [H H3]. apply andb_true_iff in H as [H1 H2]. apply Z.leb_le in H1. split; [exact H1|]. split.
  - intros ->. exact H2.
  - intros N. assert (X : other_infix (infix_of k) = true) by (destruct (infix_of k); auto; contradiction). rewrite X in H3. apply andb_true_iff in H3 as [H3 H4].
    apply Z.ltb_lt in H3. apply negb_true_iff, Z.eqb_neq in H4. auto.
Qed.
Lemma solid_prefix : forall k, solidk k = true -> match prefix_of k with
  | PP_PrefixOperator p op => PREC_FAKE_PATTERNCOLON < p < PREC_HIGHEST /\ op <> PREOP_Get
  | PP_Integral _ op => op <> PREOP_Get
  | PP_PrefixUnhandled => isPossibleBeginning k = false /\ is_differential k = false /\ is_comma k = false /\
      match infix_of k with
      | IP_Call _ _ | IP_SemiSemi | IP_Comma | IP_InfixImplicitTimes | IP_InfixAssertFalse | IP_InfixDifferentialD | IP_InfixToplevelNewline => False
      | _ => True
      end
  | PP_PrefixComma => isPossibleBeginning k = false /\ is_differential k = false
  | PP_PrefixCloser | PP_PrefixEndOfFile => isPossibleBeginning k = false /\ is_differential k = false /\ (isCloser k = true \/ k = TK_EndOfFile)
  | _ => True
  end.
Proof.
  intros k H. apply pf in H. unfold place_facts in H. do 2 apply andb_true_iff in H as [H _]. apply andb_true_iff in H as [_ H].
  destruct (prefix_of k); auto; try exact I.
  - splitb H. repeat match goal with X : negb _ = true |- _ => apply negb_true_iff in X end. split; auto. split; auto. apply orb_true_iff in H0 as [X|X]; auto. right. apply Z.eqb_eq. exact X.
  - splitb H. repeat match goal with X : negb _ = true |- _ => apply negb_true_iff in X end. split; auto. split; auto. apply orb_true_iff in H0 as [X|X]; auto. right. apply Z.eqb_eq. exact X.
  - splitb H. repeat match goal with X : negb _ = true |- _ => apply negb_true_iff in X end. split; auto.
  - splitb H. repeat match goal with X : negb _ = true |- _ => apply negb_true_iff in X end. split; auto. split; auto. split; auto. destruct (infix_of k); auto; discriminate.
  - splitb H. repeat match goal with X : negb _ = true |- _ => apply negb_true_iff in X end. apply Z.ltb_lt in H. apply Z.ltb_lt in H1. apply Z.eqb_neq in H0. auto.
  - apply negb_true_iff, Z.eqb_neq in H. exact H.
Qed.
Lemma solid_op : forall k, solidk k = true -> match infix_of k with
  | IP_BinaryOperator _ op => ~ In op [BOP_Pattern; BOP_Optional; BOP_Span; BOP_Put; BOP_PutAppend; BOP_Unset]
  | IP_InfixOperator _ op => ~ In op [IOP_CodeParser_Comma; IOP_CompoundExpression; IOP_MessageName]
  | _ => True
  end.
Proof.
  intros k H. apply pf in H. unfold place_facts in H. apply andb_true_iff in H as [H _]. apply andb_true_iff in H as [_ H].
  destruct (infix_of k); auto; apply negb_true_iff in H; intros X; apply zin_In in X; congruence.
Qed.
Lemma solid_comma : forall k, solidk k = true -> (is_comma k = true <-> prefix_of k = PP_PrefixComma) /\ (is_comma k = true <-> infix_of k = IP_Comma).
Proof.
  intros k H. apply pf in H. unfold place_facts in H. apply andb_true_iff in H as [_ H].
  destruct (is_comma k); destruct (prefix_of k); destruct (infix_of k); try discriminate H; split; split; intros X; try discriminate X; auto.
Qed.

(** ** Nodes *)
Definition locals (n : cst) : Prop := placeholders_ok n /\ colon_sides n /\ colon_right n /\ colon_left n.
Definition fine (n : cst) : Prop := Forall locals (nodes n).
Lemma fine_node : forall n, locals n -> Forall fine (children n) -> fine n.
Proof.
  intros n H1 H2. unfold fine. rewrite nodes_eq. constructor; auto. apply Forall_flat_map. exact H2.
Qed.
Lemma fine_inv : forall n, fine n -> locals n /\ Forall fine (children n).
Proof. intros n H. unfold fine in H. rewrite nodes_eq in H. apply Forall_cons_iff in H as [H1 H2]. split; auto. apply Forall_flat_map in H2. exact H2. Qed.
Lemma locals_tok : forall t, locals (Tok t).
Proof.
  intros t. split; [exact I|]. split; [intros ch a r; split; [|split]; intros X; discriminate X|]. split.
  - intros ch a u b H. exfalso. destruct H as [X|X]; discriminate X.
  - intros ch a r H. exfalso. destruct H as [X|[X|X]]; discriminate X.
Qed.
Lemma fine_tok : forall t, fine (Tok t).
Proof. intros t. apply fine_node; [apply locals_tok|constructor]. Qed.
Lemma fine_toks : forall l, Forall fine (map Tok l).
Proof. induction l; cbn; constructor; auto using fine_tok. Qed.
Lemma no_colon_tok : forall t, no_colon (Tok t).
Proof. intros t m H [[ch X]|[[ch X]|[ch X]]]; inversion H; subst; discriminate. Qed.
Lemma no_colon_toks : forall l, Forall no_colon (map Tok l).
Proof. induction l; cbn; constructor; auto using no_colon_tok. Qed.

(** nodes other than those of a colon *)
Definition not_colon (n : cst) : Prop := forall ch, n <> Op KBinary BOP_Pattern ch /\ n <> Op KBinary BOP_Optional ch /\ n <> SynErr ExpectedSymbol ch.
Lemma not_colon_node : forall n, not_colon n -> ~ colon_node n.
Proof. intros n H [[ch X]|[[ch X]|[ch X]]]; destruct (H ch) as (H1 & H2 & H3); contradiction. Qed.
Lemma locals_other : forall n, not_colon n -> placeholders_ok n -> locals n.
Proof.
  intros n H P. split; auto. split; [|split].
  - intros ch a r. destruct (H ch) as (H1 & H2 & H3). repeat split; intros; contradiction.
  - intros ch a t b X. destruct (H ch) as (H1 & H2 & H3). destruct X; contradiction.
  - intros ch a r X. destruct (H ch) as (H1 & H2 & H3). destruct X as [X|[X|X]]; contradiction.
Qed.
Lemma no_colon_op : forall kd op ch, not_colon (Op kd op ch) -> Forall no_colon ch -> no_colon (Op kd op ch).
Proof.
  intros kd op ch H F m X. rewrite Forall_forall in F. inversion X as [n0|kd0 op0 ch0 c m0 N1 N2 I1 X1| |]; subst.
  - apply not_colon_node; auto.
  - exact (F c I1 m X1).
Qed.
Lemma no_colon_err : forall e ch, not_colon (SynErr e ch) -> Forall no_colon ch -> no_colon (SynErr e ch).
Proof.
  intros kd ch H F m X. rewrite Forall_forall in F. inversion X as [n0| |e0 ch0 c m0 I1 X1|]; subst.
  - apply not_colon_node; auto.
  - exact (F c I1 m X1).
Qed.
Lemma no_colon_call : forall l missing op ch, Forall no_colon l -> no_colon (Call (Concrete l) missing op ch).
Proof.
  intros l missing op ch F m X. rewrite Forall_forall in F. inversion X as [n0| | |l0 m0 op0 ch0 c m1 I1 X1]; subst.
  - intros [[ch' Y]|[[ch' Y]|[ch' Y]]]; discriminate Y.
  - exact (F c I1 m X1).
Qed.
Lemma no_colon_group : forall kd op ch, kd = KGroup \/ kd = KGroupMissingCloser -> no_colon (Op kd op ch).
Proof.
  intros kd op ch H m X. inversion X as [n0|kd0 op0 ch0 c m0 N1 N2 I1 X1| |]; subst.
  - intros [[ch' Y]|[[ch' Y]|[ch' Y]]]; destruct H; subst; discriminate Y.
  - destruct H; contradiction.
Qed.

(** seats *)
Definition seated (kd : opkind) (op : Z) (ps : list cst) : Prop := forall i a, nth_error ps i = Some a -> sits (seat kd op i) a.
Lemma seated_nil : forall kd op, seated kd op [].
Proof. intros kd op i a H. destruct i; discriminate H. Qed.
Lemma seated_snoc : forall kd op ps b, seated kd op ps -> sits (seat kd op (length ps)) b -> seated kd op (ps ++ [b]).
Proof.
  intros kd op ps b H Hb i a E. destruct (Nat.lt_ge_cases i (length ps)) as [L|L].
  - rewrite nth_error_app1 in E by auto. exact (H i a E).
  - rewrite nth_error_app2 in E by auto. destruct (Nat.eq_dec i (length ps)) as [->|N].
    + rewrite Nat.sub_diag in E. injection E as <-. exact Hb.
    + replace (i - length ps)%nat with (S (i - length ps - 1)) in E by lia. destruct (i - length ps - 1)%nat; discriminate E.
Qed.
Lemma sits_none : forall ks n, placeholder n = None -> sits ks n.
Proof. intros ks n H k X. congruence. Qed.
Lemma placeholder_solid : forall t, solidk (t_kind t) = true -> placeholder (Tok t) = None.
Proof. intros t H. cbn [placeholder]. rewrite solid_plain; auto. Qed.
Lemma placeholder_at : forall k t, zin k PLACEHOLDERS = true -> placeholder (Tok (tok_at_start k t)) = Some k.
Proof. intros k t H. cbn [placeholder]. change (t_kind (tok_at_start k t)) with k. rewrite H. reflexivity. Qed.

(** ** Contexts *)
Local Notation chk := check_pattern_precedence.
Lemma chk_prec : forall C, chk C = true -> PREC_FAKE_PATTERNCOLON <= cprec C.
Proof.
  intros [|c C] H; [discriminate|]. cbn [chk cprec] in *. destruct (c_prec c =? 0); [discriminate|].
  destruct (PREC_FAKE_PATTERNCOLON <? c_prec c) eqn:E; [apply Z.ltb_lt in E; lia|]. destruct (c_prec c <? PREC_FAKE_PATTERNCOLON) eqn:E2; [discriminate|]. apply Z.ltb_ge in E2. exact E2.
Qed.
Lemma chk_greater : forall C, chk C = true -> prec_greater (cprec C) PREC_FAKE_OPTIONALCOLON = true.
Proof. intros C H. apply chk_prec in H. unfold prec_greater. rewrite lor_one. apply Z.ltb_lt. unfold PREC_FAKE_PATTERNCOLON, PREC_FAKE_OPTIONALCOLON in *. destruct (Z.odd (cprec C)); lia. Qed.
Lemma chk_push : forall q n C, chk C = true -> PREC_FAKE_PATTERNCOLON <= q -> chk (mkctx q n :: C) = true.
Proof.
  intros q n C H Hq. cbn [chk c_prec]. replace (q =? 0) with false by (symmetry; apply Z.eqb_neq; unfold PREC_FAKE_PATTERNCOLON in *; lia).
  destruct (PREC_FAKE_PATTERNCOLON <? q); auto. replace (q <? PREC_FAKE_PATTERNCOLON) with false by (symmetry; apply Z.ltb_ge; exact Hq). reflexivity.
Qed.
Lemma chk_taken : forall q n C, chk C = true -> prec_greater (cprec C) q = false -> chk (mkctx q n :: C) = true.
Proof. intros q n C H Hq. apply chk_push; auto. pose proof (chk_prec _ H). apply not_greater in Hq. lia. Qed.
Lemma chk_pop : forall q n C, chk C = false -> q <> PREC_FAKE_PATTERNCOLON -> chk (mkctx q n :: C) = false.
Proof.
  intros q n C H Hq. cbn [chk c_prec]. destruct (q =? 0); auto. destruct (Z.ltb_spec PREC_FAKE_PATTERNCOLON q); auto. destruct (Z.ltb_spec q PREC_FAKE_PATTERNCOLON); auto. lia.
Qed.

Section Places.
Variable o : opts.
Variable dbg : bool.
Variable base : st.
Local Notation good := (good o base).
Local Notation follows := (follows o).
Variable run : call -> P unit.

Definition LW {A} (m : P A) (s : pst) (Q : A -> pst -> Prop) : Prop := forall a s', m s = Ok (a, s') -> Q a s'.
Lemma LW_PW : forall A (m : P A) s Q, PW True m s Q -> LW m s Q.
Proof. intros A m s Q H a s' E. unfold PW in H. rewrite E in H. exact H. Qed.
Lemma LW_bind : forall A B (m : P A) (k : A -> P B) s Q, LW m s (fun a s' => LW (k a) s' Q) -> LW (pbind m k) s Q.
Proof. intros A B m k s Q H b s' E. unfold pbind in E. destruct (m s) as [[a s1]| |] eqn:Em; try discriminate. exact (H a s1 Em b s' E). Qed.
Lemma LW_ret : forall A (a : A) s (Q : A -> pst -> Prop), Q a s -> LW (pret a) s Q.
Proof. intros A a s Q H b s' E. injection E as <- <-. exact H. Qed.
Lemma LW_conseq : forall A (m : P A) s (Q Q' : A -> pst -> Prop), LW m s Q -> (forall a s', Q a s' -> Q' a s') -> LW m s Q'.
Proof. intros A m s Q Q' H HQ a s' E. apply HQ. exact (H a s' E). Qed.
Lemma LW_assert : forall b s (Q : unit -> pst -> Prop), (b = true -> Q tt s) -> LW (passert b) s Q.
Proof. intros b s Q H a s' E. destruct b; [|discriminate]. injection E as <- <-. auto. Qed.
Lemma LW_debug : forall b s (Q : unit -> pst -> Prop), Q tt s -> LW (pdebug_assert dbg b) s Q.
Proof. intros b s Q H. unfold pdebug_assert. destruct dbg; [apply LW_assert; auto|apply LW_ret; auto]. Qed.
Lemma LW_lift : forall A (r : res A) s (Q : A -> pst -> Prop), (forall a, r = Ok a -> Q a s) -> LW (plift r) s Q.
Proof. intros A r s Q H a s' E. unfold plift in E. destruct r; try discriminate. injection E as <- <-. auto. Qed.

Lemma L_peek : forall z S C G (Q : token -> pst -> Prop), good z ->
  (forall t z', good z' -> here z' = here z -> looks o (qtop G) z' t -> R o z z' -> Q t (mkp z' S C G)) -> LW (ppeek o) (mkp z S C G) Q.
Proof. intros z S C G Q Hg H. apply LW_PW. apply (PW_peek o base True (fun _ => I)); auto. Qed.
Lemma L_ask : forall q z S C G (Q : token -> pst -> Prop), good z -> plain_request q ->
  (forall t z', good z' -> here z' = here z -> looks o q z' t -> R o z z' -> Q t (mkp z' S C G)) -> LW (tk (ask o q)) (mkp z S C G) Q.
Proof. intros q z S C G Q Hg Hq H. apply LW_PW. apply (PW_ask o base True (fun _ => I)); auto. Qed.
Lemma L_skip : forall q z t S C G (Q : unit -> pst -> Prop), good z -> plain_request q -> looks o q z t -> t_kind t <> TK_EndOfFile ->
  (forall z', good z' -> here z' = past t -> R o z z' -> Q tt (mkp z' S C G)) -> LW (pskip t) (mkp z S C G) Q.
Proof. intros q z t S C G Q Hg Hq HL N H. apply LW_PW. apply (PW_skip o base True q); auto. Qed.
Lemma L_current : forall z S C G (Q : list token * token -> pst -> Prop), good z ->
  (forall l t z', good z' -> R o z z' -> strip o (qtop G) isTrivia (here z) l t (here z') -> looks o (qtop G) z' t -> solidk (t_kind t) = true -> Q (l, t) (mkp z' S C G)) ->
  LW (current_token o dbg) (mkp z S C G) Q.
Proof.
  intros z S C G Q Hg H. apply LW_PW. apply (PW_current o dbg base True (fun _ => I)); auto. intros l t z' G' R' St HL. apply H; auto.
  destruct (strip_place _ _ _ _ _ _ _ St) as (Hr & Ht & _). eapply reads_solid; eauto.
Qed.
Lemma L_current_nl : forall z S C G (Q : list token * token -> pst -> Prop), good z ->
  (forall l t z', good z' -> R o z z' -> strip o (qtop G) isTriviaButNotToplevelNewline (here z) l t (here z') -> looks o (qtop G) z' t ->
     (solidk (t_kind t) = true \/ t_kind t = TK_ToplevelNewline) -> Q (l, t) (mkp z' S C G)) ->
  LW (current_token_not_newline o) (mkp z S C G) Q.
Proof.
  intros z S C G Q Hg H. apply LW_PW. apply (PW_current_nl o base True (fun _ => I)); auto. intros l t z' G' R' St HL. apply H; auto.
  destruct (strip_place _ _ _ _ _ _ _ St) as (Hr & Ht & _). eapply reads_newline; eauto.
Qed.
Lemma L_back : forall q triv z z' l t S C G (Q : unit -> pst -> Prop), plain_request q -> good z -> good z' -> R o z z' -> strip o q triv (here z) l t (here z') ->
  (forall z2, good z2 -> here z2 = here z -> R o z z2 -> Q tt (mkp z2 S C G)) -> LW (trivia_reset l) (mkp z' S C G) Q.
Proof.
  intros q triv z z' l t S C G Q Hq Hg Hg' HR St H. apply LW_PW. apply (PW_trivia_reset o base True q triv z z' l t); auto. intros z2 G2 H2 L2. apply H; auto.
  eapply (R_here o z z z'); eauto. apply R_refl.
Qed.
Lemma L_reset : forall z z' t S C G (Q : unit -> pst -> Prop), good z -> good z' -> R o z z' -> looks o (qtop G) z t ->
  (forall z2, good z2 -> here z2 = here z -> R o z z2 -> Q tt (mkp z2 S C G)) -> LW (preset t) (mkp z' S C G) Q.
Proof.
  intros z z' t S C G Q Hg Hg' HR HL H. destruct (tok_start o (qtop G) _ t eq_refl (looks_reads _ _ _ _ HL)) as [E1 E2].
  apply LW_PW. apply (PW_reset o base True z z'); auto. intros z2 G2 H2 L2. apply H; auto. eapply (R_here o z z z'); eauto. apply R_refl.
Qed.
Lemma L_push : forall n z st C G (Q : unit -> pst -> Prop), Q tt (mkp z (st ++ [n]) C G) -> LW (push_node n) (mkp z st C G) Q.
Proof. intros n z st C G Q H a s' E. injection E as <- <-. exact H. Qed.
Lemma L_leaf : forall t z st C G (Q : unit -> pst -> Prop), Q tt (mkp z (st ++ [Tok t]) C G) -> LW (push_leaf dbg t) (mkp z st C G) Q.
Proof. intros t z st C G Q H. unfold push_leaf. apply LW_bind, LW_debug, L_push. exact H. Qed.
Lemma L_syntax : forall t z st C G (Q : unit -> pst -> Prop), Q tt (mkp z (st ++ [Tok t]) C G) -> LW (push_syntax dbg t) (mkp z st C G) Q.
Proof. intros t z st C G Q H. unfold push_syntax. apply LW_bind, LW_debug, L_push. exact H. Qed.
Lemma L_trivia : forall l z st C G (Q : unit -> pst -> Prop), Q tt (mkp z (st ++ map Tok l) C G) -> LW (push_trivia l) (mkp z st C G) Q.
Proof. intros l z st C G Q H a s' E. injection E as <- <-. exact H. Qed.
Lemma L_context : forall p n z st C G (Q : unit -> pst -> Prop), Q tt (mkp z (st ++ [n]) (mkctx p (length st) :: C) G) -> LW (push_context p) (mkp z (st ++ [n]) C G) Q.
Proof. intros. apply LW_PW. apply PW_push_context. auto. Qed.
Lemma L_set : forall p c C z st G (Q : unit -> pst -> Prop), Q tt (mkp z st (mkctx p (c_start c) :: C) G) -> LW (set_prec p) (mkp z st (c :: C) G) Q.
Proof. intros. apply LW_PW. apply PW_set_prec. auto. Qed.
Lemma L_reduce : forall k op p z st ch C G (Q : unit -> pst -> Prop), Q tt (mkp z (st ++ [Op k op ch]) C G) -> LW (reduce_op k op) (mkp z (st ++ ch) (mkctx p (length st) :: C) G) Q.
Proof.
  intros k op p z st ch C G Q H. unfold reduce_op. apply LW_bind. apply LW_PW. apply PW_reduce. apply LW_bind, LW_assert. intros _. apply L_push. exact H.
Qed.
Lemma L_reduce_error : forall e p z st ch C G (Q : unit -> pst -> Prop), Q tt (mkp z (st ++ [SynErr e ch]) C G) -> LW (reduce_syntax_error e) (mkp z (st ++ ch) (mkctx p (length st) :: C) G) Q.
Proof.
  intros k p z st ch C G Q H. unfold reduce_syntax_error. apply LW_bind. apply LW_PW. apply PW_reduce. apply LW_bind, LW_assert. intros _. apply L_push. exact H.
Qed.

(** ** Frames *)
Record fl (C : list ctx) (z : st) (ch ps : list cst) : Prop := mkfl {
  fl_good : good z; fl_parts : parts ch = ps; fl_fine : Forall fine ch; fl_plain : chk C = true -> Forall no_colon ch }.

Lemma fl_move : forall C z z' ch ps, fl C z ch ps -> good z' -> fl C z' ch ps.
Proof. intros C z z' ch ps [A B D W] G. constructor; auto. Qed.
Lemma fl_trivia : forall triv C z z' ch ps q l t p p', (forall kd, triv kd = true -> isTrivia kd = true) -> fl C z ch ps -> good z' -> strip o q triv p l t p' -> fl C z' (ch ++ map Tok l) ps.
Proof.
  intros triv C z z' ch ps q l t p p' Ht [A B D W] G St. destruct (strip_place _ _ _ _ _ _ _ St) as (_ & _ & HT). constructor; auto.
  - rewrite parts_app, B, parts_trivia, app_nil_r; auto. eapply Forall_impl; [|exact HT]. auto.
  - apply Forall_app. auto using fine_toks.
  - intros X. apply Forall_app. auto using no_colon_toks.
Qed.
Lemma fl_snoc : forall C z z' ch ps n, fl C z ch ps -> good z' -> trivia_leaf n = false -> fine n -> (chk C = true -> no_colon n) -> fl C z' (ch ++ [n]) (ps ++ [n]).
Proof.
  intros C z z' ch ps n [A B D W] G T F N. constructor; auto.
  - rewrite parts_app, B, parts_solid; auto.
  - apply Forall_app; auto.
  - intros X. apply Forall_app; auto.
Qed.
Lemma fl_tok : forall C z z' ch ps t, fl C z ch ps -> good z' -> isTrivia (t_kind t) = false -> fl C z' (ch ++ [Tok t]) (ps ++ [Tok t]).
Proof. intros. eapply fl_snoc; eauto using fine_tok, no_colon_tok. Qed.

Lemma L_next : forall q D z S ch ps t C G (Q : unit -> pst -> Prop), plain_request q -> fl D z ch ps -> looks o q z t -> t_kind t <> TK_EndOfFile -> isTrivia (t_kind t) = false ->
  (forall z', fl D z' (ch ++ [Tok t]) (ps ++ [Tok t]) -> here z' = past t -> R o z z' -> Q tt (mkp z' (S ++ (ch ++ [Tok t])) C G)) ->
  LW (push_syntax_and_next dbg t) (mkp z (S ++ ch) C G) Q.
Proof.
  intros q D z S ch ps t C G Q Hq HF HL N Ht HQ. unfold push_syntax_and_next. apply LW_bind, L_syntax. apply (L_skip q); auto; [apply (fl_good _ _ _ _ HF)|].
  intros z' G' H' R'. rewrite <- app_assoc. apply HQ; auto. eapply fl_tok; eauto.
Qed.
Lemma L_next_top : forall D z S ch ps t C G G' (Q : unit -> pst -> Prop), fl D z ch ps -> looks o (qtop G) z t -> t_kind t <> TK_EndOfFile -> solidk (t_kind t) = true ->
  (forall z', fl D z' (ch ++ [Tok t]) (ps ++ [Tok t]) -> here z' = past t -> R o z z' -> Q tt (mkp z' (S ++ (ch ++ [Tok t])) C G')) ->
  LW (push_syntax_and_next dbg t) (mkp z (S ++ ch) C G') Q.
Proof. intros. eapply (L_next (qtop G)); eauto; [reflexivity|apply solidk_trivia; auto]. Qed.
Lemma L_eat : forall D z S ch ps C G (Q : token -> pst -> Prop), fl D z ch ps ->
  (forall t z' ch' l, fl D z' ch' ps -> looks o (qtop G) z' t -> solidk (t_kind t) = true -> strip o (qtop G) isTrivia (here z) l t (here z') -> Q t (mkp z' (S ++ ch') C G)) ->
  LW (eat_trivia o dbg) (mkp z (S ++ ch) C G) Q.
Proof.
  intros D z S ch ps C G Q HF HQ. unfold eat_trivia. apply LW_bind. apply L_current; [apply (fl_good _ _ _ _ HF)|]. intros l t z' G' R' St HL Hs.
  apply LW_bind, L_trivia, LW_ret. rewrite <- app_assoc. eapply HQ; eauto. eapply (fl_trivia isTrivia); eauto.
Qed.
Lemma L_eat_nl : forall D z S ch ps C G (Q : token -> pst -> Prop), fl D z ch ps ->
  (forall t z' ch', fl D z' ch' ps -> looks o (qtop G) z' t -> solidk (t_kind t) = true \/ t_kind t = TK_ToplevelNewline -> Q t (mkp z' (S ++ ch') C G)) ->
  LW (eat_trivia_not_newline o) (mkp z (S ++ ch) C G) Q.
Proof.
  intros D z S ch ps C G Q HF HQ. unfold eat_trivia_not_newline. apply LW_bind. apply L_current_nl; [apply (fl_good _ _ _ _ HF)|]. intros l t z' G' R' St HL Hs.
  apply LW_bind, L_trivia, LW_ret. rewrite <- app_assoc. eapply HQ; eauto. eapply (fl_trivia isTriviaButNotToplevelNewline); eauto. exact triv_newline.
Qed.
Lemma file_plain : forall k, In k FILE_KINDS -> zin k PLACEHOLDERS = false.
Proof. intros k H. unfold FILE_KINDS in H. cbn [In] in H. repeat (destruct H as [<-|H]; [reflexivity|]). destruct H. Qed.
Lemma tag_plain : forall k, In k TAG_KINDS -> zin k PLACEHOLDERS = false.
Proof. intros k H. unfold TAG_KINDS in H. cbn [In] in H. repeat (destruct H as [<-|H]; [reflexivity|]). destruct H. Qed.
Lemma L_eat_file : forall D z S ch ps C G (Q : token -> pst -> Prop), fl D z ch ps ->
  (forall t z' ch', fl D z' ch' ps -> looks o AsFile z' t -> isTrivia (t_kind t) = false -> t_kind t <> TK_EndOfFile -> placeholder (Tok t) = None -> Q t (mkp z' (S ++ ch') C G)) ->
  LW (eat_trivia_as_file o dbg) (mkp z (S ++ ch) C G) Q.
Proof.
  intros D z S ch ps C G Q HF HQ. unfold eat_trivia_as_file. apply LW_bind. apply LW_PW. apply (PW_current_file o base True (fun _ => I)); [apply (fl_good _ _ _ _ HF)|].
  intros l t z' G' R' St HL. destruct (strip_place _ _ _ _ _ _ _ St) as (Hr & Ht & _). apply LW_bind, LW_debug, LW_bind, L_trivia, LW_ret. rewrite <- app_assoc.
  pose proof (reads_file _ _ _ Hr) as Hk. eapply HQ; eauto.
  - eapply (fl_trivia isTrivia); eauto.
  - apply (file_solid o _ _ Hr Ht).
  - cbn [placeholder]. rewrite (file_plain _ Hk). reflexivity.
Qed.

(** ** Requests *)
Definition pc (C : list ctx) : Prop := cprec C = 0 \/ 2 <= cprec C.
Definition leftc (n : cst) : Prop := (forall q, ~ open_at_end n q) \/ pattern_node n \/ colon_error n.
(** if a colon comes next, why it was not taken *)
Definition stopc (C : list ctx) (G : list Z) (p : place) (n : cst) : Prop :=
  follows G p TK_Colon -> dead_end n = true \/ chk C = true \/ PREC_HIGHEST <= cprec C \/ cprec C = 0.
Definition endc (C : list ctx) (G : list Z) (p : place) (n : cst) : Prop := follows G p TK_Colon -> chk C = false -> leftc n.
Definition nd (C : list ctx) (G : list Z) (z : st) (n : cst) : Prop :=
  fine n /\ trivia_leaf n = false /\ (chk C = true -> no_colon n) /\ endc C G (here z) n.
Definition done (S : list cst) (C : list ctx) (G : list Z) (X : st -> cst -> Prop) : unit -> pst -> Prop :=
  fun _ s' => exists z n, s' = mkp z (S ++ [n]) C G /\ good z /\ nd C G z n /\ stopc C G (here z) n /\ X z n.

Definition itok (G : list Z) (z : st) (t : token) (q : Z) (C : list ctx) : Prop :=
  (looks o (qtop G) z t /\ solidk (t_kind t) = true /\
   ((infix_of (t_kind t) = IP_Colon /\ chk C = false) \/ (infix_of (t_kind t) <> IP_Colon /\ iprec (infix_of (t_kind t)) = Some q))) \/
  (q = PREC_STAR /\ exists t0, t = tok_at_start TK_Fake_ImplicitTimes t0 /\ looks o (qtop G) z t0).
Definition lseat (p : infix_parselet) : list Z :=
  match p with IP_Comma => [TK_Error_PrefixImplicitNull] | IP_SemiSemi | IP_Call _ _ => [] | _ => [TK_Error_ExpectedOperand] end.

(** what is known of the last operand of a chain *)
Definition lastc (op q : Z) (m : nat) (C : list ctx) (G : list Z) (p : place) (ps : list cst) : Prop :=
  exists l b, ps = l ++ [b] /\ (op = IOP_MessageName \/ (stopc (mkctx q m :: C) G p b /\ endc (mkctx q m :: C) G p b)).
Definition headc (op q : Z) (ps : list cst) : Prop := exists a t r, ps = a :: Tok t :: r /\ infix_entry (infix_of (t_kind t)) op q.
Definition chain (op : Z) (S : list cst) (C : list ctx) (G : list Z) (s : pst) : Prop :=
  exists z ch ps q, s = mkp z (S ++ ch) (mkctx q (length S) :: C) G /\ fl C z ch ps /\ seated KInfix op ps /\ headc op q ps /\
    lastc op q (length S) C G (here z) ps /\ 2 <= q < PREC_HIGHEST /\ q <> PREC_FAKE_PATTERNCOLON /\ pc C /\ prec_greater (cprec C) q = false.

Definition pre (c : call) (S : list cst) (C : list ctx) (G : list Z) (s : pst) : Prop :=
  match c with
  | CPrefix t => exists z, s = mkp z S C G /\ good z /\ looks o (qtop G) z t /\ solidk (t_kind t) = true /\ pc C /\
      (cprec C = PREC_COMMA -> is_comma (t_kind t) = false) /\ (cprec C = 0 -> isCloser (t_kind t) = false /\ t_kind t <> TK_EndOfFile)
  | CInfix t => exists z ch n q, s = mkp z (S ++ ch) (mkctx q (length S) :: C) G /\ fl C z ch [n] /\ pc C /\ prec_greater (cprec C) q = false /\
      itok G z t q C /\ sits (lseat (infix_of (t_kind t))) n /\ (infix_of (t_kind t) = IP_Colon -> leftc n)
  | CClimb => exists z n, s = mkp z (S ++ [n]) C G /\ good z /\ nd C G z n /\ pc C /\
      (forall k, placeholder n = Some k -> (exists t, reads o (qtop G) (here z) t /\ is_comma (t_kind t) = true) /\
         ((k = TK_Error_PrefixImplicitNull /\ cprec C = 0) \/ (k = TK_Error_ExpectedOperand /\ cprec C <> 0 /\ cprec C <> PREC_COMMA)))
  | CGroupLoop op closer => exists z ch ps, s = mkp z (S ++ ch) (mkctx 0 (length S) :: C) (closer :: G) /\ fl [] z ch ps /\ seated KGroup op ps /\ pc C /\ isCloser closer = true
  | CInfixLoop op => chain op S C G s /\ ~ In op [IOP_CodeParser_Comma; IOP_CompoundExpression; IOP_MessageName] /\ zin op [IOP_Times; IOP_CodeParser_InternalInvalid] = false /\ cprec (ctxs s) <> PREC_COMMA
  | CTimesLoop => chain IOP_Times S C G s /\ cprec (ctxs s) <> PREC_COMMA
  | CCommaLoop => chain IOP_CodeParser_Comma S C G s /\ cprec (ctxs s) = PREC_COMMA
  | CSemiLoop => chain IOP_CompoundExpression S C G s
  | CColonColonLoop => chain IOP_MessageName S C G s
  end.
Definition extra (c : call) (S : list cst) (C : list ctx) (s : pst) (z : st) (n : cst) : Prop :=
  match c with
  | CPrefix t => forall k, placeholder n = Some k -> here z = here (tz s) /\ consuming (prefix_of (t_kind t)) = false /\
      ((k = TK_Error_InfixImplicitNull /\ cprec C = PREC_COMMA) \/ (k = TK_Error_ExpectedOperand /\ cprec C <> 0 /\ cprec C <> PREC_COMMA))
  | CClimb => forall k, placeholder n = Some k -> stack s = S ++ [n] /\ here z = here (tz s) /\ k = TK_Error_ExpectedOperand /\ cprec C <> 0 /\ cprec C <> PREC_COMMA
  | _ => placeholder n = None
  end.
Definition post (c : call) (S : list cst) (C : list ctx) (G : list Z) (s : pst) : unit -> pst -> Prop := done S C G (extra c S C s).

Hypothesis IH : forall c S C G s, pre c S C G s -> LW (run c) s (post c S C G s).
Local Notation whole S C G := (done S C G (fun _ n => placeholder n = None)).

Lemma rec_climb : forall z S n C G, good z -> nd C G z n -> pc C -> placeholder n = None -> LW (run CClimb) (mkp z (S ++ [n]) C G) (whole S C G).
Proof.
  intros z S n C G Hg Hn Hc Hp. eapply LW_conseq; [apply (IH CClimb S C G)|].
  - exists z, n. split; auto. split; auto. split; auto. split; auto. intros k X. congruence.
  - intros [] s' (z' & n' & -> & A1 & A2 & A3 & A4). exists z', n'. do 4 (split; [auto|]). cbn [extra stack] in A4. destruct (placeholder n') as [k|] eqn:E; auto.
    destruct (A4 k eq_refl) as (X & _). apply app_inj_tail in X as [_ X]. subst n'. congruence.
Qed.

Lemma endc_node : forall C G p n q m b, lasts n q b -> q < PREC_HIGHEST -> q <> PREC_FAKE_PATTERNCOLON -> stopc (mkctx q m :: C) G p b -> endc (mkctx q m :: C) G p b -> q <> 0 -> endc C G p n.
Proof.
  intros C G p n q m b HL Hq Nq Hs He Nz F Ck. left. pose proof (chk_pop q m C Ck Nq) as Ck'. destruct (Hs F) as [X|[X|X]]; [|congruence|cbn [cprec c_prec] in X; lia].
  assert (Nb : forall q', ~ open_at_end b q').
  { destruct (He F Ck') as [Y|[[ch ->]|[ch ->]]]; [exact Y|discriminate X|discriminate X]. }
  intros q' O. inversion O as [n0 q0 b0 L D|n0 q0 b0 q1 L D]; subst; destruct (HL _ _ L) as [_ ->]; [congruence|exact (Nb _ D)].
Qed.
Lemma endc_none : forall C G p n, (forall q b, last_operand n q b -> False) -> endc C G p n.
Proof. intros C G p n H _ _. left. intros q O. inversion O as [n0 q0 b0 L D|n0 q0 b0 q1 L D]; subst; exact (H _ _ L). Qed.
Lemma endc_tok : forall C G p t, endc C G p (Tok t).
Proof. intros C G p t. apply endc_none. intros q b L. inversion L. Qed.
Lemma endc_op : forall C G p kd op ch, no_last kd = true -> endc C G p (Op kd op ch).
Proof. intros C G p kd op ch H. apply endc_none. intros q b L. inversion L; subst; discriminate H. Qed.
Lemma endc_call : forall C G p h m op ch, endc C G p (Call h m op ch).
Proof. intros. apply endc_none. intros q b L. inversion L. Qed.

(** make a node of the frame and go on *)
Lemma L_red : forall kd op z S ch ps q C G, fl C z ch ps -> locals (Op kd op ch) -> (chk C = true -> not_colon (Op kd op ch)) -> endc C G (here z) (Op kd op ch) -> pc C ->
  LW (pbind (reduce_op kd op) (fun _ => run CClimb)) (mkp z (S ++ ch) (mkctx q (length S) :: C) G) (whole S C G).
Proof.
  intros kd op z S ch ps q C G [A B D W] HL HN HE Hc. apply LW_bind, L_reduce, rec_climb; auto. split; [apply fine_node; auto|]. split; [reflexivity|]. split; auto.
  intros X. apply no_colon_op; auto.
Qed.
Lemma L_red_error : forall e z S ch ps q C G, fl C z ch ps -> locals (SynErr e ch) -> (chk C = true -> not_colon (SynErr e ch)) -> endc C G (here z) (SynErr e ch) -> pc C ->
  LW (pbind (reduce_syntax_error e) (fun _ => run CClimb)) (mkp z (S ++ ch) (mkctx q (length S) :: C) G) (whole S C G).
Proof.
  intros e z S ch ps q C G [A B D W] HL HN HE Hc. apply LW_bind, L_reduce_error, rec_climb; auto. split; [apply fine_node; auto|]. split; [reflexivity|]. split; auto.
  intros X. apply no_colon_err; auto.
Qed.

(** the next operand *)
Definition opd (C : list ctx) (q : Z) (m : nat) (G : list Z) (p : place) (u : token) (p' : place) (b : cst) : Prop :=
  stopc (mkctx q m :: C) G p' b /\ endc (mkctx q m :: C) G p' b /\ (chk (mkctx q m :: C) = true -> no_colon b) /\
  (forall k, placeholder b = Some k -> p' = p /\ consuming (prefix_of (t_kind u)) = false /\ ((k = TK_Error_InfixImplicitNull /\ q = PREC_COMMA) \/ (k = TK_Error_ExpectedOperand /\ q <> PREC_COMMA))).
Lemma opd_eo : forall C q m G p u p' b, opd C q m G p u p' b -> q <> PREC_COMMA -> sits [TK_Error_ExpectedOperand] b.
Proof. intros C q m G p u p' b (_ & _ & _ & H) N k X. destruct (H k X) as (_ & _ & [[_ Y]|[-> _]]); [contradiction|left; reflexivity]. Qed.
Lemma opd_none : forall C q m G p u p' b ks, opd C q m G p u p' b -> consuming (prefix_of (t_kind u)) = true -> sits ks b.
Proof. intros C q m G p u p' b ks (_ & _ & _ & H) N k X. destruct (H k X) as (_ & Y & _). congruence. Qed.

Lemma L_operand : forall u z S ch ps q C G (Q : unit -> pst -> Prop), fl C z ch ps -> looks o (qtop G) z u -> solidk (t_kind u) = true -> 2 <= q -> (q = PREC_COMMA -> is_comma (t_kind u) = false) ->
  (chk C = true -> PREC_FAKE_PATTERNCOLON <= q) ->
  (forall z' b, fl C z' (ch ++ [b]) (ps ++ [b]) -> opd C q (length S) G (here z) u (here z') b -> Q tt (mkp z' (S ++ (ch ++ [b])) (mkctx q (length S) :: C) G)) ->
  LW (run (CPrefix u)) (mkp z (S ++ ch) (mkctx q (length S) :: C) G) Q.
Proof.
  intros u z S ch ps q C G Q HF HL Hs Hq Hcm Hk HQ. eapply LW_conseq; [apply (IH (CPrefix u) (S ++ ch) (mkctx q (length S) :: C) G)|].
  - exists z. split; auto. split; [apply (fl_good _ _ _ _ HF)|]. split; auto. split; auto. cbn [cprec c_prec]. split; [right; exact Hq|]. split; auto. intros X. lia.
  - intros [] s' (z' & b & -> & G' & (N1 & N2 & N3 & N4) & N5 & N6). rewrite <- app_assoc. apply HQ.
    + eapply fl_snoc; eauto. intros X. apply N3. apply chk_push; auto.
    + split; auto. split; auto. split; auto. cbn [extra tz cprec c_prec] in N6. intros k X. destruct (N6 k X) as (Y1 & Y2 & [Y|(Y3 & Y4 & Y5)]); auto.
Qed.

Lemma seated2 : forall kd op ch a b, parts ch = [a; b] -> sits (seat kd op 0) a -> sits (seat kd op 1) b -> placeholders_ok (Op kd op ch).
Proof. intros kd op ch a b P H1 H2 i x E. rewrite P in E. destruct i as [|[|i]]; [injection E as <-; auto|injection E as <-; auto|destruct i; discriminate E]. Qed.
Lemma seated3 : forall kd op ch a b c, parts ch = [a; b; c] -> sits (seat kd op 0) a -> sits (seat kd op 1) b -> sits (seat kd op 2) c -> placeholders_ok (Op kd op ch).
Proof. intros kd op ch a b c P H1 H2 H3 i x E. rewrite P in E. destruct i as [|[|[|i]]]; try (injection E as <-; assumption). destruct i; discriminate E. Qed.
Lemma seated5 : forall kd op ch a b c d e, parts ch = [a; b; c; d; e] -> sits (seat kd op 0) a -> sits (seat kd op 1) b -> sits (seat kd op 2) c -> sits (seat kd op 3) d -> sits (seat kd op 4) e ->
  placeholders_ok (Op kd op ch).
Proof. intros kd op ch a b c d e P H1 H2 H3 H4 H5 i x E. rewrite P in E. destruct i as [|[|[|[|[|i]]]]]; try (injection E as <-; assumption). destruct i; discriminate E. Qed.
Lemma nc_binary : forall op ch, op <> BOP_Pattern -> op <> BOP_Optional -> not_colon (Op KBinary op ch).
Proof. intros op ch H1 H2 ch'. repeat split; intros X; try discriminate X; injection X as X _; contradiction. Qed.
Lemma nc_op : forall kd op ch, kd <> KBinary -> not_colon (Op kd op ch).
Proof. intros kd op ch H ch'. repeat split; intros X; try discriminate X; injection X as X _ _; contradiction. Qed.
Lemma nc_error : forall e ch, e <> ExpectedSymbol -> not_colon (SynErr e ch).
Proof. intros e ch H ch'. repeat split; intros X; try discriminate X; injection X as X _; contradiction. Qed.
Lemma seat_infix : forall op, ~ In op [IOP_CodeParser_Comma; IOP_CompoundExpression; IOP_MessageName] -> forall i, seat KInfix op i = [TK_Error_ExpectedOperand].
Proof.
  intros op H i. cbn [seat]. destruct (Z.eqb_spec op IOP_CodeParser_Comma); [exfalso; apply H; cbn; auto|]. destruct (Z.eqb_spec op IOP_CompoundExpression); [exfalso; apply H; cbn; auto|].
  destruct (Z.eqb_spec op IOP_MessageName); [exfalso; apply H; cbn; auto|]. reflexivity.
Qed.
Lemma chk_q : forall C q, chk C = true -> prec_greater (cprec C) q = false -> PREC_FAKE_PATTERNCOLON <= q.
Proof. intros C q H Hq. pose proof (chk_prec _ H). apply not_greater in Hq. lia. Qed.

Lemma rec_loop : forall lc S C G s, pre lc S C G s -> extra lc = (fun _ _ _ _ n => placeholder n = None) -> LW (run lc) s (whole S C G).
Proof.
  intros lc S C G s Hp He. eapply LW_conseq; [apply (IH lc S C G _ Hp)|]. intros [] s' (z' & n' & -> & A1 & A2 & A3 & A4).
  exists z', n'. do 4 (split; [auto|]). rewrite He in A4. exact A4.
Qed.

(** the operands of a chain *)
Definition ready (op q : Z) (C : list ctx) (ps : list cst) : Prop :=
  seated KInfix op ps /\ headc op q ps /\ 2 <= q < PREC_HIGHEST /\ q <> PREC_FAKE_PATTERNCOLON /\ pc C /\ prec_greater (cprec C) q = false.
Lemma headc_app : forall op q ps l, headc op q ps -> headc op q (ps ++ l).
Proof. intros op q ps l (a & t & r & -> & H). exists a, t, (r ++ l). auto. Qed.
Lemma ready_later : forall op q C ps, ready op q C ps -> exists i, length ps = Datatypes.S i.
Proof. intros op q C ps (_ & (a & t & r & -> & _) & _). exists (Datatypes.S (length r)). reflexivity. Qed.
Lemma chain_more : forall op q S C G z ch ps b, ready op q C ps -> fl C z (ch ++ [b]) (ps ++ [b]) -> sits (seat KInfix op (length ps)) b ->
  (op = IOP_MessageName \/ (stopc (mkctx q (length S) :: C) G (here z) b /\ endc (mkctx q (length S) :: C) G (here z) b)) ->
  chain op S C G (mkp z (S ++ (ch ++ [b])) (mkctx q (length S) :: C) G).
Proof.
  intros op q S C G z ch ps b (R1 & R2 & R3 & R4 & R5 & R6) HF Hb He. exists z, (ch ++ [b]), (ps ++ [b]), q. split; auto. split; auto. split; [apply seated_snoc; auto|].
  split; [apply headc_app; auto|]. split; [exists ps, b; auto|]. auto.
Qed.
Lemma stopc_dead : forall C G p n, dead_end n = true -> stopc C G p n.
Proof. intros C G p n H _. auto. Qed.
Lemma fake_fl : forall C z ch ps k t, fl C z ch ps -> isTrivia k = false -> fl C z (ch ++ [Tok (tok_at_start k t)]) (ps ++ [Tok (tok_at_start k t)]).
Proof. intros C z ch ps k t HF H. eapply fl_tok; eauto. apply (fl_good _ _ _ _ HF). Qed.
Lemma beginning_solid : forall u, isPossibleBeginning (t_kind u) = true -> solidk (t_kind u) = true \/ t_kind u = TK_ToplevelNewline ->
  solidk (t_kind u) = true /\ consuming (prefix_of (t_kind u)) = true /\ is_comma (t_kind u) = false.
Proof.
  intros u H Hs. assert (Hk : solidk (t_kind u) = true) by (destruct Hs as [X|X]; auto; rewrite X in H; vm_compute in H; discriminate). split; auto.
  pose proof (solid_prefix _ Hk) as Hx. pose proof (proj1 (solid_comma _ Hk)) as Hy. destruct (prefix_of (t_kind u)) eqn:E;
    try (split; [reflexivity|]; destruct (is_comma (t_kind u)); auto; destruct Hy as [Y _]; discriminate (Y eq_refl)); destruct Hx as (X & _); congruence.
Qed.
Lemma semi_operand_ok : forall z S ch ps q C G, fl C z ch ps -> ready IOP_CompoundExpression q C ps ->
  LW (semi_operand o dbg run) (mkp z (S ++ ch) (mkctx q (length S) :: C) G) (whole S C G).
Proof.
  intros z S ch ps q C G HF HR. pose proof HR as (R1 & R2 & [R3 R3'] & R4 & R5 & R6). destruct (ready_later _ _ _ _ HR) as [i Hi].
  unfold semi_operand. apply LW_bind. eapply L_eat_nl; eauto. intros u z1 ch1 F1 HL1 Hs1.
  destruct (t_kind u =? TK_Semi) eqn:Eu; [|destruct (isPossibleBeginning (t_kind u)) eqn:Ep].
  - apply LW_bind, L_leaf. rewrite <- app_assoc. apply (rec_loop CSemiLoop); auto. eapply (chain_more IOP_CompoundExpression); eauto; [apply fake_fl; auto| |right; split; [apply stopc_dead; reflexivity|apply endc_tok]].
    intros k X. rewrite placeholder_at in X by reflexivity. injection X as <-. rewrite Hi. left. reflexivity.
  - destruct (beginning_solid _ Ep Hs1) as (Hs2 & Hcon & Hcm). apply LW_bind. eapply L_operand; eauto; [intros X; eapply chk_q; eauto|]. intros z2 b F2 Hb. apply (rec_loop CSemiLoop); auto.
    eapply (chain_more IOP_CompoundExpression); eauto; [eapply opd_none; eauto|right; split; apply Hb].
  - apply LW_bind, L_leaf. rewrite <- app_assoc. assert (F2 := fake_fl C z1 ch1 ps TK_Fake_ImplicitNull u F1 eq_refl). pose proof (fl_parts _ _ _ _ F2) as P. eapply L_red; eauto.
    + apply locals_other; [apply nc_op; discriminate|]. intros j a E. rewrite P in E. revert j a E. apply seated_snoc; auto.
      intros k X. rewrite placeholder_at in X by reflexivity. injection X as <-. rewrite Hi. left. reflexivity.
    + intros _. apply nc_op; discriminate.
    + eapply (endc_node _ _ _ _ q (length S) (Tok (tok_at_start TK_Fake_ImplicitNull u))); eauto; [|apply stopc_dead; reflexivity|apply endc_tok|lia].
      destruct R2 as (a & t & r & -> & Hent). cbn [app] in P. eapply lasts_infix; [exact P| |intros _; exact Hent]. rewrite P. change (?x :: ?y :: r ++ ?l) with ((x :: y :: r) ++ l). reflexivity.
Qed.
Lemma comma_operand_ok : forall z S ch ps C G, fl C z ch ps -> ready IOP_CodeParser_Comma PREC_COMMA C ps ->
  LW (pbind (comma_operand o dbg run) (fun _ => run CCommaLoop)) (mkp z (S ++ ch) (mkctx PREC_COMMA (length S) :: C) G) (whole S C G).
Proof.
  intros z S ch ps C G HF HR. pose proof HR as (R1 & R2 & [R3 R3'] & R4 & R5 & R6). destruct (ready_later _ _ _ _ HR) as [i Hi].
  unfold comma_operand. apply LW_bind, LW_bind. eapply L_eat; eauto. intros u z1 ch1 l1 F1 HL1 Hs1 _. destruct (is_comma (t_kind u)) eqn:Eu.
  - apply L_leaf. rewrite <- app_assoc. apply (rec_loop CCommaLoop); auto. split; [|reflexivity]. eapply (chain_more IOP_CodeParser_Comma); eauto; [apply fake_fl; auto| |right; split; [apply stopc_dead; reflexivity|apply endc_tok]].
    intros k X. rewrite placeholder_at in X by reflexivity. injection X as <-. rewrite Hi. left. reflexivity.
  - eapply L_operand; eauto; [intros X; eapply chk_q; eauto|]. intros z2 b F2 Hb. apply (rec_loop CCommaLoop); auto. split; [|reflexivity].
    eapply (chain_more IOP_CodeParser_Comma); eauto; [|right; split; apply Hb].
    intros k X. destruct Hb as (_ & _ & _ & Hb). destruct (Hb k X) as (_ & _ & [[-> _]|[_ Y]]); [|contradiction]. rewrite Hi. left. reflexivity.
Qed.
Lemma tag_operand_ok : forall z S ch ps q C G, fl C z ch ps -> ready IOP_MessageName q C ps ->
  LW (pbind (ppeek_as_tag o) (fun u => pbind (push_leaf_and_next dbg u) (fun _ => run CColonColonLoop))) (mkp z (S ++ ch) (mkctx q (length S) :: C) G) (whole S C G).
Proof.
  intros z S ch ps q C G HF HR. destruct (ready_later _ _ _ _ HR) as [i Hi].
  apply LW_bind. apply (L_ask AsTag); [apply (fl_good _ _ _ _ HF)|reflexivity|]. intros u z1 G1 H1 HL1 _.
  destruct (tag_solid o _ _ (looks_reads _ _ _ _ HL1)) as [Hl Ne]. apply leaf_not_trivia in Hl as Ht.
  apply LW_bind. apply (L_next AsTag C z1 S ch ps u); auto; [reflexivity|eapply fl_move; eauto|]. intros z2 F2 _ _. apply (rec_loop CColonColonLoop); auto.
  eapply (chain_more IOP_MessageName); eauto. apply sits_none. cbn [placeholder]. rewrite tag_plain; [reflexivity|]. eapply reads_tag; eauto. apply looks_reads. eauto.
Qed.
Lemma chain_operand_ok : forall lc op u z S ch ps q C G, (forall s, chain op S C G s -> cprec (ctxs s) = q -> pre lc S C G s) -> extra lc = (fun _ _ _ _ n => placeholder n = None) -> q <> PREC_COMMA ->
  (forall i, seat KInfix op i = [TK_Error_ExpectedOperand]) -> fl C z ch ps -> ready op q C ps -> looks o (qtop G) z u -> solidk (t_kind u) = true ->
  LW (pbind (run (CPrefix u)) (fun _ => run lc)) (mkp z (S ++ ch) (mkctx q (length S) :: C) G) (whole S C G).
Proof.
  intros lc op u z S ch ps q C G Hpre Hex Nq Hseat HF HR HL1 Hs1. pose proof HR as (R1 & R2 & [R3 R3'] & R4 & R5 & R6).
  apply LW_bind. eapply L_operand; eauto; [intros X; contradiction|intros X; eapply chk_q; eauto|]. intros z2 b F2 Hb. apply (rec_loop lc); auto. apply Hpre; [|reflexivity].
  eapply (chain_more op); eauto; [|right; split; apply Hb]. rewrite Hseat. eapply opd_eo; eauto.
Qed.

(** groups *)
Lemma prefix_group_ok : forall opener op t z S C G, good z -> looks o (qtop G) z t -> solidk (t_kind t) = true -> prefix_of (t_kind t) = PP_Group opener op -> pc C ->
  LW (prefix_group dbg run opener op t) (mkp z S C G) (whole S C G).
Proof.
  intros opener op t z S C G Hg HL Hs Hp Hc. destruct (group_facts t opener op Hs Hp) as (c & Hc1 & Hc2 & Hc3 & Nt).
  unfold prefix_group. apply LW_bind, LW_lift. intros c' E. rewrite Hc1 in E. injection E as <-. apply LW_bind, LW_lift. intros c' E. rewrite Hc2 in E. injection E as <-. apply LW_bind.
  intros [] s1 E. injection E as <-. cbn [tz stack ctxs groups]. replace S with (S ++ []) at 1 by apply app_nil_r. apply LW_bind. eapply (L_next_top [] z S [] [] t C G); eauto; [constructor; auto; discriminate|].
  intros z1 F1 _ _. cbn [app] in *. apply LW_bind, L_context. apply (rec_loop (CGroupLoop op c)); auto. exists z1, [Tok t], [Tok t]. split; auto. split; auto. split; auto.
  apply (seated_snoc _ _ [] (Tok t)); [apply seated_nil|apply sits_none, placeholder_solid, Hs].
Qed.

Section Infix.
Variables (z : st) (S ch : list cst) (n : cst) (q : Z) (C : list ctx) (G : list Z) (t : token).
Hypothesis HF : fl C z ch [n].
Hypothesis Hc : pc C.
Hypothesis Hq : prec_greater (cprec C) q = false.
Hypothesis HL : looks o (qtop G) z t.
Hypothesis Hs : solidk (t_kind t) = true.
Hypothesis Hp : iprec (infix_of (t_kind t)) = Some q.
Hypothesis Hnc : infix_of (t_kind t) <> IP_Colon.
Hypothesis Hn : sits (lseat (infix_of (t_kind t))) n.
Local Notation goal m := (LW m (mkp z (S ++ ch) (mkctx q (length S) :: C) G) (whole S C G)).

Lemma q_facts : 2 <= q /\ q < PREC_HIGHEST /\ q <> PREC_FAKE_PATTERNCOLON /\ (q = PREC_COMMA -> infix_of (t_kind t) = IP_Comma).
Proof.
  destruct (solid_iprec _ _ Hs Hp) as (H1 & H2 & H3). destruct (H3 Hnc) as [H4 H5]. split; auto. split; auto. split; auto.
  intros X. apply (proj2 (solid_comma _ Hs)). auto.
Qed.
Lemma t_eof : t_kind t <> TK_EndOfFile.
Proof. apply not_eof. rewrite Hp. discriminate. Qed.
Lemma q_chk : chk C = true -> PREC_FAKE_PATTERNCOLON <= q.
Proof. intros X. eapply chk_q; eauto. Qed.
Lemma t_none : placeholder (Tok t) = None.
Proof. apply placeholder_solid. exact Hs. Qed.

Lemma infix_binary_ok : forall op, binary_entry (infix_of (t_kind t)) op q -> (forall i, seat KBinary op i = [TK_Error_ExpectedOperand]) -> op <> BOP_Pattern -> op <> BOP_Optional ->
  lseat (infix_of (t_kind t)) = [TK_Error_ExpectedOperand] -> q <> PREC_COMMA -> goal (infix_binary o dbg run op t).
Proof.
  intros op He Hseat N1 N2 Hl Nq. destruct q_facts as (Q1 & Q2 & Q3 & Q4). unfold infix_binary. apply LW_bind. eapply L_next_top; eauto; [apply t_eof|]. intros z1 F1 _ _. apply LW_bind. eapply L_eat; eauto.
  intros u z2 ch2 l F2 HL2 Hs2 _. apply LW_bind. eapply L_operand; eauto; [intros X; contradiction|apply q_chk|]. intros z3 b F3 Hb. pose proof (fl_parts _ _ _ _ F3) as P. cbn [app] in P.
  eapply L_red; eauto.
  - apply locals_other; [apply nc_binary; auto|]. eapply seated3; [exact P| | |]; rewrite Hseat.
    + rewrite <- Hl. exact Hn.
    + apply sits_none, t_none.
    + eapply opd_eo; eauto.
  - intros _. apply nc_binary; auto.
  - destruct Hb as (B1 & B2 & _). eapply (endc_node _ _ _ _ q (length S) b); eauto; [|lia]. eapply lasts_binary; eauto.
Qed.

Lemma next_operand_loop : forall lc op, (forall s, chain op S C G s -> cprec (ctxs s) = q -> pre lc S C G s) -> extra lc = (fun _ _ _ _ n => placeholder n = None) ->
  infix_entry (infix_of (t_kind t)) op q -> (forall i, sits (seat KInfix op i) (Tok t)) ->
  sits (seat KInfix op 0) n -> q <> PREC_COMMA -> (forall i, seat KInfix op i = [TK_Error_ExpectedOperand]) ->
  goal (pbind (push_syntax_and_next dbg t) (fun _ => pbind (eat_trivia o dbg) (fun u => pbind (run (CPrefix u)) (fun _ => run lc)))).
Proof.
  intros lc op Hpre Hex He Ht H0 Nq Hseat. destruct q_facts as (Q1 & Q2 & Q3 & Q4). apply LW_bind. eapply L_next_top; eauto; [apply t_eof|]. intros z1 F1 _ _. apply LW_bind. eapply L_eat; eauto.
  intros u z2 ch2 l F2 HL2 Hs2 _. apply LW_bind. eapply L_operand; eauto; [intros X; contradiction|apply q_chk|]. intros z3 b F3 Hb.
  assert (CH : chain op S C G (mkp z3 (S ++ (ch2 ++ [b])) (mkctx q (length S) :: C) G)).
  { exists z3, (ch2 ++ [b]), (([n] ++ [Tok t]) ++ [b]), q. split; auto. split; auto. split; [|split; [|split; [|split; [|split; [|split]]]]]; auto.
    - apply seated_snoc; [apply seated_snoc; [apply (seated_snoc _ _ [] n); [apply seated_nil|exact H0]|apply Ht]|]. rewrite Hseat. eapply opd_eo; eauto.
    - exists n, t, [b]. auto.
    - exists ([n] ++ [Tok t]), b. split; auto. right. split; apply Hb. }
  eapply rec_loop; eauto.
Qed.

Lemma infix_infix_ok : forall prec op, infix_of (t_kind t) = IP_InfixOperator prec op -> zin op [IOP_Times; IOP_CodeParser_InternalInvalid] = false -> goal (infix_infix o dbg run op t).
Proof.
  intros prec op Hi Hz. pose proof (solid_op _ Hs) as Hop. rewrite Hi in Hop. pose proof (seat_infix op Hop) as Hseat.
  assert (Nq : q <> PREC_COMMA) by (intros X; destruct q_facts as (_ & _ & _ & Y); rewrite Hi in Y; discriminate (Y X)).
  apply (next_operand_loop (CInfixLoop op) op); auto.
  - intros s Hch Hcp. rewrite <- Hcp in Nq. split; auto.
  - rewrite Hi. rewrite Hi in Hp. injection Hp as ->. split; reflexivity.
  - intros i. apply sits_none, t_none.
  - rewrite Hseat. rewrite Hi in Hn. exact Hn.
Qed.
Lemma infix_times_ok : infix_of (t_kind t) = IP_Times -> goal (infix_times o dbg run t).
Proof.
  intros Hi. assert (Hop : ~ In IOP_Times [IOP_CodeParser_Comma; IOP_CompoundExpression; IOP_MessageName]) by (cbn; intros [X|[X|[X|[]]]]; discriminate X).
  pose proof (seat_infix _ Hop) as Hseat. apply (next_operand_loop CTimesLoop IOP_Times); auto.
  - intros s Hch Hcp. split; auto. rewrite Hcp. intros X. destruct q_facts as (_ & _ & _ & Y). rewrite Hi in Y. discriminate (Y X).
  - rewrite Hi. rewrite Hi in Hp. injection Hp as <-. split; reflexivity.
  - intros i. apply sits_none, t_none.
  - rewrite Hseat. rewrite Hi in Hn. exact Hn.
  - intros X. destruct q_facts as (_ & _ & _ & Y). rewrite Hi in Y. discriminate (Y X).
Qed.
Lemma infix_postfix_ok : forall prec op, infix_of (t_kind t) = IP_PostfixOperator prec op -> goal (infix_postfix dbg run op t).
Proof.
  intros prec op Hi. unfold infix_postfix. apply LW_bind. eapply L_next_top; eauto; [apply t_eof|]. intros z1 F1 _ _. pose proof (fl_parts _ _ _ _ F1) as P. cbn [app] in P. eapply L_red; eauto.
  - apply locals_other; [apply nc_op; discriminate|]. eapply seated2; [exact P| |]; cbn [seat].
    + rewrite Hi in Hn. exact Hn.
    + apply sits_none, t_none.
  - intros _. apply nc_op; discriminate.
  - apply endc_op. reflexivity.
Qed.

Lemma L_commit : forall D z0 z1 W c ps l v C0 G0 (Q : unit -> pst -> Prop), fl D z0 c ps -> good z1 -> strip o (qtop G0) isTrivia (here z0) l v (here z1) ->
  looks o (qtop G0) z1 v -> solidk (t_kind v) = true -> t_kind v <> TK_EndOfFile ->
  (forall z2 c2, fl D z2 (c2 ++ [Tok v]) (ps ++ [Tok v]) -> Q tt (mkp z2 (W ++ (c2 ++ [Tok v])) C0 G0)) ->
  LW (commit_syntax_and_next dbg l v) (mkp z1 (W ++ c) C0 G0) Q.
Proof.
  intros D z0 z1 W c ps l v C0 G0 Q HF0 Hg St HL0 Hs0 N HQ. unfold commit_syntax_and_next. apply LW_bind, L_trivia. rewrite <- app_assoc.
  eapply (L_next_top D z1); eauto. eapply (fl_trivia isTrivia); eauto.
Qed.
Lemma lseat_plain : forall k, sits (lseat (infix_of k)) n -> match infix_of k with IP_Comma | IP_SemiSemi | IP_Call _ _ => False | _ => True end -> sits [TK_Error_ExpectedOperand] n.
Proof. intros k H X. destruct (infix_of k); cbn [lseat] in H; auto; contradiction. Qed.

Ltac eo := repeat match goal with
  | |- sits _ (Tok _) => apply sits_none, placeholder_solid; assumption
  | |- sits _ n => assumption
  | H : opd _ _ _ _ _ _ _ ?b |- sits _ ?b => eapply opd_eo; [exact H|assumption]
  end.
Definition tern (op : Z) : Prop := forall i, seat KTernary op i = [TK_Error_ExpectedOperand].

Lemma infix_tilde_ok : infix_of (t_kind t) = IP_Tilde -> t_kind t = TK_Tilde -> goal (infix_tilde o dbg run t).
Proof.
  intros Hi Hkd. destruct q_facts as (Q1 & Q2 & Q3 & Q4). assert (Nq : q <> PREC_COMMA) by (intros X; rewrite (Q4 X) in Hi; discriminate).
  assert (Eq : q = PREC_TILDE) by (rewrite Hi in Hp; injection Hp as <-; reflexivity).
  assert (Hn' : sits [TK_Error_ExpectedOperand] n) by (eapply lseat_plain; [exact Hn|rewrite Hi; exact I]).
  unfold infix_tilde. apply LW_bind, LW_debug, LW_bind. eapply L_next_top; eauto; [apply t_eof|]. intros z1 F1 _ _. apply LW_bind. eapply L_eat; eauto.
  intros u z2 ch2 l F2 HL2 Hs2 _. apply LW_bind. eapply L_operand; eauto; [intros X; contradiction|apply q_chk|]. intros z3 b F3 Hb. pose proof (fl_parts _ _ _ _ F3) as P. cbn [app] in P.
  apply LW_bind, L_current; [apply (fl_good _ _ _ _ F3)|]. intros l4 v z4 G4 R4 St4 HL4 Hs4. destruct (Z.eqb_spec (t_kind v) TK_Tilde) as [Ev|Nv]; cbn [negb].
  - apply LW_bind. eapply L_commit; eauto; [rewrite Ev; discriminate|]. intros z5 ch5 F5. apply LW_bind. eapply L_eat; eauto.
    intros w z6 ch6 l6 F6 HL6 Hs6 _. apply LW_bind. eapply L_operand; eauto; [intros X; contradiction|apply q_chk|]. intros z7 c F7 Hb7. pose proof (fl_parts _ _ _ _ F7) as P7. cbn [app] in P7.
    eapply L_red; eauto.
    + apply locals_other; [apply nc_op; discriminate|]. eapply seated5; [exact P7|..]; cbn [seat]; eo.
    + intros _. apply nc_op; discriminate.
    + destruct Hb7 as (B1 & B2 & _). eapply (endc_node _ _ _ _ q (length S) c); eauto; [|lia]. eapply (lasts_ternary _ _ n t b v c q q); eauto. left. rewrite Hkd, Ev. auto 6.
  - apply LW_bind. eapply (L_back (qtop G) isTrivia z3 z4); eauto; [reflexivity|apply (fl_good _ _ _ _ F3)|]. intros z5 G5 H5 _. eapply L_red_error; eauto; [eapply fl_move; eauto|..].
    + apply locals_other; [apply nc_error; discriminate|]. cbn [placeholders_ok]. rewrite P. repeat (apply Forall_cons; [eo|]). apply Forall_nil.
    + intros _. apply nc_error; discriminate.
    + rewrite H5. destruct Hb as (B1 & B2 & _). eapply (endc_node _ _ _ _ q (length S) b); eauto; [|lia]. rewrite Eq. exact (lasts_error ExpectedTilde _ _ _ _ P).
Qed.

Lemma infix_slash_colon_ok : infix_of (t_kind t) = IP_SlashColon -> t_kind t = TK_SlashColon -> goal (infix_slash_colon o dbg run t).
Proof.
  intros Hi Hkd. destruct q_facts as (Q1 & Q2 & Q3 & Q4). assert (Nq : q <> PREC_COMMA) by (intros X; rewrite (Q4 X) in Hi; discriminate).
  assert (Eq : q = PREC_SLASHCOLON) by (rewrite Hi in Hp; injection Hp as <-; reflexivity).
  assert (Nc : chk C = true -> False) by (intros X; apply q_chk in X; rewrite Eq in X; vm_compute in X; apply X; reflexivity).
  assert (Hn' : sits [TK_Error_ExpectedOperand] n) by (eapply lseat_plain; [exact Hn|rewrite Hi; exact I]).
  unfold infix_slash_colon. apply LW_bind. eapply L_next_top; eauto; [apply t_eof|]. intros z1 F1 _ _. apply LW_bind. eapply L_eat; eauto.
  intros u z2 ch2 l F2 HL2 Hs2 _. apply LW_bind. eapply L_operand; eauto; [intros X; contradiction|apply q_chk|]. intros z3 b F3 Hb. pose proof (fl_parts _ _ _ _ F3) as P. cbn [app] in P.
  apply LW_bind, L_current; [apply (fl_good _ _ _ _ F3)|]. intros l4 v z4 G4 R4 St4 HL4 Hs4.
  assert (F4 : fl C z4 ((ch2 ++ [b]) ++ map Tok l4) (([n] ++ [Tok t]) ++ [b])) by (eapply (fl_trivia isTrivia); eauto).
  destruct (Z.eqb_spec (t_kind v) TK_Equal) as [Ev|Nv]; [|destruct (Z.eqb_spec (t_kind v) TK_ColonEqual) as [Ev|Nv2]].
  - apply LW_bind, L_set. cbn [c_start]. apply LW_bind, L_trivia. rewrite <- app_assoc. apply LW_bind. eapply L_next_top; eauto; [rewrite Ev; discriminate|]. intros z5 F5 _ _.
    apply LW_bind. eapply L_eat; eauto. intros w z6 ch6 l6 F6 HL6 Hs6 _. destruct (Z.eqb_spec (t_kind w) TK_Dot) as [Ew|Nw].
    + apply LW_bind. eapply L_next_top; eauto; [rewrite Ew; discriminate|]. intros z7 F7 _ _. pose proof (fl_parts _ _ _ _ F7) as P7. cbn [app] in P7. eapply L_red; eauto.
      * apply locals_other; [apply nc_op; discriminate|]. eapply seated5; [exact P7|..]; cbn [seat]; eo.
      * intros _. apply nc_op; discriminate.
      * apply endc_none. intros q' b' L. inversion L as [| | |op0 ch0 a0 t0 b0 u0 c0 p0 q0 P0 H0| |]; subst. unfold ternary_entry in H0.
        destruct H0 as [H0|[H0|[H0|H0]]]; destruct H0 as (H0 & _); discriminate H0.
    + apply LW_bind. eapply L_operand; eauto; [discriminate|intros X; discriminate X|intros X; destruct (Nc X)|]. intros z7 c F7 Hb7. pose proof (fl_parts _ _ _ _ F7) as P7. cbn [app] in P7. eapply L_red; eauto.
      * apply locals_other; [apply nc_op; discriminate|]. eapply seated5; [exact P7|..]; cbn [seat]; eo. eapply opd_eo; [exact Hb7|discriminate].
      * intros _. apply nc_op; discriminate.
      * destruct Hb7 as (B1 & B2 & _). eapply (endc_node _ _ _ _ PREC_EQUAL (length S) c); eauto; [|reflexivity|discriminate|discriminate]. eapply (lasts_ternary _ _ n t b v c PREC_SLASHCOLON PREC_EQUAL); eauto. right. right. left. auto 6.
  - apply LW_bind, L_set. cbn [c_start]. apply LW_bind, L_trivia. rewrite <- app_assoc. apply LW_bind. eapply L_next_top; eauto; [rewrite Ev; discriminate|]. intros z5 F5 _ _.
    apply LW_bind. eapply L_eat; eauto. intros w z6 ch6 l6 F6 HL6 Hs6 _.
    apply LW_bind. eapply L_operand; eauto; [discriminate|intros X; discriminate X|intros X; destruct (Nc X)|]. intros z7 c F7 Hb7. pose proof (fl_parts _ _ _ _ F7) as P7. cbn [app] in P7. eapply L_red; eauto.
    * apply locals_other; [apply nc_op; discriminate|]. eapply seated5; [exact P7|..]; cbn [seat]; eo. eapply opd_eo; [exact Hb7|discriminate].
    * intros _. apply nc_op; discriminate.
    * destruct Hb7 as (B1 & B2 & _). eapply (endc_node _ _ _ _ PREC_COLONEQUAL (length S) c); eauto; [|reflexivity|discriminate|discriminate]. eapply (lasts_ternary _ _ n t b v c PREC_SLASHCOLON PREC_COLONEQUAL); eauto. right. right. right. auto 6.
  - apply LW_bind. eapply (L_back (qtop G) isTrivia z3 z4); eauto; [reflexivity|apply (fl_good _ _ _ _ F3)|]. intros z5 G5 H5 _. eapply L_red_error; eauto; [eapply fl_move; eauto|..].
    + apply locals_other; [apply nc_error; discriminate|]. cbn [placeholders_ok]. rewrite P. repeat (apply Forall_cons; [eo|]). apply Forall_nil.
    + intros _. apply nc_error; discriminate.
    + rewrite H5. destruct Hb as (B1 & B2 & _). eapply (endc_node _ _ _ _ q (length S) b); eauto; [|lia]. rewrite Eq. exact (lasts_error ExpectedSet _ _ _ _ P).
Qed.

Lemma infix_equal_ok : infix_of (t_kind t) = IP_Equal -> goal (infix_equal o dbg run t).
Proof.
  intros Hi. destruct q_facts as (Q1 & Q2 & Q3 & Q4). assert (Nq : q <> PREC_COMMA) by (intros X; rewrite (Q4 X) in Hi; discriminate).
  assert (Eq : q = PREC_EQUAL) by (rewrite Hi in Hp; injection Hp as <-; reflexivity).
  assert (Hn' : sits [TK_Error_ExpectedOperand] n) by (eapply lseat_plain; [exact Hn|rewrite Hi; exact I]).
  unfold infix_equal. apply LW_bind. eapply L_next_top; eauto; [apply t_eof|]. intros z1 F1 _ _. apply LW_bind. eapply L_eat; eauto.
  intros u z2 ch2 l F2 HL2 Hs2 _. destruct (Z.eqb_spec (t_kind u) TK_Dot) as [Eu|Nu].
  - apply LW_bind. eapply L_next_top; eauto; [rewrite Eu; discriminate|]. intros z3 F3 _ _. pose proof (fl_parts _ _ _ _ F3) as P. cbn [app] in P. eapply L_red; eauto.
    + apply locals_other; [apply nc_binary; discriminate|]. eapply seated3; [exact P|..]; change (seat KBinary BOP_Unset 0) with [TK_Error_ExpectedOperand]; eo.
    + intros _. apply nc_binary; discriminate.
    + apply endc_none. intros q' b' L. inversion L as [| |op0 ch0 a0 t0 b0 q0 P0 H0 N1 N2| | |]; subst. rewrite P in P0. injection P0 as <- <- <-. rewrite Hi in H0. destruct H0 as [H0 _]. discriminate H0.
  - apply LW_bind. eapply L_operand; eauto; [intros X; contradiction|apply q_chk|]. intros z3 b F3 Hb. pose proof (fl_parts _ _ _ _ F3) as P. cbn [app] in P. eapply L_red; eauto.
    + apply locals_other; [apply nc_binary; discriminate|]. eapply seated3; [exact P|..]; change (seat KBinary BOP_Set) with (fun _ : nat => [TK_Error_ExpectedOperand]); eo.
    + intros _. apply nc_binary; discriminate.
    + destruct Hb as (B1 & B2 & _). eapply (endc_node _ _ _ _ q (length S) b); eauto; [|lia]. eapply lasts_binary; eauto. intros _ _. rewrite Hi. split; auto.
Qed.

Lemma first_ready : forall op, infix_entry (infix_of (t_kind t)) op q -> sits (seat KInfix op 0) n -> ready op q C ([n] ++ [Tok t]).
Proof.
  intros op He H0. destruct q_facts as (Q1 & Q2 & Q3 & Q4). split; [|split; [exists n, t, []; auto|split; [lia|auto]]].
  apply seated_snoc; [apply (seated_snoc _ _ [] n); [apply seated_nil|exact H0]|apply sits_none, t_none].
Qed.
Lemma infix_semi_ok : infix_of (t_kind t) = IP_Semi -> goal (infix_semi o dbg run t).
Proof.
  intros Hi. unfold infix_semi. apply LW_bind. eapply L_next_top; eauto; [apply t_eof|]. intros z1 F1 _ _. eapply semi_operand_ok; eauto. apply first_ready.
  - rewrite Hi in Hp |- *. injection Hp as <-. split; reflexivity.
  - eapply lseat_plain; [exact Hn|rewrite Hi; exact I].
Qed.
Lemma infix_comma_ok : infix_of (t_kind t) = IP_Comma -> goal (infix_comma o dbg run t).
Proof.
  intros Hi. assert (Eq : q = PREC_COMMA) by (rewrite Hi in Hp; injection Hp as <-; reflexivity). unfold infix_comma. apply LW_bind, LW_debug, LW_bind. eapply L_next_top; eauto; [apply t_eof|]. intros z1 F1 _ _.
  assert (HR : ready IOP_CodeParser_Comma q C ([n] ++ [Tok t])).
  { apply first_ready; [rewrite Hi, Eq; split; reflexivity|]. rewrite Hi in Hn. exact Hn. }
  rewrite Eq in *. eapply comma_operand_ok; eauto.
Qed.
Lemma infix_colon_colon_ok : infix_of (t_kind t) = IP_ColonColon -> goal (infix_colon_colon o dbg run t).
Proof.
  intros Hi. unfold infix_colon_colon. apply LW_bind. eapply L_next_top; eauto; [apply t_eof|]. intros z1 F1 _ _. eapply tag_operand_ok; eauto. apply first_ready.
  - rewrite Hi in Hp |- *. injection Hp as <-. split; reflexivity.
  - eapply lseat_plain; [exact Hn|rewrite Hi; exact I].
Qed.
Lemma infix_file_ok : forall op, op = BOP_Put \/ op = BOP_PutAppend -> infix_of (t_kind t) = IP_GreaterGreater \/ infix_of (t_kind t) = IP_GreaterGreaterGreater -> goal (infix_file o dbg run op t).
Proof.
  intros op Hop Hi. assert (Hn' : sits [TK_Error_ExpectedOperand] n) by (eapply lseat_plain; [exact Hn|destruct Hi as [Hi|Hi]; rewrite Hi; exact I]).
  unfold infix_file. apply LW_bind. eapply L_next_top; eauto; [apply t_eof|]. intros z1 F1 _ _. apply LW_bind. eapply L_eat_file; eauto. intros u z2 ch2 F2 HL2 Ht2 N2 P2.
  apply LW_bind. eapply (L_next AsFile C z2 S ch2 _ u); eauto; [reflexivity|]. intros z3 F3 _ _. pose proof (fl_parts _ _ _ _ F3) as P. cbn [app] in P.
  assert (Hse : seat KBinary op = fun i => match i with O => [TK_Error_ExpectedOperand] | _ => [] end) by (destruct Hop as [-> | ->]; reflexivity).
  assert (Hnc' : not_colon (Op KBinary op (ch2 ++ [Tok u]))) by (apply nc_binary; destruct Hop as [-> | ->]; discriminate).
  eapply L_red; eauto.
  - apply locals_other; auto. eapply seated3; [exact P|..]; rewrite Hse; auto; [apply sits_none, t_none|apply sits_none; auto].
  - apply endc_none. intros q' b' L. inversion L as [| |op0 ch0 a0 t0 b0 q0 P0 H0 N1 N2'| | |]; subst. destruct Hop as [-> | ->]; contradiction.
Qed.
Lemma reduce_call_ok : forall z0 b q0, fl C z0 ch [n] -> sits [] n -> fine b -> good z0 ->
  LW (pbind reduce_call (fun _ => run CClimb)) (mkp z0 ((S ++ ch) ++ [b]) (mkctx q0 (length S) :: C) G) (whole S C G).
Proof.
  intros z0 b q0 F0 H0 Hb Hg0. apply LW_bind. intros [] s' E. unfold reduce_call, pbind, pop_context, pop_node in E. cbn [ctxs tz stack groups c_start] in E.
  rewrite rev_app_distr in E. cbn [rev app tz stack ctxs groups] in E. rewrite rev_involutive in E. rewrite not_short, skipn_len, firstn_len in E. pose proof (fl_parts _ _ _ _ F0) as P.
  assert (Hgo : forall (mi : bool) op ch' op', b = Op (if mi then KGroupMissingCloser else KGroup) op ch' -> LW (run CClimb) (mkp z0 (S ++ [Call (Concrete ch) mi op' ch']) C G) (whole S C G)).
  { intros mi op ch' op' ->. destruct (fine_inv _ Hb) as [(B1 & _) B2]. cbn [children] in B2. apply rec_climb; auto. split; [|split; [reflexivity|split; [|apply endc_call]]].
    - apply fine_node; [|cbn [children]; apply Forall_app; split; auto; apply (fl_fine _ _ _ _ F0)]. apply locals_other; [intros ch0; repeat split; intros X; discriminate X|].
      cbn [placeholders_ok]. split; [rewrite P; constructor; auto|]. apply Forall_forall. intros x Hx. apply In_nth_error in Hx as [i Hx]. apply B1 in Hx. destruct mi; exact Hx.
    - intros X. apply no_colon_call. apply (fl_plain _ _ _ _ F0 X). }
  destruct b as [f|h m op body|e l|kd op l|bx l src|a b' src]; try discriminate E. destruct kd; try discriminate E.
  - unfold plift in E. destruct (try_to_call_operator op) as [op'| |]; try discriminate E. cbn in E. injection E as <-. apply (Hgo false op l op'). reflexivity.
  - unfold plift in E. destruct (try_to_call_operator op) as [op'| |]; try discriminate E. cbn in E. injection E as <-. apply (Hgo true op l op'). reflexivity.
Qed.
Lemma infix_call_ok : forall opener op, infix_of (t_kind t) = IP_Call opener op -> goal (infix_call dbg run opener op t).
Proof.
  intros opener op Hi. unfold infix_call. apply LW_bind, L_set. cbn [c_start]. apply LW_bind. eapply LW_conseq; [apply (prefix_group_ok opener op t z (S ++ ch) (mkctx PREC_HIGHEST (length S) :: C) G)|].
  - apply (fl_good _ _ _ _ HF).
  - exact HL.
  - exact Hs.
  - pose proof (solidk_infix _ Hs) as If. unfold infix_facts in If. rewrite Hi in If.
    apply andb_true_iff in If as [If _]. apply andb_true_iff in If as [If1 If2]. destruct (prefix_of (t_kind t)) as [| | | | | | |pp0 po0|opener' op'| | |i1 i2| | | | |u1 u2|] eqn:Ep; try discriminate.
    apply andb_true_iff in If1 as [E1 E2]. apply Z.eqb_eq in E1, E2. subst opener' op'. reflexivity.
  - right. cbn [cprec c_prec]. vm_compute. discriminate.
  - intros [] s' (z' & n' & -> & G' & (N1 & N2 & N3 & N4) & N5 & N6). apply reduce_call_ok; auto; [eapply fl_move; eauto|]. rewrite Hi in Hn. exact Hn.
Qed.
End Infix.

(** ** Spans *)
Section Span.
Variables (S : list cst) (n : cst) (C : list ctx) (G : list Z) (t : token).
Hypothesis Hkd : t_kind t = TK_SemiSemi.
Hypothesis Hc : pc C.
Hypothesis Hn : sits [TK_Fake_ImplicitOne] n.
Local Notation goal z ch m := (LW m (mkp z (S ++ ch) (mkctx PREC_SEMISEMI (length S) :: C) G) (whole S C G)).
Lemma semis : forall u ks, t_kind u = TK_SemiSemi -> sits ks (Tok u).
Proof. intros u ks H. apply sits_none, placeholder_solid. rewrite H. reflexivity. Qed.
Lemma span_chk : chk C = true -> PREC_FAKE_PATTERNCOLON <= PREC_SEMISEMI.
Proof. intros _. vm_compute. discriminate. Qed.
Lemma span_binary_ok : forall z ch b, fl C z ch [n; Tok t; b] -> sits [TK_Fake_ImplicitAll] b -> stopc (mkctx PREC_SEMISEMI (length S) :: C) G (here z) b -> endc (mkctx PREC_SEMISEMI (length S) :: C) G (here z) b ->
  goal z ch (span_binary run).
Proof.
  intros z ch b F Hb B1 B2. unfold span_binary. pose proof (fl_parts _ _ _ _ F) as P. eapply L_red; eauto.
  - apply locals_other; [apply nc_binary; discriminate|]. eapply seated3; [exact P|..]; auto. apply semis; auto.
  - intros _. apply nc_binary; discriminate.
  - eapply (endc_node _ _ _ _ PREC_SEMISEMI (length S) b); eauto; try discriminate; [|reflexivity]. eapply (lasts_binary _ _ n t b PREC_SEMISEMI); eauto. intros _ _. rewrite Hkd. split; reflexivity.
Qed.
Lemma span_ternary_ok : forall z ch b u c, fl C z ch [n; Tok t; b; Tok u; c] -> t_kind u = TK_SemiSemi -> sits [TK_Fake_ImplicitAll] b -> sits [] c ->
  stopc (mkctx PREC_SEMISEMI (length S) :: C) G (here z) c -> endc (mkctx PREC_SEMISEMI (length S) :: C) G (here z) c -> goal z ch (span_ternary run).
Proof.
  intros z ch b u c F Hu Hb Hc' B1 B2. unfold span_ternary. pose proof (fl_parts _ _ _ _ F) as P. eapply L_red; eauto.
  - apply locals_other; [apply nc_op; discriminate|]. eapply seated5; [exact P|..]; auto; apply semis; auto.
  - intros _. apply nc_op; discriminate.
  - eapply (endc_node _ _ _ _ PREC_SEMISEMI (length S) c); eauto; try discriminate; [|reflexivity]. eapply (lasts_ternary _ _ n t b u c PREC_SEMISEMI PREC_SEMISEMI); eauto. right. left. auto 6.
Qed.
Lemma span_parse2_ok : forall z ch b, fl C z ch [n; Tok t; b] -> sits [TK_Fake_ImplicitAll] b -> stopc (mkctx PREC_SEMISEMI (length S) :: C) G (here z) b -> endc (mkctx PREC_SEMISEMI (length S) :: C) G (here z) b ->
  goal z ch (span_parse2 o dbg run).
Proof.
  intros z ch b F Hb B1 B2. pose proof (fl_good _ _ _ _ F) as Hg. unfold span_parse2. apply LW_bind, L_current_nl; auto. intros l3 t3 z1 G1 R1 St1 HL1 Hs1. cbv beta iota.
  destruct (negb (isPossibleBeginning (t_kind t3)) || negb (t_kind t3 =? TK_SemiSemi)) eqn:E3.
  - apply LW_bind. eapply (L_back (qtop G) isTriviaButNotToplevelNewline z z1); eauto; [reflexivity|]. intros z2 G2 H2 _. eapply span_binary_ok; eauto; try (rewrite H2; assumption). eapply fl_move; eauto.
  - apply orb_false_iff in E3 as [E3 E4]. rewrite negb_false_iff in E3, E4. apply Z.eqb_eq in E4.
    assert (N3 : t_kind t3 <> TK_EndOfFile) by (rewrite E4; discriminate).
    apply LW_bind. apply (L_skip (qtop G) z1 t3); auto; [reflexivity|]. intros z2 G2 H2 R2.
    apply LW_bind, L_current_nl; auto. intros l4 t4 z3 G3 R3 St3 HL3 Hs4. cbv beta iota.
    destruct (negb (isPossibleBeginning (t_kind t4)) || (t_kind t4 =? TK_SemiSemi)) eqn:E5.
    + apply LW_bind. apply (L_back (qtop G) isTriviaButNotToplevelNewline z2 z3 l4 t4); auto; [reflexivity|]. intros z4 G4 H4 R4.
      apply LW_bind. apply (L_reset z1 z4); auto; [eapply R_trans; eauto|]. intros z5 G5 H5 R5.
      apply LW_bind. apply (L_back (qtop G) isTriviaButNotToplevelNewline z z5 l3 t3); auto; [reflexivity|eapply R_trans; eauto|rewrite H5; exact St1|]. intros z6 G6 H6 _.
      eapply span_binary_ok; eauto; try (rewrite H6; assumption). eapply fl_move; eauto.
    + apply orb_false_iff in E5 as [E5 _]. rewrite negb_false_iff in E5. destruct (beginning_solid _ E5 Hs4) as (Hs5 & Hcon & Hcm).
      destruct (beginning_solid _ E3 Hs1) as (Hs3 & _ & _).
      assert (F1 : fl C z1 (ch ++ map Tok l3) [n; Tok t; b]) by (eapply (fl_trivia isTriviaButNotToplevelNewline); eauto; exact triv_newline).
      assert (F2 : fl C z2 ((ch ++ map Tok l3) ++ [Tok t3]) ([n; Tok t; b] ++ [Tok t3])) by (eapply fl_tok; eauto; apply solidk_trivia; auto).
      assert (F3 : fl C z3 (((ch ++ map Tok l3) ++ [Tok t3]) ++ map Tok l4) ([n; Tok t; b] ++ [Tok t3])) by (eapply (fl_trivia isTriviaButNotToplevelNewline); eauto; exact triv_newline).
      apply LW_bind, L_trivia, LW_bind, L_syntax, LW_bind, L_trivia. rewrite <- !app_assoc in *.
      apply LW_bind. eapply L_operand; eauto; [discriminate|apply span_chk|]. intros z4 c F4 Hc4. eapply (span_ternary_ok z4 _ b t3 c); eauto; [eapply opd_none; eauto|apply Hc4|apply Hc4].
Qed.
Lemma fake_all : forall u, sits [TK_Fake_ImplicitAll] (Tok (tok_at_start TK_Fake_ImplicitAll u)).
Proof. intros u k X. rewrite placeholder_at in X by reflexivity. injection X as <-. left. reflexivity. Qed.
Lemma span_parse1_ok : forall z ch, fl C z ch [n; Tok t] -> goal z ch (span_parse1 o dbg run).
Proof.
  intros z ch F. unfold span_parse1. apply LW_bind. eapply L_eat_nl; eauto. intros t2 z2 ch2 F2 HL2 Hs2.
  destruct (negb (isPossibleBeginning (t_kind t2))) eqn:E2; [|destruct (negb (t_kind t2 =? TK_SemiSemi)) eqn:E3].
  - apply LW_bind, L_leaf. rewrite <- app_assoc. eapply span_binary_ok; [apply (fake_fl _ _ _ _ _ t2 F2); reflexivity|apply fake_all|apply stopc_dead; reflexivity|apply endc_tok].
  - rewrite negb_false_iff in E2. destruct (beginning_solid _ E2 Hs2) as (Hs3 & Hcon & Hcm). apply LW_bind. eapply L_operand; eauto; [discriminate|apply span_chk|].
    intros z3 b F3 Hb. eapply (span_parse2_ok z3 _ b F3); [eapply opd_none; eauto|apply Hb|apply Hb].
  - rewrite negb_false_iff in E2, E3. destruct (beginning_solid _ E2 Hs2) as (Hs3 & Hcon & Hcm). apply Z.eqb_eq in E3.
    assert (N2 : t_kind t2 <> TK_EndOfFile) by (rewrite E3; discriminate).
    apply LW_bind, L_leaf. rewrite <- app_assoc. pose proof (fake_fl C z2 ch2 [n; Tok t] TK_Fake_ImplicitAll t2 F2 eq_refl) as F3. pose proof (fl_good _ _ _ _ F3) as G3.
    apply LW_bind. apply (L_skip (qtop G) z2 t2); auto; [reflexivity|]. intros z4 G4 H4 R4.
    apply LW_bind, L_current_nl; auto. intros l4 t3 z5 G5 R5 St5 HL5 Hs5. cbv beta iota.
    destruct (negb (isPossibleBeginning (t_kind t3)) || (t_kind t3 =? TK_SemiSemi)) eqn:E5.
    + apply LW_bind. apply (L_back (qtop G) isTriviaButNotToplevelNewline z4 z5 l4 t3); auto; [reflexivity|]. intros z6 G6 H6 R6.
      apply LW_bind. apply (L_reset z2 z6); auto; [eapply R_trans; eauto|]. intros z7 G7 H7 R7.
      eapply span_binary_ok; [eapply fl_move; [exact F3|exact G7]|apply fake_all|apply stopc_dead; reflexivity|apply endc_tok].
    + apply orb_false_iff in E5 as [E5 _]. rewrite negb_false_iff in E5. destruct (beginning_solid _ E5 Hs5) as (Hs6 & Hcon6 & Hcm6).
      assert (F4 : fl C z4 ((ch2 ++ [Tok (tok_at_start TK_Fake_ImplicitAll t2)]) ++ [Tok t2]) (([n; Tok t] ++ [Tok (tok_at_start TK_Fake_ImplicitAll t2)]) ++ [Tok t2])) by (eapply fl_tok; eauto; apply solidk_trivia; auto).
      pose proof (fl_trivia isTriviaButNotToplevelNewline _ _ z5 _ _ _ _ _ _ _ triv_newline F4 G5 St5) as F5.
      apply LW_bind, L_syntax, LW_bind, L_trivia. rewrite <- !app_assoc in *.
      apply LW_bind. eapply L_operand; eauto; [discriminate|apply span_chk|]. intros z6 c F6 Hc6.
      eapply (span_ternary_ok z6 _ (Tok (tok_at_start TK_Fake_ImplicitAll t2)) t2 c F6); [exact E3|apply fake_all|eapply opd_none; eauto|apply Hc6|apply Hc6].
Qed.
Lemma infix_span_ok : forall z ch, fl C z ch [n] -> looks o (qtop G) z t -> goal z ch (infix_span o dbg run t).
Proof.
  intros z ch F HL. unfold infix_span. apply LW_bind. eapply L_next_top; eauto; [rewrite Hkd; discriminate|rewrite Hkd; reflexivity|]. intros z1 F1 _ _. apply span_parse1_ok. exact F1.
Qed.
End Span.

(** ** Colons *)
Definition classified (n : cst) (lhs : colon_lhs) : Prop :=
  match lhs with ColonPattern => names n | ColonOptional => blank_like n | ColonError => ~ names n /\ ~ blank_like n end.
Lemma blanks_In : forall op, zin op [COP_CodeParser_PatternBlank; COP_CodeParser_PatternBlankSequence; COP_CodeParser_PatternBlankNullSequence; COP_Blank; COP_BlankSequence; COP_BlankNullSequence] = zin op BLANKS.
Proof.
  intros op. apply eq_true_iff_eq. rewrite !zin_In. unfold BLANKS. cbn [In]. split; intros H; repeat (destruct H as [H|H]; [subst; auto 8|]); destruct H.
Qed.
Lemma check_colon_ok : forall z S ch n C G (Q : colon_lhs -> pst -> Prop), parts ch = [n] -> (forall lhs, classified n lhs -> Q lhs (mkp z (S ++ ch) C G)) -> LW check_colon_lhs (mkp z (S ++ ch) C G) Q.
Proof.
  intros z S ch n C G Q P HQ lhs s' E. unfold check_colon_lhs in E. rewrite (top_node_parts z S ch C G [] n P) in E.
  destruct n as [f|h m op body|e l|kd op l|b l src|a b src].
  - cbv zeta in E. destruct (Z.eqb_spec (t_kind f) TK_Symbol) as [E1|E1]; [injection E as <- <-; apply HQ; exists f; auto|].
    destruct (zin (t_kind f) [TK_Under; TK_UnderUnder; TK_UnderUnderUnder]) eqn:E2; [injection E as <- <-; apply HQ; right; left; exists f; split; auto; apply zin_In; exact E2|].
    destruct (t_kind f =? TK_Colon); [discriminate|]. destruct (isError (t_kind f)) eqn:E3; injection E as <- <-; apply HQ; [exists f; auto|]. split.
    + intros (f' & X & Y). injection X as <-. destruct Y; [contradiction|congruence].
    + intros [[ch' X]|[(f' & X & Y)|(op' & ch' & X & _)]]; [discriminate X| |discriminate X]. injection X as <-. apply zin_In in Y. congruence.
  - injection E as <- <-. apply HQ. split; [intros (f & X & _); discriminate X|]. intros [[ch' X]|[(f' & X & Y)|(op' & ch' & X & _)]]; discriminate X.
  - injection E as <- <-. apply HQ. split; [intros (f & X & _); discriminate X|]. intros [[ch' X]|[(f' & X & Y)|(op' & ch' & X & _)]]; discriminate X.
  - destruct kd; try (injection E as <- <-; apply HQ; split; [intros (f & X & _); discriminate X|]; intros [[ch' X]|[(f' & X & Y)|(op' & ch' & X & _)]]; discriminate X).
    + destruct (Z.eqb_spec op BOP_Pattern) as [->|N]; injection E as <- <-; apply HQ; [left; exists l; reflexivity|]. split; [intros (f & X & _); discriminate X|].
      intros [[ch' X]|[(f' & X & Y)|(op' & ch' & X & _)]]; [injection X as X _; contradiction|discriminate X|discriminate X].
    + rewrite blanks_In in E. destruct (zin op BLANKS) eqn:E1; injection E as <- <-; apply HQ; [right; right; exists op, l; split; auto; apply zin_In; exact E1|].
      split; [intros (f & X & _); discriminate X|]. intros [[ch' X]|[(f' & X & Y)|(op' & ch' & X & Y)]]; [discriminate X|discriminate X|]. injection X as <- _. apply zin_In in Y. congruence.
  - injection E as <- <-. apply HQ. split; [intros (f & X & _); discriminate X|]. intros [[ch' X]|[(f' & X & Y)|(op' & ch' & X & _)]]; discriminate X.
  - injection E as <- <-. apply HQ. split; [intros (f & X & _); discriminate X|]. intros [[ch' X]|[(f' & X & Y)|(op' & ch' & X & _)]]; discriminate X.
Qed.

Section Colon.
Variables (ch : list cst) (n : cst) (t : token) (b : cst).
Hypothesis P : parts ch = [n; Tok t; b].
Hypothesis Hn : sits [TK_Error_ExpectedOperand] n.
Hypothesis Ht : placeholder (Tok t) = None.
Hypothesis Hb : sits [TK_Error_ExpectedOperand] b.
Hypothesis Hl : leftc n.
Lemma locals_pattern : names n -> no_colon b -> locals (Op KBinary BOP_Pattern ch).
Proof.
  intros H1 H2. split; [|split; [|split]].
  - eapply seated3; [exact P|..]; auto. apply sits_none. exact Ht.
  - intros ch0 a r. split; [|split]; intros X; try discriminate X. injection X as <-. rewrite P. intros Y. injection Y as <- _. exact H1.
  - intros ch0 a u c [X|X]; [|discriminate X]. injection X as <-. rewrite P. intros Y. injection Y as _ _ <-. exact H2.
  - intros ch0 a r X. assert (ch0 = ch) as -> by (destruct X as [X|[X|X]]; try discriminate X; injection X as <-; reflexivity). rewrite P. intros Y. injection Y as <- _. exact Hl.
Qed.
Lemma locals_optional : blank_like n -> locals (Op KBinary BOP_Optional ch).
Proof.
  intros H1. split; [|split; [|split]].
  - eapply seated3; [exact P|..]; auto. apply sits_none. exact Ht.
  - intros ch0 a r. split; [|split]; intros X; try discriminate X. injection X as <-. rewrite P. intros Y. injection Y as <- _. exact H1.
  - intros ch0 a u c X. exfalso. destruct X as [X|X]; discriminate X.
  - intros ch0 a r X. assert (ch0 = ch) as -> by (destruct X as [X|[X|X]]; try discriminate X; injection X as <-; reflexivity). rewrite P. intros Y. injection Y as <- _. exact Hl.
Qed.
Lemma locals_colon_error : ~ names n /\ ~ blank_like n -> no_colon b -> locals (SynErr ExpectedSymbol ch).
Proof.
  intros H1 H2. split; [|split; [|split]].
  - cbn [placeholders_ok]. rewrite P. repeat (apply Forall_cons; [try assumption; apply sits_none; assumption|]). apply Forall_nil.
  - intros ch0 a r. split; [|split]; intros X; try discriminate X. injection X as <-. rewrite P. intros Y. injection Y as <- _. exact H1.
  - intros ch0 a u c [X|X]; [discriminate X|]. injection X as <-. rewrite P. intros Y. injection Y as _ _ <-. exact H2.
  - intros ch0 a r X. assert (ch0 = ch) as -> by (destruct X as [X|[X|X]]; try discriminate X; injection X as <-; reflexivity). rewrite P. intros Y. injection Y as <- _. exact Hl.
Qed.
End Colon.

Lemma infix_colon_ok : forall z S ch n q C G t, fl C z ch [n] -> pc C -> chk C = false -> leftc n -> sits [TK_Error_ExpectedOperand] n -> looks o (qtop G) z t -> t_kind t = TK_Colon ->
  LW (infix_colon o dbg run t) (mkp z (S ++ ch) (mkctx q (length S) :: C) G) (whole S C G).
Proof.
  intros z S ch n q C G t HF Hc Ck Hl Hn HL Hkd. assert (Hs : solidk (t_kind t) = true) by (rewrite Hkd; reflexivity). assert (Ht : placeholder (Tok t) = None) by (apply placeholder_solid; auto).
  assert (Nc : forall x, chk C = true -> PREC_FAKE_PATTERNCOLON <= x) by congruence.
  unfold infix_colon. apply LW_bind. eapply check_colon_ok; [apply (fl_parts _ _ _ _ HF)|]. intros lhs Hlhs. apply LW_bind. eapply L_next_top; eauto; [rewrite Hkd; discriminate|]. intros z1 F1 _ _.
  apply LW_bind. eapply L_eat; eauto. intros u z2 ch2 l F2 HL2 Hs2 _. destruct lhs; cbn [classified] in Hlhs; apply LW_bind, L_set; cbn [c_start]; apply LW_bind;
    (eapply L_operand; eauto; [vm_compute; discriminate|discriminate|]); intros z3 b F3 Hb; pose proof (fl_parts _ _ _ _ F3) as P; cbn [app] in P;
    (assert (Hb' : sits [TK_Error_ExpectedOperand] b) by (eapply opd_eo; [exact Hb|discriminate])).
  - assert (Hnc : no_colon b) by (apply Hb; reflexivity). eapply L_red; eauto; [eapply locals_pattern; eauto|congruence|]. intros _ _. right. left. eexists. reflexivity.
  - eapply L_red; eauto; [eapply locals_optional; eauto|congruence|]. destruct Hb as (B1 & B2 & _). eapply (endc_node _ _ _ _ PREC_FAKE_OPTIONALCOLON (length S) b); eauto; try discriminate; [|reflexivity].
    eapply (lasts_binary _ _ n t b); eauto. intros _ _. rewrite Hkd. right. auto.
  - assert (Hnc : no_colon b) by (apply Hb; reflexivity). eapply L_red_error; eauto; [eapply locals_colon_error; eauto|congruence|]. intros _ _. right. right. eexists. reflexivity.
Qed.

(** ** Implicit multiplication *)
Lemma L_next_fake : forall D z S ch ps t0 C G (Q : unit -> pst -> Prop), fl D z ch ps -> looks o (qtop G) z t0 ->
  (forall z', fl D z' (ch ++ [Tok (tok_at_start TK_Fake_ImplicitTimes t0)]) (ps ++ [Tok (tok_at_start TK_Fake_ImplicitTimes t0)]) ->
     Q tt (mkp z' (S ++ (ch ++ [Tok (tok_at_start TK_Fake_ImplicitTimes t0)])) C G)) ->
  LW (push_syntax_and_next dbg (tok_at_start TK_Fake_ImplicitTimes t0)) (mkp z (S ++ ch) C G) Q.
Proof.
  intros D z S ch ps t0 C G Q HF HL HQ. unfold push_syntax_and_next. apply LW_bind, L_syntax. rewrite <- app_assoc. apply LW_PW.
  apply (PW_skip_fake o base True (qtop G)); [apply (fl_good _ _ _ _ HF)|reflexivity|exact HL|reflexivity|discriminate|]. intros z' G' H' L'. apply HQ. eapply fl_tok; eauto.
Qed.
Definition times_token (G : list Z) (z : st) (t : token) : Prop :=
  (looks o (qtop G) z t /\ solidk (t_kind t) = true /\ infix_of (t_kind t) = IP_Times) \/ (exists t0, t = tok_at_start TK_Fake_ImplicitTimes t0 /\ looks o (qtop G) z t0).
Lemma times_seat : forall i, seat KInfix IOP_Times i = [TK_Error_ExpectedOperand].
Proof. intros i. reflexivity. Qed.
Lemma times_plain : forall G z t, times_token G z t -> placeholder (Tok t) = None.
Proof. intros G z t [(_ & H & _)|(t0 & -> & _)]; [apply placeholder_solid; auto|reflexivity]. Qed.
Lemma times_operand : forall z S ch ps t q C G, fl C z ch ps -> times_token G z t -> ready IOP_Times q C (ps ++ [Tok t]) -> q <> PREC_COMMA ->
  LW (pbind (push_syntax_and_next dbg t) (fun _ => pbind (eat_trivia o dbg) (fun u => pbind (run (CPrefix u)) (fun _ => run CTimesLoop)))) (mkp z (S ++ ch) (mkctx q (length S) :: C) G) (whole S C G).
Proof.
  intros z S ch ps t q C G HF Ht HR Nq. apply LW_bind.
  assert (K : forall z', fl C z' (ch ++ [Tok t]) (ps ++ [Tok t]) -> LW (pbind (eat_trivia o dbg) (fun u => pbind (run (CPrefix u)) (fun _ => run CTimesLoop)))
     (mkp z' (S ++ (ch ++ [Tok t])) (mkctx q (length S) :: C) G) (whole S C G)).
  { intros z' F'. apply LW_bind. eapply L_eat; eauto. intros u z2 ch2 l F2 HL2 Hs2 _. eapply (chain_operand_ok CTimesLoop IOP_Times); eauto. intros s Hch Hcp. split; auto. congruence. }
  destruct Ht as [(HL & Hs & Hi)|(t0 & -> & HL)].
  - eapply L_next_top; eauto. apply not_eof. rewrite Hi. discriminate.
  - eapply L_next_fake; eauto.
Qed.

(** ** Infix requests *)
Lemma parse_infix_ok : forall t S C G s, pre (CInfix t) S C G s -> LW (parse_infix o dbg run t) s (post (CInfix t) S C G s).
Proof.
  intros t S C G s (z & ch & n & q & -> & F & Hc & Hq & Ht & Hn & Hl). change (post (CInfix t) S C G (mkp z (S ++ ch) (mkctx q (length S) :: C) G)) with (whole S C G).
  destruct Ht as [(HL & Hs & [[Hi Ck]|[Hnc Hp]])|(-> & t0 & -> & HL)].
  - pose proof (solidk_infix _ Hs) as If. unfold infix_facts in If. unfold parse_infix. rewrite Hi in If, Hn |- *. apply andb_true_iff in If as [If _]. apply Z.eqb_eq in If.
    eapply infix_colon_ok; eauto.
  - pose proof (solidk_infix _ Hs) as If. unfold infix_facts in If. pose proof (solid_op _ Hs) as Hop. destruct (solid_iprec _ _ Hs Hp) as (I1 & I2 & I3).
    assert (Nq : q = PREC_COMMA -> infix_of (t_kind t) = IP_Comma) by (intros X; apply (proj2 (solid_comma _ Hs)); apply I2; exact X).
    unfold parse_infix. destruct (infix_of (t_kind t)) as [| | | |p op|p op| |p op|opener op| | | | | | | | | | |] eqn:Ei;
      cbn [iprec] in Hp; try discriminate Hp; apply andb_true_iff in If as [If _]; injection Hp as Hp.
    + assert (Hb : forall i, seat KBinary op i = [TK_Error_ExpectedOperand]).
      { intros i. cbn [seat]. destruct (Z.eqb_spec op BOP_Span); [exfalso; apply Hop; cbn; auto|]. destruct (zin op [BOP_Put; BOP_PutAppend; BOP_Unset]) eqn:Ez; auto.
        exfalso. apply zin_In in Ez. apply Hop. cbn in Ez |- *. tauto. }
      eapply infix_binary_ok; eauto; try (rewrite Ei; cbn [iprec]; try congruence; try split; auto; fail); try (intros X; apply Hop; cbn; auto; fail). intros X. discriminate (Nq X).
    + apply negb_true_iff in If. eapply infix_infix_ok; eauto; try (rewrite Ei; cbn [iprec]; first [congruence|exact Hn]).
    + eapply infix_times_ok; eauto; try (rewrite Ei; cbn [iprec]; first [congruence|exact Hn]).
    + eapply infix_postfix_ok; eauto; try (rewrite Ei; cbn [iprec]; first [congruence|exact Hn]).
    + eapply infix_call_ok; eauto; try (rewrite Ei; cbn [iprec]; first [congruence|exact Hn]).
    + eapply infix_comma_ok; eauto; try (rewrite Ei; cbn [iprec]; first [congruence|exact Hn]).
    + eapply infix_semi_ok; eauto; try (rewrite Ei; cbn [iprec]; first [congruence|exact Hn]).
    + apply andb_true_iff in If as [If _]. apply Z.eqb_eq in If. subst q. eapply infix_span_ok; eauto. intros k X. destruct (Hn k X).
    + apply Z.eqb_eq in If. eapply infix_tilde_ok; eauto; try (rewrite Ei; cbn [iprec]; first [congruence|exact Hn]).
    + contradiction.
    + apply Z.eqb_eq in If. eapply infix_slash_colon_ok; eauto; try (rewrite Ei; cbn [iprec]; first [congruence|exact Hn]).
    + eapply infix_equal_ok; eauto; try (rewrite Ei; cbn [iprec]; first [congruence|exact Hn]).
    + eapply infix_binary_ok; eauto; try (rewrite Ei; cbn [iprec]; try congruence; try split; auto; fail); try discriminate. subst q. discriminate.
    + eapply infix_colon_colon_ok; eauto; try (rewrite Ei; cbn [iprec]; first [congruence|exact Hn]).
    + eapply infix_file_ok; eauto; try (rewrite Ei; cbn [iprec]; first [congruence|exact Hn]).
    + eapply infix_file_ok; eauto; try (rewrite Ei; cbn [iprec]; first [congruence|exact Hn]).
  - unfold parse_infix. change (t_kind (tok_at_start TK_Fake_ImplicitTimes t0)) with TK_Fake_ImplicitTimes in *. rewrite infix_fake in *. unfold infix_times.
    eapply (times_operand z S ch [n]); eauto; [right; eauto| |discriminate]. split; [|split; [exists n, (tok_at_start TK_Fake_ImplicitTimes t0), []; split; auto; split; reflexivity|split; [split; [discriminate|reflexivity]|split; [discriminate|auto]]]].
    apply seated_snoc; [apply (seated_snoc _ _ [] n); [apply seated_nil|exact Hn]|apply sits_none; reflexivity].
Qed.


(** ** Loops *)
Lemma loop_reduce : forall op z (S : list cst) ch ps q C G, fl C z ch ps -> seated KInfix op ps -> headc op q ps -> lastc op q (length S) C G (here z) ps -> 2 <= q < PREC_HIGHEST -> q <> PREC_FAKE_PATTERNCOLON -> pc C ->
  fine (Op KInfix op ch) /\ (chk C = true -> no_colon (Op KInfix op ch)) /\ endc C G (here z) (Op KInfix op ch).
Proof.
  intros op z S ch ps q C G F Hse Hh Hla Hq Nq Hc. pose proof (fl_parts _ _ _ _ F) as P. assert (Nc : not_colon (Op KInfix op ch)) by (apply nc_op; discriminate). split; [|split].
  - apply fine_node; [|apply (fl_fine _ _ _ _ F)]. apply locals_other; auto. intros i a E. rewrite P in E. exact (Hse i a E).
  - intros X. apply no_colon_op; auto. apply (fl_plain _ _ _ _ F X).
  - destruct Hla as (l & b & El & [->|[B1 B2]]).
    + apply endc_none. intros q' b' L. inversion L; subst. contradiction.
    + destruct Hh as (a & t & r & Er & Hent). eapply (endc_node _ _ _ _ q (length S) b); eauto; try lia. eapply lasts_infix; [rewrite P; exact Er|rewrite P; exact El|intros _; exact Hent].
Qed.
Lemma chain_reduce : forall op z S ch ps q C G, fl C z ch ps -> seated KInfix op ps -> headc op q ps -> lastc op q (length S) C G (here z) ps -> 2 <= q < PREC_HIGHEST -> q <> PREC_FAKE_PATTERNCOLON -> pc C ->
  LW (pbind (reduce_op KInfix op) (fun _ => run CClimb)) (mkp z (S ++ ch) (mkctx q (length S) :: C) G) (whole S C G).
Proof.
  intros op z S ch ps q C G F Hse Hh Hla Hq Nq Hc. destruct (loop_reduce _ _ _ _ _ _ _ _ F Hse Hh Hla Hq Nq Hc) as (H1 & H2 & H3).
  apply LW_bind, L_reduce, rec_climb; auto; [apply (fl_good _ _ _ _ F)|]. split; auto.
Qed.
Lemma ready_more : forall op q C ps t, ready op q C ps -> placeholder (Tok t) = None -> ready op q C (ps ++ [Tok t]).
Proof.
  intros op q C ps t (R1 & R2 & R) Ht. split; [apply seated_snoc; auto; apply sits_none; exact Ht|]. split; [apply headc_app; auto|exact R].
Qed.
Lemma chain_ready : forall op S C G s, chain op S C G s -> exists z ch ps q, s = mkp z (S ++ ch) (mkctx q (length S) :: C) G /\ fl C z ch ps /\ ready op q C ps /\ lastc op q (length S) C G (here z) ps.
Proof. intros op S C G s (z & ch & ps & q & -> & F & Hse & Hh & Hla & Hq & Nq & Hc & Hpg). exists z, ch, ps, q. split; [reflexivity|]. split; [exact F|]. split; [|exact Hla]. split; [exact Hse|]. split; [exact Hh|]. split; [exact Hq|]. split; [exact Nq|]. split; [exact Hc|exact Hpg]. Qed.
Lemma ready_reduce : forall op z z2 S ch ps q C G, fl C z ch ps -> ready op q C ps -> lastc op q (length S) C G (here z) ps -> good z2 -> here z2 = here z ->
  LW (pbind (reduce_op KInfix op) (fun _ => run CClimb)) (mkp z2 (S ++ ch) (mkctx q (length S) :: C) G) (whole S C G).
Proof.
  intros op z z2 S ch ps q C G F (R1 & R2 & R3 & R4 & R5 & R6) Hla G2 H2. eapply chain_reduce; eauto; [eapply fl_move; eauto|rewrite H2; auto].
Qed.
Lemma infix_loop_ok : forall op S C G s, pre (CInfixLoop op) S C G s -> LW (infix_loop o dbg run op) s (post (CInfixLoop op) S C G s).
Proof.
  intros op S C G s (Hch & Hop & Hz & Hcm). destruct (chain_ready _ _ _ _ _ Hch) as (z & ch & ps & q & -> & F & HR & Hla). cbn [ctxs cprec c_prec] in Hcm. change (post (CInfixLoop op) S C G (mkp z (S ++ ch) (mkctx q (length S) :: C) G)) with (whole S C G).
  unfold infix_loop. apply LW_bind. apply L_current; [apply (fl_good _ _ _ _ F)|]. intros l t z1 G1 R1 St1 HL1 Hs1. cbv beta iota. destruct (is_infix_op op (infix_of (t_kind t))) eqn:Ei; cbn [negb].
  - destruct (infix_op_entry _ _ Hz Ei) as (q' & He). pose proof (infix_entry_some _ _ _ He) as Hi.
    apply LW_bind. eapply L_commit; eauto; [apply not_eof; auto|]. intros z2 ch2 F2. apply LW_bind. eapply L_eat; eauto. intros u z3 ch3 l3 F3 HL3 Hs3 _.
    eapply (chain_operand_ok (CInfixLoop op) op); eauto.
    + intros s Hs' Hq'. split; auto. split; auto. split; auto. congruence.
    + apply seat_infix; auto.
    + apply ready_more; auto. apply placeholder_solid; auto.
  - apply LW_bind. eapply (L_back (qtop G) isTrivia z z1); eauto; [reflexivity|apply (fl_good _ _ _ _ F)|]. intros z2 G2 H2 _. eapply ready_reduce; eauto.
Qed.
Lemma times_rest : forall triv z z1 S ch ps q C G l n t t', fl C z ch ps -> ready IOP_Times q C ps -> lastc IOP_Times q (length S) C G (here z) ps -> q <> PREC_COMMA ->
  (forall kd, triv kd = true -> isTrivia kd = true) -> good z1 -> R o z z1 -> strip o (qtop G) triv (here z) l t (here z1) -> looks o (qtop G) z1 t ->
  solidk (t_kind t) = true \/ t_kind t = TK_ToplevelNewline -> implied (mkctx q (length S) :: C) n t t' ->
  LW (if negb (is_infix_op IOP_Times (infix_of (t_kind t'))) then (trivia_reset l ;; reduce_op KInfix IOP_Times ;; run CClimb)%parser
      else (commit_syntax_and_next dbg l t' ;; u <- eat_trivia o dbg ;; run (CPrefix u) ;; run CTimesLoop)%parser)
     (mkp z1 (S ++ ch) (mkctx q (length S) :: C) G) (whole S C G).
Proof.
  intros triv z z1 S ch ps q C G l n t t' F HR Hla Nq Htr G1 R1 St1 HL1 Hs1 Hi. destruct (is_infix_op IOP_Times (infix_of (t_kind t'))) eqn:Ei; cbn [negb].
  - assert (Tt : times_token G z1 t').
    { destruct Hi as [(-> & N1 & N2)|(-> & Hs' & Hcons & N & _)].
      - left. split; auto. assert (Hs' : solidk (t_kind t) = true).
        { destruct Hs1 as [Hs1|Hs1]; auto. rewrite Hs1 in Ei. vm_compute in Ei. discriminate. }
        split; auto. pose proof (solidk_infix _ Hs') as If. unfold infix_facts in If. unfold is_infix_op in Ei.
        destruct (infix_of (t_kind t)); cbn [get_op] in Ei; try discriminate Ei; auto.
        exfalso. apply andb_true_iff in If as [If _]. apply Z.eqb_eq in Ei. subst. vm_compute in If. discriminate If.
      - right. exists t; auto. }
    apply LW_bind. unfold commit_syntax_and_next. apply LW_bind, L_trivia. rewrite <- app_assoc.
    assert (F1 : fl C z1 (ch ++ map Tok l) ps) by (eapply (fl_trivia triv); eauto).
    pose proof (times_operand z1 S _ ps t' q C G F1 Tt (ready_more _ _ _ _ _ HR (times_plain _ _ _ Tt)) Nq) as K.
    intros a s' E1 a2 s2 E2. apply (K a2 s2). unfold pbind at 1. rewrite E1. exact E2.
  - apply LW_bind. eapply (L_back (qtop G) triv z z1); eauto; [reflexivity|apply (fl_good _ _ _ _ F)|]. intros z2 G2 H2 _. eapply ready_reduce; eauto.
Qed.
Lemma times_loop_ok : forall S C G s, pre CTimesLoop S C G s -> LW (times_loop o dbg run) s (post CTimesLoop S C G s).
Proof.
  intros S C G s (Hch & Hcm). destruct (chain_ready _ _ _ _ _ Hch) as (z & ch & ps & q & -> & F & HR & Hla). cbn [ctxs cprec c_prec] in Hcm. change (post CTimesLoop S C G (mkp z (S ++ ch) (mkctx q (length S) :: C) G)) with (whole S C G).
  pose proof Hla as (r & b & Er & _). pose proof (fl_parts _ _ _ _ F) as P. rewrite Er in P. pose proof (fl_good _ _ _ _ F) as Hg.
  unfold times_loop. apply LW_bind. apply L_current; auto. intros l t z1 G1 R1 St1 HL1 Hs1. cbv beta iota.
  apply LW_bind. apply LW_PW. eapply (implicit_ok True); eauto. intros t' Hi. apply LW_bind. destruct (t_kind t' =? TK_Fake_ImplicitTimes) eqn:Ef.
  - apply LW_bind. eapply (L_back (qtop G) isTrivia z z1); eauto; [reflexivity|]. intros z2 G2 H2 R2. apply LW_bind. apply L_current_nl; auto.
    intros l3 t3 z3 G3 R3 St3 HL3 Hs3. cbv beta iota. apply LW_bind. apply LW_PW. eapply (implicit_ok True); eauto. intros t4 Hi4. apply LW_ret. cbv beta iota.
    eapply (times_rest isTriviaButNotToplevelNewline z2 z3); eauto; [eapply fl_move; eauto|rewrite H2; auto|apply triv_newline].
  - apply LW_ret. cbv beta iota. eapply (times_rest isTrivia z z1); eauto.
Qed.
Lemma semi_loop_ok : forall S C G s, pre CSemiLoop S C G s -> LW (semi_loop o dbg run) s (post CSemiLoop S C G s).
Proof.
  intros S C G s Hch. destruct (chain_ready _ _ _ _ _ Hch) as (z & ch & ps & q & -> & F & HR & Hla). change (post CSemiLoop S C G (mkp z (S ++ ch) (mkctx q (length S) :: C) G)) with (whole S C G).
  pose proof (fl_good _ _ _ _ F) as Hg. unfold semi_loop. apply LW_bind. apply L_current; auto. intros l t z1 G1 R1 St1 HL1 Hs1. cbv beta iota. destruct (t_kind t =? TK_Semi) eqn:Et; cbn [negb].
  - apply Z.eqb_eq in Et. apply LW_bind. eapply L_commit; eauto; [rewrite Et; discriminate|]. intros z2 ch2 F2. eapply semi_operand_ok; eauto. apply ready_more; auto. apply placeholder_solid; auto.
  - apply LW_bind. eapply (L_back (qtop G) isTrivia z z1); eauto; [reflexivity|]. intros z2 G2 H2 _. unfold reduce_compound. eapply ready_reduce; eauto.
Qed.
Lemma colon_colon_loop_ok : forall S C G s, pre CColonColonLoop S C G s -> LW (colon_colon_loop o dbg run) s (post CColonColonLoop S C G s).
Proof.
  intros S C G s Hch. destruct (chain_ready _ _ _ _ _ Hch) as (z & ch & ps & q & -> & F & HR & Hla). change (post CColonColonLoop S C G (mkp z (S ++ ch) (mkctx q (length S) :: C) G)) with (whole S C G).
  pose proof (fl_good _ _ _ _ F) as Hg. unfold colon_colon_loop. apply LW_bind. apply L_current; auto. intros l t z1 G1 R1 St1 HL1 Hs1. cbv beta iota. destruct (t_kind t =? TK_ColonColon) eqn:Et; cbn [negb].
  - apply Z.eqb_eq in Et. apply LW_bind. eapply L_commit; eauto; [rewrite Et; discriminate|]. intros z2 ch2 F2. eapply tag_operand_ok; eauto. apply ready_more; auto. apply placeholder_solid; auto.
  - apply LW_bind. eapply (L_back (qtop G) isTrivia z z1); eauto; [reflexivity|]. intros z2 G2 H2 _. eapply ready_reduce; eauto.
Qed.
Lemma comma_loop_ok : forall S C G s, pre CCommaLoop S C G s -> LW (comma_loop o dbg run) s (post CCommaLoop S C G s).
Proof.
  intros S C G s (Hch & Hcm). destruct (chain_ready _ _ _ _ _ Hch) as (z & ch & ps & q & -> & F & HR & Hla). cbn [ctxs cprec c_prec] in Hcm. subst q.
  change (post CCommaLoop S C G (mkp z (S ++ ch) (mkctx PREC_COMMA (length S) :: C) G)) with (whole S C G).
  pose proof (fl_good _ _ _ _ F) as Hg. unfold comma_loop. apply LW_bind. apply L_current; auto. intros l t z1 G1 R1 St1 HL1 Hs1. cbv beta iota. destruct (is_comma (t_kind t)) eqn:Et; cbn [negb].
  - apply LW_bind. eapply L_commit; eauto; [intros X; rewrite X in Et; discriminate|]. intros z2 ch2 F2. eapply comma_operand_ok; eauto. apply ready_more; auto. apply placeholder_solid; auto.
  - apply LW_bind. eapply (L_back (qtop G) isTrivia z z1); eauto; [reflexivity|]. intros z2 G2 H2 _. destruct HR as (T1 & T2 & T3 & T4 & T5 & T6).
    destruct (loop_reduce IOP_CodeParser_Comma z2 S ch ps PREC_COMMA C G) as (K1 & K2 & K3); auto; [eapply fl_move; eauto|rewrite H2; auto|].
    apply L_reduce. exists z2, (Op KInfix IOP_CodeParser_Comma ch). split; auto. split; auto. split; [split; auto|]. split; [apply stopc_dead; reflexivity|reflexivity].
Qed.

(** ** Groups *)
Lemma L_reduce_group : forall k op p c z st ch C G (Q : unit -> pst -> Prop), Q tt (mkp z (st ++ [Op k op ch]) C G) -> LW (reduce_group_as k op) (mkp z (st ++ ch) (mkctx p (length st) :: C) (c :: G)) Q.
Proof.
  intros k op p c z st ch C G Q H a s' E. unfold reduce_group_as, pbind, pop_context, pop_group, passert in E. cbn [stack tz ctxs groups c_start] in E.
  rewrite not_short, skipn_len, firstn_len in E. destruct (negb (length ch =? 0)%nat); [|discriminate E]. injection E as <- <-. exact H.
Qed.
Lemma L_reduce_open : forall op p c z st ch C G (Q : unit -> pst -> Prop), Q tt (mkp z (st ++ [Op KGroupMissingCloser op ch]) C G) ->
  LW (reduce_unterminated_group keep op) (mkp z (st ++ ch) (mkctx p (length st) :: C) (c :: G)) Q.
Proof.
  intros op p c z st ch C G Q H a s' E. unfold reduce_unterminated_group, pbind, pop_context, pop_group in E. cbn [stack tz ctxs groups c_start] in E.
  rewrite not_short, skipn_len, firstn_len in E. injection E as <- <-. exact H.
Qed.
Lemma seat_group : forall op i, seat KGroup op i = [TK_Error_UnexpectedCloser]. Proof. reflexivity. Qed.
Lemma group_fine : forall kd op z ch ps, kd = KGroup \/ kd = KGroupMissingCloser -> fl [] z ch ps -> seated KGroup op ps -> fine (Op kd op ch).
Proof.
  intros kd op z ch ps Hk F Hse. apply fine_node; [|apply (fl_fine _ _ _ _ F)]. apply locals_other; [apply nc_op; destruct Hk; subst; discriminate|].
  intros i a E. rewrite (fl_parts _ _ _ _ F) in E. destruct Hk; subst; exact (Hse i a E).
Qed.
Lemma group_nd : forall kd op z z2 ch ps C G, kd = KGroup \/ kd = KGroupMissingCloser -> fl [] z ch ps -> seated KGroup op ps -> nd C G z2 (Op kd op ch).
Proof.
  intros kd op z z2 ch ps C G Hk F Hse. split; [eapply group_fine; eauto|]. split; [reflexivity|]. split; [intros _; apply no_colon_group; exact Hk|]. apply endc_op. destruct Hk; subst; reflexivity.
Qed.
Lemma no_colon_follows : forall G p, (forall l t p', strip o (qtop G) isTrivia p l t p' -> t_kind t <> TK_Colon) -> ~ follows G p TK_Colon.
Proof.
  intros G p H (l & t & p' & St & Ek). destruct (strip_newline _ _ _ _ _ _ St) as [St'|St']; [exact (H _ _ _ St' Ek)|]. rewrite St' in Ek. discriminate.
Qed.
Lemma group_loop_ok : forall op closer S C G s, pre (CGroupLoop op closer) S C G s -> LW (group_loop o dbg keep run op closer) s (post (CGroupLoop op closer) S C G s).
Proof.
  intros op closer S C G s (z & ch & ps & -> & F & Hse & Hc & Hcl). change (post (CGroupLoop op closer) S C G (mkp z (S ++ ch) (mkctx 0 (length S) :: C) (closer :: G))) with (whole S C G).
  pose proof (fl_good _ _ _ _ F) as Hg. unfold group_loop. apply LW_bind. apply L_current; auto. intros l u z1 G1 R1 St1 HL1 Hs1. cbv beta iota.
  destruct (TokenToCloser (t_kind u) =? closer) eqn:Ecl; [|destruct (isCloser (t_kind u)) eqn:Ecu].
  - apply Z.eqb_eq in Ecl. assert (Nu : t_kind u <> TK_EndOfFile).
    { intros X. rewrite X in Ecl. assert (Y : closer = -1) by (rewrite <- Ecl; reflexivity). rewrite Y in Hcl. vm_compute in Hcl. discriminate. }
    apply LW_bind. eapply L_commit; eauto. intros z2 ch2 F2. apply LW_bind. unfold reduce_group. apply L_reduce_group.
    apply rec_climb; auto; [apply (fl_good _ _ _ _ F2)|]. eapply group_nd; eauto. apply seated_snoc; auto. apply sits_none, placeholder_solid; auto.
  - intros a s' E. revert a s' E. match goal with |- forall a s', ?m ?s = Ok (a, s') -> _ => change (LW m s (whole S C G)) end.
    destruct (check_group (TokenToCloser (t_kind u)) (mkp z1 (S ++ ch) (mkctx 0 (length S) :: C) (closer :: G))) eqn:Ech.
    + apply LW_bind. eapply (L_back (qtop (closer :: G)) isTrivia z z1); eauto; [reflexivity|]. intros z2 G2 H2 _. unfold reduce_group_missing_closer. apply L_reduce_group.
      exists z2, (Op KGroupMissingCloser op ch). split; auto. split; auto. split; [eapply group_nd; eauto|]. split; [|reflexivity]. intros X. exfalso. revert X. apply no_colon_follows. rewrite H2.
      unfold check_group in Ech. cbn [groups existsb] in Ech. rewrite Ecl in Ech. cbn [orb] in Ech. apply existsb_exists in Ech as (c & Hin & _).
      assert (Q : qtop G = qtop (closer :: G)) by (destruct G; [contradiction|reflexivity]). rewrite Q. intros l' u' p' St' K.
      destruct (strip_det o (qtop (closer :: G)) isTrivia _ _ _ _ eq_refl St1 _ _ _ St') as (_ & <- & _). rewrite K in Ecu. vm_compute in Ecu. discriminate.
    + assert (Nu : t_kind u <> TK_EndOfFile) by (intros X; rewrite X in Ecu; vm_compute in Ecu; discriminate).
      apply LW_bind, L_trivia. rewrite <- app_assoc. apply LW_bind. unfold prefix_toplevel_closer. apply LW_bind, LW_assert. intros _. apply LW_bind, L_leaf. rewrite <- app_assoc.
      apply (L_skip (qtop (closer :: G)) z1 u); auto; [reflexivity|]. intros z2 G2 H2 R2. apply (rec_loop (CGroupLoop op closer)); auto.
      exists z2, ((ch ++ map Tok l) ++ [Tok (tok_at TK_Error_UnexpectedCloser u)]), (ps ++ [Tok (tok_at TK_Error_UnexpectedCloser u)]). split; auto. split.
      * eapply fl_tok; [eapply (fl_trivia isTrivia); eauto|exact G2|reflexivity].
      * split; auto. apply seated_snoc; auto. rewrite seat_group. intros k X. cbn in X. injection X as <-. left. reflexivity.
  - apply LW_bind, L_trivia. rewrite <- app_assoc. assert (F1 : fl [] z1 (ch ++ map Tok l) ps) by (eapply (fl_trivia isTrivia); eauto). destruct (Z.eqb_spec (t_kind u) TK_EndOfFile) as [Eu|Nu].
    + apply L_reduce_open. exists z1, (Op KGroupMissingCloser op (ch ++ map Tok l)). split; auto. split; auto. split; [eapply group_nd; eauto|]. split; [|reflexivity].
      intros X. exfalso. revert X. apply no_colon_follows. intros l' t' p' St' K. pose proof (stops_eof o G [] z1 u (isg (closer :: G)) HL1 Eu _ _ _ St') as [Y|[Y _]]; rewrite K in Y; [discriminate|vm_compute in Y; discriminate].
    + apply LW_bind. eapply LW_conseq; [apply (IH (CPrefix u) (S ++ (ch ++ map Tok l)) (mkctx 0 (length S) :: C) (closer :: G))|].
      * exists z1. split; auto. split; auto. split; auto. split; auto. split; [left; reflexivity|]. split; [intros X; discriminate X|auto].
      * intros [] s' (z2 & n & -> & G2 & (N1 & N2 & _) & _ & N6). assert (Np : placeholder n = None).
        { destruct (placeholder n) as [k|] eqn:Ek; auto. exfalso. destruct (N6 k Ek) as (_ & _ & [[_ X]|(_ & X & _)]); [discriminate X|apply X; reflexivity]. }
        rewrite <- app_assoc. apply (rec_loop (CGroupLoop op closer)); auto. exists z2, ((ch ++ map Tok l) ++ [n]), (ps ++ [n]). split; auto.
        split; [eapply fl_snoc; eauto; discriminate|]. split; auto. apply seated_snoc; auto. apply sits_none. exact Np.
Qed.

(** ** Climbing *)
Lemma follows_det : forall G p l t p' kd, strip o (qtop G) isTriviaButNotToplevelNewline p l t p' -> follows G p kd -> t_kind t = kd.
Proof.
  intros G p l t p' kd St (l2 & t2 & p2 & St2 & <-). destruct (strip_det o (qtop G) isTriviaButNotToplevelNewline _ _ _ _ eq_refl St _ _ _ St2) as (_ & <- & _). reflexivity.
Qed.
Lemma comma_det : forall G p l t p' t0, strip o (qtop G) isTriviaButNotToplevelNewline p l t p' -> reads o (qtop G) p t0 -> is_comma (t_kind t0) = true -> t = t0.
Proof.
  intros G p l t p' t0 St Ht0 Hcm.
  assert (Tr0 : isTrivia (t_kind t0) = false) by (unfold is_comma in Hcm; apply orb_true_iff in Hcm as [X|X]; apply Z.eqb_eq in X; rewrite X; reflexivity).
  assert (Tr1 : isTriviaButNotToplevelNewline (t_kind t0) = false) by (destruct (isTriviaButNotToplevelNewline (t_kind t0)) eqn:X; auto; apply triv_newline in X; congruence).
  pose proof (strip_nil o (qtop G) isTriviaButNotToplevelNewline _ t0 Ht0 Tr1) as St'.
  destruct (strip_det o (qtop G) isTriviaButNotToplevelNewline _ _ _ _ eq_refl St _ _ _ St') as (_ & -> & _). reflexivity.
Qed.
Lemma colon_kind : infix_of TK_Colon = IP_Colon. Proof. vm_compute. reflexivity. Qed.
Lemma colon_only : forall t, solidk (t_kind t) = true -> infix_of (t_kind t) = IP_Colon -> t_kind t = TK_Colon.
Proof. intros t Hs Hi. pose proof (solidk_infix _ Hs) as If. unfold infix_facts in If. rewrite Hi in If. apply andb_true_iff in If as [If _]. apply Z.eqb_eq in If. exact If. Qed.
Lemma greater_highest : forall C, prec_greater (cprec C) PREC_HIGHEST = true -> PREC_HIGHEST <= cprec C.
Proof. intros C H. unfold prec_greater in H. rewrite lor_one in H. apply Z.ltb_lt in H. unfold PREC_HIGHEST in *. destruct (Z.odd (cprec C)) eqn:E; [lia|]. destruct (Z.eq_dec (cprec C) 187); [|lia]. rewrite e in E. discriminate E. Qed.
Lemma climb_ok : forall S C G s, pre CClimb S C G s -> LW (climb o run) s (post CClimb S C G s).
Proof.
  intros S C G s (z & n & -> & Hg & Hn & Hc & Hph). assert (F : fl C z [n] [n]) by (destruct Hn as (N1 & N2 & N3 & N4); constructor; auto; apply parts_solid; auto).
  assert (Hc0 : 0 <= cprec C) by (destruct Hc; lia).
  unfold climb. apply LW_bind. apply L_current_nl; auto. intros l t z1 G1 R1 St1 HL1 Hs1. cbv beta iota.
  apply LW_bind, LW_PW. eapply (implicit_ok True t z1 S [n] []); [apply (fl_parts _ _ _ _ F)|exact Hs1|]. intros t' Hi. apply LW_bind.
  destruct (prec_ok n t t' (S ++ [n]) C G z1 Hs1 Hi) as (p & Hp & Hcase). intros p' s1 E1. rewrite Hp in E1. injection E1 as <- <-.
  assert (HW : forall b, b = prec_greater (cprec C) p -> LW (if b then trivia_reset l else (push_context p ;; push_trivia l ;; run (CInfix t'))%parser) (mkp z1 (S ++ [n]) C G)
     (post CClimb S C G (mkp z (S ++ [n]) C G))).
  2: { exact (HW _ eq_refl). }
  assert (Pc : forall t0, reads o (qtop G) (here z) t0 -> is_comma (t_kind t0) = true -> t = t0 /\ t' = t /\ p = PREC_COMMA /\ infix_of (t_kind t) = IP_Comma /\ solidk (t_kind t) = true).
  { intros t0 H0 Hcm. pose proof (comma_det _ _ _ _ _ _ St1 H0 Hcm) as ->. split; auto. assert (Hs : solidk (t_kind t0) = true) by (destruct Hs1 as [X|X]; auto; rewrite X in Hcm; discriminate).
    pose proof (proj1 (proj2 (solid_comma _ Hs)) Hcm) as Hic. destruct Hi as [(-> & _)|(_ & _ & _ & _ & [X|[X|[X _]]])]; try congruence. split; auto. rewrite Hic in Hp. cbn [get_precedence] in Hp. injection Hp as <-. auto. }
  intros b Eb. destruct b.
  - eapply (L_back (qtop G) isTriviaButNotToplevelNewline z z1); eauto; [reflexivity|]. intros z2 G2 H2 _. exists z2, n. split; auto. split; auto. split; [|split].
    + destruct Hn as (N1 & N2 & N3 & N4). split; auto. split; auto. split; auto. rewrite H2. exact N4.
    + rewrite H2. intros Fo. right. pose proof (follows_det _ _ _ _ _ _ St1 Fo) as Kt. destruct Hi as [(-> & _)|(_ & _ & _ & _ & [X|[X|[X _]]])]; try (rewrite Kt, colon_kind in X; discriminate X).
      rewrite Kt, colon_kind in Hp. cbn [get_precedence ctxs] in Hp. injection Hp as Hp. destruct (chk C) eqn:Ck; auto. right. left. apply greater_highest. congruence.
    + cbn [extra stack tz]. intros k X. split; auto. split; auto. destruct (Hph k X) as ((t0 & H0 & Hcm) & [[-> Y]|Y]); [|exact Y].
      exfalso. destruct (Pc _ H0 Hcm) as (_ & _ & Pp & _). rewrite Y, Pp in Eb. discriminate.
  - destruct Hcase as [(-> & _)|(Hp0 & Hs & Hcase)]; [rewrite greater_zero in Eb by auto; discriminate|].
    apply LW_bind, L_context. apply LW_bind, L_trivia. rewrite <- app_assoc.
    assert (F1 : fl C z1 ([n] ++ map Tok l) [n]) by (eapply (fl_trivia isTriviaButNotToplevelNewline); eauto; apply triv_newline).
    eapply LW_conseq; [apply (IH (CInfix t') S C G)|].
    + exists z1, ([n] ++ map Tok l), n, p. split; auto. split; auto. split; auto. split; auto. split; [|split].
      * destruct Hcase as [(-> & X & [Y|Y])|(-> & -> & X)].
        -- left. split; auto. split; auto. left. split; auto. destruct (chk C) eqn:Ck; auto. rewrite Y in Hp. cbn [get_precedence ctxs] in Hp. injection Hp as Hp. rewrite Ck in Hp. subst p. rewrite chk_greater in Eb by auto. discriminate.
        -- left. split; auto. split; auto. destruct (infix_of (t_kind t)) eqn:Ei; try (right; split; [discriminate|exact Y]).
           left. split; auto. destruct (chk C) eqn:Ck; auto. cbn [get_precedence ctxs] in Hp. injection Hp as Hp. rewrite Ck in Hp. subst p. rewrite chk_greater in Eb by auto. discriminate.
        -- right. split; auto. exists t. auto.
      * intros k X. destruct (Hph k X) as ((t0 & H0 & Hcm) & Y). destruct (Pc _ H0 Hcm) as (-> & -> & Pp & Hic & _). rewrite Hic. cbn [lseat]. destruct Y as [[-> _]|(-> & Y1 & Y2)]; [left; reflexivity|].
        exfalso. rewrite Pp in Eb. symmetry in Eb. apply not_greater in Eb. unfold PREC_COMMA in *. destruct Hc as [Y|Y]; [contradiction|]. lia.
      * intros Hic. destruct Hn as (N1 & N2 & N3 & N4). destruct Hcase as [(-> & X & Y)|(-> & -> & X)]; [|discriminate Hic]. apply N4.
        -- exists l, t, (here z1). split; auto. apply colon_only; auto.
        -- destruct (chk C) eqn:Ck; auto. rewrite Hic in Hp. cbn [get_precedence ctxs] in Hp. injection Hp as Hp. rewrite Ck in Hp. subst p. rewrite chk_greater in Eb by auto. discriminate.
    + intros [] s' (z' & n' & -> & A1 & A2 & A3 & A4). exists z', n'. do 4 (split; [auto|]). cbn [extra] in A4 |- *. intros k X. congruence.
Qed.

(** ** Prefix requests *)
Section Prefix.
Variables (z : st) (S : list cst) (C : list ctx) (G : list Z) (t : token).
Hypothesis Hg : good z.
Hypothesis HL : looks o (qtop G) z t.
Hypothesis Hs : solidk (t_kind t) = true.
Hypothesis Hc : pc C.
Local Notation goal m := (LW m (mkp z S C G) (post (CPrefix t) S C G (mkp z S C G))).
Local Notation sgoal m := (LW m (mkp z S C G) (whole S C G)).
Lemma whole_goal : forall m, sgoal m -> goal m.
Proof.
  clear Hg HL Hs Hc. intros m H. eapply LW_conseq; [exact H|]. intros [] s' (z' & n' & -> & A1 & A2 & A3 & A4). exists z', n'. do 4 (split; [auto|]). cbn [extra]. intros k X. congruence.
Qed.
Lemma fl0 : fl C z [] []. Proof. constructor; auto. Qed.
Lemma nd_tok : forall z' u, isTrivia (t_kind u) = false -> nd C G z' (Tok u).
Proof. intros z' u H. split; [apply fine_tok|]. split; [exact H|]. split; [intros _; apply no_colon_tok|apply endc_tok]. Qed.
Lemma P_next : forall (Q : unit -> pst -> Prop), t_kind t <> TK_EndOfFile -> (forall z', fl C z' [Tok t] [Tok t] -> Q tt (mkp z' (S ++ [Tok t]) C G)) -> LW (push_syntax_and_next dbg t) (mkp z S C G) Q.
Proof. intros Q N HQ. replace S with (S ++ []) by apply app_nil_r. eapply (L_next_top C); [apply fl0|exact HL|exact N|exact Hs|]. intros z' F' _ _. apply HQ. exact F'. Qed.
Lemma prefix_leaf_ok : t_kind t <> TK_EndOfFile -> goal (push_leaf_and_next dbg t ;; run CClimb)%parser.
Proof.
  intros N. apply whole_goal. apply LW_bind. apply P_next; auto. intros z1 F1. apply rec_climb; auto; [apply (fl_good _ _ _ _ F1)|apply nd_tok, solidk_trivia; auto|apply placeholder_solid; auto].
Qed.
Lemma prefix_error_ok : t_kind t <> TK_EndOfFile -> goal (passert (isError (t_kind t)) ;; push_leaf_and_next dbg t)%parser.
Proof.
  intros N. apply whole_goal. apply LW_bind, LW_assert. intros He. apply P_next; auto. intros z1 F1. exists z1, (Tok t). split; auto. split; [apply (fl_good _ _ _ _ F1)|].
  split; [apply nd_tok, solidk_trivia; auto|]. split; [apply stopc_dead; cbn [dead_end]; rewrite He; reflexivity|apply placeholder_solid; auto].
Qed.
Lemma missing_done : forall z' k, isError k = true -> zin k PLACEHOLDERS = true -> isTrivia k = false -> good z' -> here z' = here z -> consuming (prefix_of (t_kind t)) = false ->
  (k = TK_Error_InfixImplicitNull /\ cprec C = PREC_COMMA) \/ (k = TK_Error_ExpectedOperand /\ cprec C <> 0 /\ cprec C <> PREC_COMMA) ->
  post (CPrefix t) S C G (mkp z S C G) tt (mkp z' (S ++ [Tok (tok_at_start k t)]) C G).
Proof.
  intros z' k He Hk Ht G' H' Hcon Hcase. exists z', (Tok (tok_at_start k t)). split; auto. split; auto. split; [apply nd_tok; exact Ht|].
  split; [apply stopc_dead; cbn [dead_end]; change (t_kind (tok_at_start k t)) with k; rewrite He; reflexivity|].
  cbn [extra tz]. intros k' X. rewrite placeholder_at in X by auto. injection X as <-. auto.
Qed.
Lemma prefix_eof_ok : prefix_of (t_kind t) = PP_PrefixEndOfFile -> (cprec C = 0 -> t_kind t <> TK_EndOfFile /\ isCloser (t_kind t) = false) -> goal (prefix_end_of_file dbg t).
Proof.
  intros Hp H0. unfold prefix_end_of_file. intros a s' E. cbn beta in E. revert a s' E. match goal with |- forall a s', ?m ?s = Ok (a, s') -> _ => change (goal m) end.
  apply L_leaf. change (top_prec (mkp z S C G)) with (cprec C). pose proof (solid_prefix _ Hs) as Sp. rewrite Hp in Sp. destruct Sp as (_ & _ & Hk).
  destruct (Z.eqb_spec (cprec C) PREC_COMMA); apply missing_done; auto; try (rewrite Hp; reflexivity). right. split; auto. split; auto. intros X. destruct (H0 X) as [X1 X2]. destruct Hk; congruence.
Qed.
Lemma prefix_closer_ok : prefix_of (t_kind t) = PP_PrefixCloser -> (cprec C = 0 -> t_kind t <> TK_EndOfFile /\ isCloser (t_kind t) = false) -> goal (prefix_closer o dbg t).
Proof.
  intros Hp H0. unfold prefix_closer. apply LW_bind, LW_assert. intros Hcl. intros a s' E. cbn beta in E. revert a s' E. match goal with |- forall a s', ?m ?s = Ok (a, s') -> _ => change (goal m) end.
  apply LW_bind, L_leaf. apply LW_bind, L_peek; auto. intros u z1 G1 H1 _ _. apply LW_ret. change (top_prec (mkp z S C G)) with (cprec C).
  destruct (Z.eqb_spec (cprec C) PREC_COMMA); apply missing_done; auto; try (rewrite Hp; reflexivity). right. split; auto. split; auto. intros X. destruct (H0 X) as [X1 X2]. congruence.
Qed.
Lemma prefix_unsupported_ok : t_kind t <> TK_EndOfFile -> goal (prefix_unsupported dbg t).
Proof.
  intros N. apply whole_goal. unfold prefix_unsupported. apply LW_bind, L_leaf. apply (L_skip (qtop G) z t); auto; [reflexivity|]. intros z' G' H' R'.
  exists z', (Tok (tok_at TK_Error_UnsupportedToken t)). split; auto. split; auto. split; [apply nd_tok; reflexivity|]. split; [apply stopc_dead; reflexivity|reflexivity].
Qed.
Lemma prefix_comma_ok : prefix_of (t_kind t) = PP_PrefixComma -> (cprec C = PREC_COMMA -> is_comma (t_kind t) = false) -> goal (prefix_comma dbg run t).
Proof.
  intros Hp H2. pose proof (proj2 (proj1 (solid_comma _ Hs)) Hp) as Hcm. unfold prefix_comma. intros a s' E. cbn beta in E. revert a s' E. match goal with |- forall a s', ?m ?s = Ok (a, s') -> _ => change (goal m) end.
  change (top_prec (mkp z S C G)) with (cprec C). set (k := if cprec C =? 0 then TK_Error_PrefixImplicitNull else TK_Error_ExpectedOperand).
  assert (Hk : (k = TK_Error_PrefixImplicitNull /\ cprec C = 0) \/ (k = TK_Error_ExpectedOperand /\ cprec C <> 0 /\ cprec C <> PREC_COMMA)).
  { unfold k. destruct (Z.eqb_spec (cprec C) 0); auto. right. split; auto. split; auto. intros X. rewrite (H2 X) in Hcm. discriminate. }
  assert (Hpl : zin k PLACEHOLDERS = true /\ isTrivia k = false) by (destruct Hk as [[-> _]|[-> _]]; split; reflexivity). destruct Hpl as [Hpl Htr].
  apply LW_bind, L_leaf. eapply LW_conseq; [apply (IH CClimb S C G)|].
  - exists z, (Tok (tok_at_start k t)). split; auto. split; auto. split; [apply nd_tok; exact Htr|]. split; auto. intros k' X. rewrite placeholder_at in X by auto. injection X as <-.
    split; auto. exists t. split; auto. apply looks_reads. exact HL.
  - intros [] s' (z' & n' & -> & A1 & A2 & A3 & A4). exists z', n'. do 4 (split; [auto|]). cbn [extra stack tz] in A4 |- *. intros k' X. destruct (A4 k' X) as (_ & Y1 & Y2 & Y3). split; auto. split; [rewrite Hp; reflexivity|auto].
Qed.
Lemma prefix_unhandled_ok : prefix_of (t_kind t) = PP_PrefixUnhandled -> goal (prefix_unhandled o dbg run t).
Proof.
  intros Hp. pose proof (solid_prefix _ Hs) as Sp. rewrite Hp in Sp. destruct Sp as (_ & _ & Ncm & Hinf). pose proof (solidk_prefix _ Hs) as Pf. unfold prefix_facts in Pf. rewrite Hp in Pf. apply andb_true_iff in Pf as [P1 P2].
  destruct (iprec (infix_of (t_kind t))) as [p0|] eqn:Ep; [|discriminate]. clear P2. destruct (solid_iprec _ _ Hs Ep) as (I1 & I2 & I3).
  unfold prefix_unhandled. apply LW_bind, LW_assert. intros _. apply LW_bind, L_leaf. apply LW_bind, L_peek; auto. intros u z1 G1 H1 HL1 R1.
  assert (Hi : implied C (Tok t) t t).
  { left. split; auto. split; [intros X; rewrite X in Ep; discriminate|]. intros X. rewrite X in Ep. discriminate. }
  destruct (prec_ok (Tok t) t t (S ++ [Tok (tok_at_start TK_Error_ExpectedOperand t)]) C G z1 (or_introl Hs) Hi) as (p & Hpr & _).
  apply LW_bind. intros p' s1 E1. rewrite Hpr in E1. injection E1 as <- <-.
  assert (Hpp : infix_of (t_kind t) = IP_Colon /\ p = (if chk C then PREC_FAKE_OPTIONALCOLON else PREC_HIGHEST) \/ infix_of (t_kind t) <> IP_Colon /\ p = p0).
  { destruct (infix_of (t_kind t)); cbn [iprec get_precedence ctxs] in *; try discriminate Ep; injection Hpr as Hpr; injection Ep as Ep; try (right; split; [discriminate|congruence]). left. auto. }
  assert (Hp2 : 2 < p).
  { destruct Hpp as [[_ ->]|[_ ->]]; [destruct (chk C); reflexivity|]. destruct (Z.eq_dec p0 2) as [X|X]; [rewrite (I2 X) in Ncm; discriminate|lia]. }
  set (f := tok_at_start TK_Error_ExpectedOperand t) in *.
  assert (HW : forall b, b = prec_greater (cprec C) p -> LW (if b then pret tt else (push_context p ;; run (CInfix t))%parser) (mkp z1 (S ++ [Tok f]) C G) (post (CPrefix t) S C G (mkp z S C G))).
  2: { exact (HW _ eq_refl). }
  intros b Eb. destruct b.
  - apply LW_ret. apply missing_done; auto; [rewrite Hp; reflexivity|]. right. split; auto. unfold prec_greater in Eb. rewrite lor_one in Eb. symmetry in Eb. apply Z.ltb_lt in Eb.
    split; intros X; rewrite X in Eb; unfold PREC_COMMA in Eb; cbn [Z.odd] in Eb; lia.
  - apply LW_bind, L_context. eapply LW_conseq; [apply (IH (CInfix t) S C G)|].
    + exists z1, [Tok f], (Tok f), p. split; auto. split; [constructor; auto; [apply Forall_cons; [apply fine_tok|apply Forall_nil]|intros _; apply Forall_cons; [apply no_colon_tok|apply Forall_nil]]|]. split; auto. split; auto. split; [|split].
      * left. assert (Eu : u = t) by (eapply (reads_det o (qtop G) (here z)); [reflexivity|rewrite <- H1; apply looks_reads; exact HL1|apply looks_reads; exact HL]).
        split; [rewrite <- Eu; exact HL1|]. split; [exact Hs|]. destruct Hpp as [[Hic ->]|[Hnc ->]]; [left|right; auto]. split; auto. destruct (chk C) eqn:Ck; auto. rewrite chk_greater in Eb by auto. discriminate.
      * intros k X. unfold f in X. rewrite placeholder_at in X by reflexivity. injection X as <-. destruct (infix_of (t_kind t)); try contradiction Hinf; left; reflexivity.
      * intros _. left. intros q0 O. inversion O as [n0 q1 b0 L D|n0 q1 b0 q2 L D]; subst; inversion L.
    + intros [] s' (z' & n' & -> & A1 & A2 & A3 & A4). exists z', n'. do 4 (split; [auto|]). cbn [extra] in A4 |- *. intros k X. congruence.
Qed.
Lemma prefix_operator_ok : forall p op, prefix_of (t_kind t) = PP_PrefixOperator p op -> t_kind t <> TK_EndOfFile -> goal (prefix_operator o dbg run p op t).
Proof.
  intros p op Hp N. apply whole_goal. pose proof (solid_prefix _ Hs) as Sp. rewrite Hp in Sp. destruct Sp as ([Hp1 Hp2] & Hop). assert (H40 : PREC_FAKE_PATTERNCOLON = 40) by reflexivity. rewrite H40 in Hp1.
  assert (Np : p <> PREC_COMMA) by (unfold PREC_COMMA; lia).
  unfold prefix_operator. apply LW_bind. apply P_next; auto. intros z1 F1. apply LW_bind, L_context. apply LW_bind. eapply L_eat; eauto. intros u z2 ch2 l F2 HL2 Hs2 _.
  apply LW_bind. eapply L_operand; eauto; [lia|contradiction|intros _; lia|]. intros z3 b F3 Hb. pose proof (fl_parts _ _ _ _ F3) as P. cbn [app] in P.
  assert (Hseat : forall i, seat KPrefix op i = [TK_Error_ExpectedOperand]) by (intros i; cbn [seat]; destruct (Z.eqb_spec op PREOP_Get); [contradiction|reflexivity]).
  eapply L_red; eauto.
  - apply locals_other; [apply nc_op; discriminate|]. eapply seated2; [exact P|rewrite Hseat; apply sits_none, placeholder_solid; auto|rewrite Hseat; eapply opd_eo; eauto].
  - intros _. apply nc_op; discriminate.
  - eapply (endc_node _ _ _ _ p (length S) b); eauto; try lia; [eapply (lasts_prefix op _ t b p); eauto; intros _; rewrite Hp; split; reflexivity|apply Hb|apply Hb].
Qed.
Lemma prefix_less_less_ok : prefix_of (t_kind t) = PP_LessLess -> t_kind t <> TK_EndOfFile -> goal (prefix_less_less o dbg run t).
Proof.
  intros Hp N. apply whole_goal. unfold prefix_less_less. apply LW_bind. apply P_next; auto. intros z1 F1. apply LW_bind, L_context. apply LW_bind. eapply L_eat_file; eauto.
  intros u z2 ch2 F2 HL2 Ht2 Hn2 Hp2. apply LW_bind. eapply (L_next AsFile C z2 S ch2); eauto; [exact I|]. intros z3 F3 _ _. pose proof (fl_parts _ _ _ _ F3) as P. cbn [app] in P. eapply L_red; eauto.
  - apply locals_other; [apply nc_op; discriminate|]. eapply seated2; [exact P|apply sits_none, placeholder_solid; auto|apply sits_none; auto].
  - intros _. apply nc_op; discriminate.
  - apply endc_none. intros q b L. inversion L; subst. contradiction.
Qed.
Lemma looks_strip : forall z0 G0 u l v p', looks o (qtop G0) z0 u -> solidk (t_kind u) = true -> strip o (qtop G0) isTrivia (here z0) l v p' -> v = u.
Proof.
  intros z0 G0 u l v p' H1 H2 St. pose proof (strip_nil o (qtop G0) isTrivia _ u (looks_reads _ _ _ _ H1) (solidk_trivia _ H2)) as St'.
  destruct (strip_det o (qtop G0) isTrivia _ _ _ _ eq_refl St _ _ _ St') as (_ & -> & _). reflexivity.
Qed.
Lemma consuming_differential : forall u, solidk (t_kind u) = true -> is_differential (t_kind u) = true -> consuming (prefix_of (t_kind u)) = true.
Proof. intros u H D. pose proof (solid_prefix _ H) as Sp. destruct (prefix_of (t_kind u)); auto; [destruct Sp as (_ & X & _)|destruct Sp as (_ & X & _)|destruct Sp as (_ & X)|destruct Sp as (_ & X & _)]; congruence. Qed.
Lemma prefix_integral_ok : forall op1 op2, prefix_of (t_kind t) = PP_Integral op1 op2 -> t_kind t <> TK_EndOfFile -> goal (prefix_integral o dbg run op1 op2 t).
Proof.
  intros op1 op2 Hp N. apply whole_goal. pose proof (solid_prefix _ Hs) as Hop. rewrite Hp in Hop. cbn beta iota in Hop. unfold prefix_integral. apply LW_bind. apply P_next; auto. intros z1 F1. apply LW_bind, L_context. apply LW_bind. eapply L_eat; eauto.
  intros u z2 ch2 l2 F2 HL2 Hs2 _.
  assert (K : forall z3 ch3 b, fl C z3 ch3 [Tok t; b] -> (forall l v p', strip o (qtop G) isTrivia (here z3) l v p' -> if is_differential (t_kind v) then sits [TK_Fake_ImplicitOne] b else sits [TK_Error_ExpectedOperand] b) ->
     stopc (mkctx PREC_CLASS_INTEGRATIONOPERATORS (length S) :: C) G (here z3) b -> endc (mkctx PREC_CLASS_INTEGRATIONOPERATORS (length S) :: C) G (here z3) b ->
     LW (' (l, v) <- current_token o dbg ;; if negb (is_differential (t_kind v)) then trivia_reset l ;; reduce_op KPrefix op2 ;; run CClimb
         else push_trivia l ;; run (CPrefix v) ;; reduce_op KPrefixBinary op1 ;; run CClimb)%parser (mkp z3 (S ++ ch3) (mkctx PREC_CLASS_INTEGRATIONOPERATORS (length S) :: C) G) (whole S C G)).
  { intros z3 ch3 b F3 Hb B1 B2. pose proof (fl_parts _ _ _ _ F3) as P. apply LW_bind. apply L_current; [apply (fl_good _ _ _ _ F3)|]. intros l v z4 G4 R4 St4 HL4 Hs4. cbv beta iota. specialize (Hb _ _ _ St4).
    destruct (is_differential (t_kind v)) eqn:Ed; cbn [negb].
    - apply LW_bind, L_trivia. rewrite <- app_assoc. assert (F4 : fl C z4 (ch3 ++ map Tok l) [Tok t; b]) by (eapply (fl_trivia isTrivia); eauto).
      apply LW_bind. eapply L_operand; eauto; [discriminate|discriminate|vm_compute; discriminate|]. intros z5 c F5 Hc5. pose proof (fl_parts _ _ _ _ F5) as P5. cbn [app] in P5. eapply L_red; eauto.
      + apply locals_other; [apply nc_op; discriminate|]. eapply seated3; [exact P5|apply sits_none, placeholder_solid; auto|exact Hb|]. eapply opd_none; eauto. apply consuming_differential; auto.
      + intros _. apply nc_op; discriminate.
      + eapply (endc_node _ _ _ _ PREC_CLASS_INTEGRATIONOPERATORS (length S) c); try discriminate; [eapply lasts_prefix_binary; eauto|reflexivity|apply Hc5|apply Hc5].
    - apply LW_bind. eapply (L_back (qtop G) isTrivia z3 z4); eauto; [reflexivity|apply (fl_good _ _ _ _ F3)|]. intros z5 G5 H5 _. eapply L_red; [eapply fl_move; [exact F3|exact G5]|..]; auto.
      + apply locals_other; [apply nc_op; discriminate|]. cbn [seat] in *. eapply seated2; [exact P|apply sits_none, placeholder_solid; auto|]. cbn [seat]. destruct (Z.eqb_spec op2 PREOP_Get); [contradiction|exact Hb].
      + intros _. apply nc_op; discriminate.
      + rewrite H5. eapply (endc_node _ _ _ _ PREC_CLASS_INTEGRATIONOPERATORS (length S) b); eauto; try discriminate; [|reflexivity].
        eapply (lasts_prefix op2 _ t b PREC_CLASS_INTEGRATIONOPERATORS); eauto; intros _; rewrite Hp; split; reflexivity. }
  apply LW_bind. destruct (is_differential (t_kind u)) eqn:Ed.
  - apply L_leaf. rewrite <- app_assoc. eapply K; [apply (fake_fl C z2 ch2 [Tok t] TK_Fake_ImplicitOne u F2 eq_refl)| |apply stopc_dead; reflexivity|apply endc_tok].
    intros l v p' St. pose proof (looks_strip _ _ _ _ _ _ HL2 Hs2 St) as ->. rewrite Ed. intros k X. rewrite placeholder_at in X by reflexivity. injection X as <-. left. reflexivity.
  - eapply L_operand; eauto; [discriminate|discriminate|vm_compute; discriminate|]. intros z3 b F3 Hb. eapply K; [exact F3| |apply Hb|apply Hb].
    intros l v p' St. destruct (is_differential (t_kind v)) eqn:Ev; [|eapply opd_eo; [exact Hb|discriminate]]. destruct Hb as (_ & _ & _ & Hb). intros k X. exfalso. destruct (Hb k X) as (Y & _). rewrite Y in St.
    pose proof (looks_strip _ _ _ _ _ _ HL2 Hs2 St) as ->. congruence.
Qed.
Lemma prefix_span_ok : prefix_of (t_kind t) = PP_SemiSemi -> goal (prefix_span o dbg run t).
Proof.
  intros Hp. apply whole_goal. pose proof (solidk_prefix _ Hs) as Pf. unfold prefix_facts in Pf. rewrite Hp in Pf. apply Z.eqb_eq in Pf.
  unfold prefix_span. apply LW_bind, LW_debug. apply LW_bind, L_leaf. apply LW_bind, L_context. eapply (infix_span_ok S (Tok (tok_at_start TK_Fake_ImplicitOne t))); eauto.
  - intros k X. rewrite placeholder_at in X by reflexivity. injection X as <-. left. reflexivity.
  - apply (fake_fl C z [] [] TK_Fake_ImplicitOne t fl0 eq_refl).
Qed.

Definition plain (n : cst) : Prop := fine n /\ no_colon n /\ placeholder n = None.
Lemma plain_tok : forall u, placeholder (Tok u) = None -> plain (Tok u).
Proof. intros u H. split; [apply fine_tok|]. split; [apply no_colon_tok|exact H]. Qed.
Lemma plain_kind : forall u k, t_kind u = k -> zin k PLACEHOLDERS = false -> plain (Tok u).
Proof. intros u k H1 H2. apply plain_tok. cbn [placeholder]. rewrite H1, H2. reflexivity. Qed.
Lemma plain_compound : forall op l, Forall plain l -> plain (Op KCompound op l).
Proof.
  intros op l H. assert (Nc : not_colon (Op KCompound op l)) by (apply nc_op; discriminate). split; [|split].
  - apply fine_node; [|eapply Forall_impl; [|exact H]; intros a X; apply X]. apply locals_other; auto. intros i a E. apply sits_none.
    apply nth_error_In in E. unfold parts in E. apply filter_In in E as [E _]. rewrite Forall_forall in H. apply (H a E).
  - apply no_colon_op; auto. eapply Forall_impl; [|exact H]; intros a X; apply X.
  - reflexivity.
Qed.
Lemma plain_climb : forall z' n, good z' -> plain n -> trivia_leaf n = false -> (exists u, n = Tok u) \/ (exists op l, n = Op KCompound op l) -> LW (push_node n ;; run CClimb)%parser (mkp z' S C G) (whole S C G).
Proof.
  intros z' n G' (H1 & H2 & H3) Ht Hk. apply LW_bind, L_push. apply rec_climb; auto. split; auto. split; auto. split; auto. destruct Hk as [(u & ->)|(op & l & ->)]; [apply endc_tok|apply endc_op; reflexivity].
Qed.
Lemma L_under : forall bop u z0 (Q : cst -> pst -> Prop), good z0 -> looks o (qtop G) z0 u -> t_kind u <> TK_EndOfFile -> placeholder (Tok u) = None -> isTrivia (t_kind u) = false ->
  (forall z' n, good z' -> plain n -> trivia_leaf n = false -> (exists u, n = Tok u) \/ (exists op l, n = Op KCompound op l) -> Q n (mkp z' S C G)) -> LW (get_under o bop u) (mkp z0 S C G) Q.
Proof.
  intros bop u z0 Q G0 HL0 N Hp Htr HQ. unfold get_under. apply LW_bind. apply (L_skip (qtop G) z0 u); auto; [reflexivity|]. intros z1 G1 H1 R1. apply LW_bind, L_peek; auto. intros v z2 G2 H2 HL2 R2.
  destruct ((t_kind v =? TK_Symbol) || (t_kind v =? TK_Error_ExpectedLetterlike)) eqn:Ev.
  - assert (Kv : t_kind v = TK_Symbol \/ t_kind v = TK_Error_ExpectedLetterlike) by (apply orb_true_iff in Ev as [X|X]; apply Z.eqb_eq in X; auto).
    assert (Nv : t_kind v <> TK_EndOfFile) by (destruct Kv as [X|X]; rewrite X; discriminate).
    apply LW_bind. apply (L_skip (qtop G) z2 v); auto; [reflexivity|]. intros z3 G3 H3 R3. apply LW_ret. apply HQ; eauto. apply plain_compound. constructor; [apply plain_tok; auto|constructor; [|constructor]].
    destruct Kv as [X|X]; eapply plain_kind; eauto.
  - apply LW_ret. apply HQ; eauto using plain_tok.
Qed.
Lemma prefix_under_ok : forall bop, t_kind t <> TK_EndOfFile -> goal (prefix_under o run bop t).
Proof.
  intros bop N. apply whole_goal. unfold prefix_under. apply LW_bind. apply L_under; auto; [apply placeholder_solid; auto|apply solidk_trivia; auto|]. intros z1 n G1 Hp Ht Hk. apply plain_climb; auto.
Qed.
Lemma push_and_climb_ok : forall z', good z' -> LW (push_and_climb dbg run t) (mkp z' S C G) (whole S C G).
Proof.
  intros z' G'. unfold push_and_climb. apply LW_bind, L_leaf. apply rec_climb; auto; [apply nd_tok, solidk_trivia; auto|apply placeholder_solid; auto].
Qed.
Lemma pattern_blank_ok : forall bop pbop u z', good z' -> looks o (qtop G) z' u -> In (t_kind u) [TK_Under; TK_UnderUnder; TK_UnderUnderUnder] ->
  LW (pattern_blank o dbg run bop pbop t u) (mkp z' S C G) (whole S C G).
Proof.
  intros bop pbop u z' G' HL' Hu. unfold pattern_blank. apply LW_bind. cbn [In] in Hu. apply L_under; auto.
  - destruct Hu as [X|[X|[X|[]]]]; rewrite <- X; discriminate.
  - cbn [placeholder]. destruct Hu as [X|[X|[X|[]]]]; rewrite <- X; reflexivity.
  - destruct Hu as [X|[X|[X|[]]]]; rewrite <- X; reflexivity.
  - intros z1 n G1 Hp Ht Hk. apply LW_bind, LW_debug. apply plain_climb; eauto. apply plain_compound. constructor; [apply plain_tok, placeholder_solid; auto|constructor; auto].
Qed.
Lemma prefix_symbol_ok : t_kind t <> TK_EndOfFile -> goal (prefix_symbol o dbg run t).
Proof.
  intros N. apply whole_goal. unfold prefix_symbol. apply LW_bind. apply (L_skip (qtop G) z t); auto; [reflexivity|]. intros z1 G1 H1 R1. apply LW_bind, L_peek; auto. intros u z2 G2 H2 HL2 R2.
  destruct (Z.eqb_spec (t_kind u) TK_Under) as [E1|_]; [eapply pattern_blank_ok; eauto; rewrite E1; cbn; auto|].
  destruct (Z.eqb_spec (t_kind u) TK_UnderUnder) as [E1|_]; [eapply pattern_blank_ok; eauto; rewrite E1; cbn; auto|].
  destruct (Z.eqb_spec (t_kind u) TK_UnderUnderUnder) as [E1|_]; [eapply pattern_blank_ok; eauto; rewrite E1; cbn; auto|].
  destruct (Z.eqb_spec (t_kind u) TK_UnderDot) as [E1|_]; [|apply push_and_climb_ok; auto].
  apply LW_bind. apply (L_skip (qtop G) z2 u); auto; [reflexivity|rewrite E1; discriminate|]. intros z3 G3 H3 R3. apply LW_bind, LW_debug. apply plain_climb; eauto.
  apply plain_compound. constructor; [apply plain_tok, placeholder_solid; auto|constructor; [eapply plain_kind; eauto|constructor]].
Qed.
Lemma prefix_slot_ok : forall pol args op, t_kind t <> TK_EndOfFile -> p_scan pol = false -> (forall k, zin k args = true -> k = TK_Integer \/ k = TK_String) -> goal (prefix_slot o dbg run pol args op t).
Proof.
  intros pol args op N Hpol Hargs. apply whole_goal. unfold prefix_slot. apply LW_bind. apply (L_skip (qtop G) z t); auto; [reflexivity|]. intros z1 G1 H1 R1.
  apply LW_bind. intros u s1 E1. rewrite peek_with_eq in E1. revert u s1 E1.
  match goal with |- forall u s1, tk ?m ?s = Ok (u, s1) -> LW (@?f u) s1 ?Q => change (LW (tk m) s (fun u s' => LW (f u) s' Q)) end.
  apply (L_ask (AsToken (isg G) pol)); auto. intros u z2 G2 H2 HL2 R2. destruct (zin (t_kind u) args) eqn:Eu; [|apply push_and_climb_ok; auto].
  assert (Ku := Hargs _ Eu). assert (Nu : t_kind u <> TK_EndOfFile) by (destruct Ku as [X|X]; rewrite X; discriminate).
  apply LW_bind. apply (L_skip (AsToken (isg G) pol) z2 u); auto. intros z3 G3 H3 R3. apply LW_bind, LW_debug. apply plain_climb; eauto.
  apply plain_compound. constructor; [apply plain_tok, placeholder_solid; auto|constructor; [destruct Ku as [X|X]; eapply plain_kind; eauto|constructor]].
Qed.
End Prefix.

Lemma parse_prefix_ok : forall t S C G s, pre (CPrefix t) S C G s -> LW (parse_prefix o dbg run t) s (post (CPrefix t) S C G s).
Proof.
  intros t S C G s (z & -> & Hg & HL & Hs & Hc & H2 & H0). pose proof (consuming_not_eof t Hs) as Ne.
  assert (H0' : cprec C = 0 -> t_kind t <> TK_EndOfFile /\ isCloser (t_kind t) = false) by (intros X; destruct (H0 X); auto).
  unfold parse_prefix. destruct (prefix_of (t_kind t)) as [| | | | | | |pp0 po0|opener op| | |i1 i2| | | | |u1 u2|] eqn:Ep.
  - eapply prefix_leaf_ok; eauto.
  - eapply prefix_eof_ok; eauto.
  - eapply prefix_error_ok; eauto.
  - eapply prefix_closer_ok; eauto.
  - eapply prefix_unsupported_ok; eauto.
  - eapply prefix_comma_ok; eauto.
  - eapply prefix_unhandled_ok; eauto.
  - eapply prefix_operator_ok; eauto.
  - apply whole_goal. eapply prefix_group_ok; eauto.
  - eapply prefix_symbol_ok; eauto.
  - eapply prefix_span_ok; eauto.
  - eapply prefix_integral_ok; eauto.
  - eapply prefix_less_less_ok; eauto.
  - unfold prefix_hash. eapply prefix_slot_ok; eauto. intros k Hk. apply zin_In in Hk. cbn [In] in Hk. destruct Hk as [X|[X|[]]]; auto.
  - unfold prefix_hash_hash. eapply prefix_slot_ok; eauto. intros k Hk. apply zin_In in Hk. cbn [In] in Hk. destruct Hk as [X|[]]; auto.
  - unfold prefix_percent. eapply prefix_slot_ok; eauto. intros k Hk. apply zin_In in Hk. cbn [In] in Hk. destruct Hk as [X|[]]; auto.
  - eapply prefix_under_ok; eauto.
  - eapply prefix_leaf_ok; eauto.
Qed.
Lemma answer_ok : forall c S C G s, pre c S C G s -> LW (answer o dbg keep run c) s (post c S C G s).
Proof.
  intros c S C G s Hp. destruct c as [t|t| |op closer|op| | | |]; cbn [answer].
  - apply parse_prefix_ok; auto.
  - apply parse_infix_ok; auto.
  - apply climb_ok; auto.
  - apply group_loop_ok; auto.
  - apply infix_loop_ok; auto.
  - apply times_loop_ok; auto.
  - apply comma_loop_ok; auto.
  - apply semi_loop_ok; auto.
  - apply colon_colon_loop_ok; auto.
Qed.
End Places.

(** ** Whole inputs *)
Section Whole.
Variable o : opts.
Variable dbg : bool.
Variable base : st.
Local Notation good := (good o base).
Lemma run_places : forall fuel c S C G s, pre o base c S C G s -> LW (run o dbg keep fuel c) s (post o base c S C G s).
Proof.
  induction fuel as [|k IH]; intros c S C G s Hp; [intros a s' E; discriminate E|]. cbn [run]. apply answer_ok; auto.
Qed.
Definition top_ok (n : cst) : Prop := fine n /\ sits [TK_Error_UnexpectedCloser] n.
Lemma trivia_plain : forall k, isTrivia k = true -> zin k PLACEHOLDERS = false.
Proof.
  intros k H. destruct (zin k PLACEHOLDERS) eqn:E; auto. exfalso. apply zin_In in E. unfold PLACEHOLDERS in E. cbn [In] in E.
  repeat (destruct E as [<-|E]; [vm_compute in H; discriminate H|]). destruct E.
Qed.
Lemma loop_places : forall k z l s', good z -> parse_loop o dbg keep k (mkp z [] [] []) = Ok (l, s') -> Forall top_ok l.
Proof.
  induction k as [|k IH]; intros z l s' Hg E; [discriminate E|]. set (Q := fun (l : list cst) (_ : pst) => Forall top_ok l).
  assert (T : forall z2 m, good z2 -> top_ok m -> LW (l0 <- parse_loop o dbg keep k ;; pret (m :: l0))%parser (mkp z2 [] [] []) Q).
  { intros z2 m G2 Hm. apply LW_bind. intros l0 s0 E0. apply LW_ret. constructor; auto. exact (IH _ _ _ G2 E0). }
  revert l s' E. change (LW (parse_loop o dbg keep (Datatypes.S k)) (mkp z [] [] []) Q). cbn [parse_loop].
  apply LW_bind, (L_peek o base); auto. intros t z1 G1 H1 HL R1. pose proof (looks_reads _ _ _ _ HL) as Hr.
  destruct (Z.eqb_spec (t_kind t) TK_EndOfFile) as [Ee|Ne]; [apply LW_ret; constructor|]. destruct (isTrivia (t_kind t)) eqn:Et.
  - apply LW_bind. apply (L_skip o base (qtop []) z1 t); auto; [reflexivity|]. intros z2 G2 H2 R2. apply T; auto. split; [apply fine_tok|]. apply sits_none. cbn [placeholder]. rewrite trivia_plain; auto.
  - assert (Hs : solidk (t_kind t) = true) by (eapply reads_solid; eauto). apply LW_bind. destruct (isCloser (t_kind t)) eqn:Ec.
    + unfold prefix_toplevel_closer. apply LW_bind, LW_assert. intros _. apply LW_bind, L_leaf. cbn [app]. apply (L_skip o base (qtop []) z1 t); auto; [reflexivity|]. intros z2 G2 H2 R2.
      apply LW_bind. intros n s1 E1. injection E1 as <- <-. apply LW_bind. intros u s2 E2. injection E2 as _ <-. apply T; auto. split; [apply fine_tok|]. intros k' X. cbn in X. injection X as <-. left. reflexivity.
    + intros u s1 E1. cbn beta in E1. pose proof (run_places (depth_bound (mkp z1 [] [] [])) (CPrefix t) [] [] [] (mkp z1 [] [] [])) as K. destruct (fun H => K H _ _ E1) as (z2 & n & -> & G2 & (N1 & _) & _ & N2).
      { exists z1. split; auto. split; auto. split; auto. split; auto. split; [left; reflexivity|]. split; [discriminate|auto]. }
      apply LW_bind. intros m s2 E2. injection E2 as <- <-. apply LW_bind. intros v s3 E3. injection E3 as _ <-. cbn [tz app]. apply T; auto. split; auto. intros k' X. exfalso. cbn [extra tz] in N2.
      destruct (N2 _ X) as (_ & _ & [[_ Y]|(_ & Y & _)]); [discriminate Y|apply Y; reflexivity].
Qed.
End Whole.

Lemma parse_places : forall o dbg b input l s', 0 < o_tab_width o -> parse_cst_raw o dbg keep b input = Ok (l, s') -> Forall top_ok l.
Proof.
  intros o dbg b input l s' Ht E. unfold parse_cst_raw, do_parse, pbind, tk, session_new in E. cbn [tz stack ctxs groups] in E.
  pose proof (handle_first_line_ok o b _ _ (reader_new_Inv o input Ht) (R_refl _ _)) as H. unfold wpr in H.
  destruct (handle_first_line o b (reader_new o input)) as [[[] s0]| |] eqn:EF; [|discriminate E|discriminate E]. destruct H as (I0 & R0 & _).
  assert (G0 : good o (reader_new o input) s0).
  { split; [exact I0|]. split; [exact R0|]. eapply first_line_weof; [|exact EF]. reflexivity. }
  unfold pwith_fuel in E. cbn [tz] in E.
  match type of E with match ?x with _ => _ end = _ => destruct x as [[a t1]| |] eqn:P1; [|discriminate E|discriminate E] end.
  destruct (dbg && _); [discriminate E|]. injection E as <- <-. exact (loop_places o dbg _ _ _ _ _ G0 P1).
Qed.
