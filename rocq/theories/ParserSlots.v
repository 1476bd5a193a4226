(** What is written at once behind a slot, a blank or a name: an invariant of the parser. *)
From Coq Require Import ZArith List Bool Lia.
From Verif Require Import Base Source WLChar LongNames ByteDecoder CharDecoder Decode SpecText Iter
  TextProofs Logic LongNamesProofs WlDecode SpecReader ReaderProofs GenTokenKind TokenKind Format FormatProofs Tokenizer TokLogic
  TokenizerProofs SpecTokenizer TokenLoop TokSim TokSpecs TokAgree TokResults GenPrec GenOps GenParselets Parselets Cst SpecCst CstProofs Parser SpecParser SpecParse
  ParserLogic ParserRules ParserProofs ParserResults ParserTheorems SpecLex LexProofs LexChars LexSymbols LexNumbers LexMore LexResults SpecSlots.
Import ListNotations.
Local Open Scope Z_scope.

(** ** Tokens that take something *)
Definition TAKERS : list Z := [TK_Hash; TK_HashHash; TK_Percent; TK_Under; TK_UnderUnder; TK_UnderUnderUnder; TK_Symbol; TK_EndOfFile].
Definition ordinary (k : Z) : Prop := ~ In k TAKERS.
Lemma joined_taker : forall h k op, In (h, k, op) joined -> In h TAKERS.
Proof. intros h k op H. unfold joined in H. cbn [In] in H. unfold TAKERS. repeat (destruct H as [H|H]; [injection H as <- _ _; cbn; tauto|]). destruct H. Qed.
Ltac ordi := let H := fresh in unfold ordinary, TAKERS; intros H; cbn [In] in H; repeat (destruct H as [H|H]; [solve [rewrite <- H in *; discriminate | subst; discriminate]|]); exact H.
Lemma ordinary_prefix : forall k, (forall p, prefix_of k = p -> match p with PP_Hash | PP_HashHash | PP_Percent | PP_Under _ _ | PP_Symbol | PP_PrefixEndOfFile => False | _ => True end) -> ordinary k.
Proof. intros k H X. unfold TAKERS in X. cbn [In] in X. repeat (destruct X as [<-|X]; [exact (H _ eq_refl)|]). exact X. Qed.
Lemma ordinary_infix : forall k, (forall p, infix_of k = p -> match p with IP_InfixImplicitTimes | IP_InfixAssertFalse => False | _ => True end) -> ordinary k.
Proof. intros k H X. unfold TAKERS in X. cbn [In] in X. repeat (destruct X as [<-|X]; [exact (H _ eq_refl)|]). exact X. Qed.
Lemma ordinary_trivia : forall k, isTrivia k = true -> ordinary k.
Proof. intros k H X. unfold TAKERS in X. cbn [In] in X. repeat (destruct X as [<-|X]; [vm_compute in H; discriminate H|]). exact X. Qed.
Lemma ordinary_trivia_nl : forall k, isTriviaButNotToplevelNewline k = true -> ordinary k.
Proof. intros k H X. unfold TAKERS in X. cbn [In] in X. repeat (destruct X as [<-|X]; [vm_compute in H; discriminate H|]). exact X. Qed.
Lemma ordinary_closer : forall k, isCloser k = true -> ordinary k.
Proof. intros k H X. unfold TAKERS in X. cbn [In] in X. repeat (destruct X as [<-|X]; [vm_compute in H; discriminate H|]). exact X. Qed.
Lemma ordinary_group : forall k c, TokenToCloser k = c -> 0 <= c -> ordinary k.
Proof. intros k c H C X. unfold TAKERS in X. cbn [In] in X. repeat (destruct X as [<-|X]; [vm_compute in H; subst c; lia|]). exact X. Qed.
Lemma ordinary_in : forall k l, In k l -> forallb (fun k => negb (zin k TAKERS)) l = true -> ordinary k.
Proof. intros k l H F X. apply (proj1 (forallb_forall _ _) F) in H. apply negb_true_iff in H. apply zin_In in X. congruence. Qed.
Lemma ordinary_op : forall k op, op <> IOP_CodeParser_InternalInvalid -> is_infix_op op (infix_of k) = true -> ordinary k.
Proof.
  intros k op N H X. unfold TAKERS in X. cbn [In] in X.
  assert (K : forall q, get_op q = (KInfix, IOP_CodeParser_InternalInvalid) -> is_infix_op op q = true -> False).
  { intros q Eq Hq. unfold is_infix_op in Hq. rewrite Eq in Hq. apply Z.eqb_eq in Hq. congruence. }
  repeat (destruct X as [<-|X]; [refine (K _ _ H); vm_compute; reflexivity|]). exact X.
Qed.
Lemma infix_op_valid : forall k p op, infix_of k = IP_InfixOperator p op -> op <> IOP_CodeParser_InternalInvalid.
Proof.
  intros k p op H E. unfold infix_of in H. destruct (assoc k INFIX_PARSELETS) as [q|] eqn:A; [|discriminate H]. subst q.
  assert (F : forallb (fun e : Z * infix_parselet => match snd e with IP_InfixOperator _ op => negb (op =? IOP_CodeParser_InternalInvalid) | _ => true end) INFIX_PARSELETS = true) by (vm_compute; reflexivity).
  assert (HIn : exists k', In (k', IP_InfixOperator p op) INFIX_PARSELETS).
  { revert A. generalize INFIX_PARSELETS. clear. intros l. induction l as [|[a b] l IH]; cbn [assoc]; [discriminate|]. destruct (_ =? _); [intros A; injection A as ->; eexists; left; reflexivity|].
    intros A. destruct (IH A) as [k' H]. exists k'. right. exact H. }
  destruct HIn as [k' HIn]. apply (proj1 (forallb_forall _ _) F) in HIn. cbn [snd] in HIn. subst op. discriminate HIn.
Qed.
Lemma opener_closer : forall k c, GroupOpenerToCloser k = Ok c -> 0 <= c.
Proof.
  intros k c H. unfold GroupOpenerToCloser in H.
  assert (G : forall l, (forall e c, In e l -> snd e = Ok c -> 0 <= c) -> forall c, switch k l Panic = Ok c -> 0 <= c).
  { intros l. induction l as [|[a b] l IH]; intros F d E; cbn in E; [discriminate E|]. destruct (_ =? _); [eapply F; [left; reflexivity|exact E]|eapply IH; [|exact E]; intros; eapply F; [right; eauto|eauto]]. }
  eapply G; [|exact H]. intros e d He Hd. repeat (destruct He as [<-|He]; [injection Hd as <-; vm_compute; discriminate|]). destruct He.
Qed.

(** ** Accounts *)
Definition att (ns : list cst) (op : Z) (t u : token) : Prop :=
  exists r, In (Op KCompound op (Tok t :: r)) ns /\ (r = [Tok u] \/ exists bop v, r = [Op KCompound bop [Tok u; Tok v]]).
Definition hd (ns : list cst) (t : token) : Prop := exists op v, In (Op KCompound op [Tok v; Tok t]) ns /\ In (t_kind v) [TK_Under; TK_UnderUnder; TK_UnderUnderUnder].
Definition accounted (ns : list cst) (t : token) : Prop := forall op w k e, continues (t_kind t) w k e -> In (t_kind t, k, op) joined -> fst (past t) = w ++ e ->
  (exists u, t_kind u = k /\ t_text u = w /\ att ns op t u) \/ (t_kind t = TK_Symbol /\ hd ns t).
Definition fine (n : cst) : Prop := Forall (accounted (nodes n)) (toks n).
Lemma accounted_more : forall ns ns' t, incl ns ns' -> accounted ns t -> accounted ns' t.
Proof.
  intros ns ns' t Hi H op w k e C J P. destruct (H op w k e C J P) as [(u & U1 & U2 & r & X & Y)|(S & p & v & X & Y)]; [left|right].
  - exists u. split; auto. split; auto. exists r. auto.
  - split; auto. exists p, v. auto.
Qed.
Lemma fine_ordinary : forall t, ordinary (t_kind t) -> fine (Tok t).
Proof. intros t H. constructor; [|constructor]. intros op w k e C J P. exfalso. apply H. eapply joined_taker; eauto. Qed.
Lemma fine_over : forall n, (forall t, n <> Tok t) -> Forall fine (children n) -> fine n.
Proof.
  intros n N H. unfold fine. rewrite toks_eq by exact N. rewrite nodes_eq. apply Forall_forall. intros t Ht. apply in_flat_map in Ht as (c & Hc & Ht). rewrite Forall_forall in H.
  specialize (H c Hc). unfold fine in H. rewrite Forall_forall in H. eapply accounted_more; [|apply H; exact Ht]. intros x Hx. right. apply in_flat_map. eauto.
Qed.

Section Slots.
Variable o : opts.
Variable dbg : bool.
Hypothesis tab : 0 < o_tab_width o.

Definition sound (t : token) : Prop := locok o (sp_start (t_src t)) /\ locok o (sp_end (t_src t)).
Definition OK (s : pst) : Prop := locok o (ploc (cur (tz s))) /\ weof (cur (tz s)) = false /\ Forall fine (stack s).
Definition HW {A} (m : P A) (Q : A -> Prop) : Prop := forall s, OK s -> forall a s', m s = Ok (a, s') -> OK s' /\ Q a.
Definition any {A} (_ : A) : Prop := True.

Lemma OK_Inv : forall s, OK s -> Inv o (tz s).
Proof. intros s (H1 & H2 & _). split; auto. split; auto. intros X. congruence. Qed.
Lemma HW_bind : forall A B (m : P A) (k : A -> P B) Q Q', HW m Q -> (forall a, Q a -> HW (k a) Q') -> HW (pbind m k) Q'.
Proof. intros A B m k Q Q' H K s Hs a s' E. unfold pbind in E. destruct (m s) as [[b s1]| |] eqn:Em; [|discriminate E|discriminate E]. destruct (H s Hs _ _ Em) as [H1 H2]. exact (K b H2 s1 H1 _ _ E). Qed.
Lemma HW_weak : forall A (m : P A) (Q Q' : A -> Prop), HW m Q -> (forall a, Q a -> Q' a) -> HW m Q'.
Proof. intros A m Q Q' H K s Hs a s' E. destruct (H s Hs _ _ E). auto. Qed.
Lemma HW_ret : forall A (a : A) (Q : A -> Prop), Q a -> HW (pret a) Q.
Proof. intros A a Q H s Hs b s' E. injection E as <- <-. auto. Qed.
Lemma HW_panic : forall A (Q : A -> Prop), HW ppanic Q.
Proof. intros A Q s Hs b s' E. discriminate E. Qed.
Lemma HW_assert : forall b, HW (passert b) (fun _ => b = true).
Proof. intros []; [apply HW_ret; auto|apply HW_panic]. Qed.
Lemma HW_debug : forall b, HW (pdebug_assert dbg b) any.
Proof. intros b. unfold pdebug_assert. destruct dbg; [destruct b; [apply HW_ret; exact I|apply HW_panic]|apply HW_ret; exact I]. Qed.
Lemma HW_lift : forall A (r : res A), HW (plift r) (fun a => r = Ok a).
Proof. intros A r s Hs a s' E. unfold plift in E. destruct r as [b| |]; [injection E as <- <-; auto|discriminate E|discriminate E]. Qed.
Lemma HW_if : forall A (c : pst -> bool) (a b : P A) Q, HW a Q -> HW b Q -> HW (fun s => (if c s then a else b) s) Q.
Proof. intros A c a b Q Ha Hb s Hs r s' E. destruct (c s); [exact (Ha s Hs _ _ E)|exact (Hb s Hs _ _ E)]. Qed.
Lemma HW_state : forall A (f : pst -> P A) Q, (forall s0, HW (f s0) Q) -> HW (fun s => f s s) Q.
Proof. intros A f Q H s Hs r s' E. exact (H s s Hs _ _ E). Qed.

Lemma ask_at : forall q s t s', OK s -> plain_request q -> tk (ask o q) s = Ok (t, s') -> OK s' /\ sound t /\ reads o q (here (tz s)) t.
Proof.
  intros q s t s' Hs Hq E. pose proof (OK_Inv s Hs) as HI. unfold tk in E. pose proof (ask_ok o q (tz s) HI Hq) as H. unfold wpr in H. destruct (ask o q (tz s)) as [[u z']| |] eqn:Ea; [|discriminate E|discriminate E].
  injection E as <- <-. destruct H as (_ & _ & (A1 & (_ & _ & A2) & _ & _ & _ & A6 & _)). destruct Hs as (H1 & H2 & H3).
  split; [unfold OK; cbn [tz stack]; rewrite A1; auto|]. split; [split; rewrite A6; auto|]. exists (tz s), z'. auto.
Qed.
Lemma peek_with_at : forall pol s t s', OK s -> p_scan pol = false -> ppeek_with o pol s = Ok (t, s') -> OK s' /\ sound t /\ exists g, reads o (AsToken g pol) (here (tz s)) t.
Proof. intros pol [z S C G] t s' Hs Hp E. rewrite peek_with_eq in E. destruct (ask_at (AsToken (isg G) pol) _ _ _ Hs Hp E) as (H1 & H2 & H3). eauto. Qed.
Lemma HW_peek_with : forall pol, p_scan pol = false -> HW (ppeek_with o pol) sound.
Proof. intros pol Hp s Hs t s' E. destruct (peek_with_at pol s t s' Hs Hp E) as (H1 & H2 & _). auto. Qed.
Lemma HW_peek : HW (ppeek o) sound. Proof. apply HW_peek_with. reflexivity. Qed.
Lemma HW_tag : HW (ppeek_as_tag o) (fun t => sound t /\ ordinary (t_kind t)).
Proof.
  intros s Hs t s' E. change (tk (ask o AsTag) s = Ok (t, s')) in E. destruct (ask_at AsTag _ _ _ Hs I E) as (H1 & H2 & H3). split; auto. split; auto.
  apply reads_tag in H3. eapply ordinary_in; [exact H3|reflexivity].
Qed.
Lemma HW_file : HW (ppeek_as_file o) (fun t => sound t /\ ordinary (t_kind t)).
Proof.
  intros s Hs t s' E. change (tk (ask o AsFile) s = Ok (t, s')) in E. destruct (ask_at AsFile _ _ _ Hs I E) as (H1 & H2 & H3). split; auto. split; auto.
  apply reads_file in H3. eapply ordinary_in; [exact H3|reflexivity].
Qed.
Lemma skip_at : forall t s a s', OK s -> sound t -> t_kind t <> TK_EndOfFile -> pskip t s = Ok (a, s') -> OK s' /\ here (tz s') = past t.
Proof.
  intros t s a s' (H1 & H2 & H3) [S1 S2] N E. unfold pskip, tk in E. rewrite skip_eq in E. injection E as _ <-. split; [|reflexivity]. split; [exact S2|]. split; [apply Z.eqb_neq; exact N|exact H3].
Qed.
Lemma HW_skip : forall t, sound t -> t_kind t <> TK_EndOfFile -> HW (pskip t) any.
Proof. intros t S N s Hs a s' E. split; [|exact I]. eapply skip_at; eauto. Qed.
Lemma HW_reset : forall t, sound t -> HW (preset t) any.
Proof. intros t [S1 S2] s (H1 & H2 & H3) a s' E. unfold preset, tk, reset, seek_loc in E. injection E as _ <-. split; [|exact I]. split; [exact S1|]. split; auto. Qed.
Definition trivial (l : list token) : Prop := Forall (fun t => sound t /\ ordinary (t_kind t)) l.
Lemma HW_fuel : forall A (f : nat -> P A) Q, (forall k, HW (f k) Q) -> HW (pwith_fuel f) Q.
Proof. intros A f Q H s Hs a s' E. exact (H _ s Hs _ _ E). Qed.
Lemma not_end : forall k, ordinary k -> k <> TK_EndOfFile.
Proof. intros k H ->. apply H. unfold TAKERS. cbn. tauto. Qed.
Lemma HW_loop : forall (Q : token -> Prop) get f k, HW get Q -> (forall t, Q t -> sound t) -> (forall t, f (t_kind t) = true -> ordinary (t_kind t)) -> HW (trivia_loop k get f) (fun r => trivial (fst r) /\ Q (snd r)).
Proof.
  intros Q get f k Hg Hs Hf. induction k as [|k IH]; cbn [trivia_loop]; [intros s H a s' E; discriminate E|]. eapply HW_bind; [exact Hg|]. intros t Ht. destruct (f (t_kind t)) eqn:Ef.
  - eapply HW_bind; [apply HW_skip; auto; apply not_end; auto|]. intros _ _. eapply HW_bind; [exact IH|]. intros [l u] [L1 L2]. apply HW_ret. split; [constructor; auto|exact L2].
  - apply HW_ret. split; [constructor|exact Ht].
Qed.
Definition seen (r : list token * token) : Prop := trivial (fst r) /\ sound (snd r).
Lemma HW_current : HW (current_token o dbg) seen.
Proof.
  eapply HW_bind; [apply HW_fuel; intros k; apply (HW_loop sound); [apply HW_peek|auto|intros t; apply ordinary_trivia]|]. intros [l t] H. eapply HW_bind; [apply HW_debug|]. intros _ _. apply HW_ret. exact H.
Qed.
Lemma HW_current_nl : HW (current_token_not_newline o) seen.
Proof. apply HW_fuel. intros k. apply (HW_loop sound); [apply HW_peek|auto|intros t; apply ordinary_trivia_nl]. Qed.
Lemma HW_trivia_reset : forall l, trivial l -> HW (trivia_reset l) any.
Proof. intros [|t l] H; [apply HW_ret; exact I|]. inversion H; subst. apply HW_reset. tauto. Qed.
Lemma HW_push : forall n, fine n -> HW (push_node n) any.
Proof. intros n Hn s (H1 & H2 & H3) a s' E. injection E as _ <-. split; [|exact I]. split; auto. split; auto. cbn [stack]. apply Forall_app. auto. Qed.
Lemma HW_push_trivia : forall l, trivial l -> HW (push_trivia l) any.
Proof.
  intros l Hl s (H1 & H2 & H3) a s' E. injection E as _ <-. split; [|exact I]. split; auto. split; auto. cbn [stack]. apply Forall_app. split; auto.
  apply Forall_map. eapply Forall_impl; [|exact Hl]. intros t [_ X]. apply fine_ordinary. exact X.
Qed.
Lemma HW_leaf : forall t, fine (Tok t) -> HW (push_leaf dbg t) any.
Proof. intros t H. eapply HW_bind; [apply HW_debug|]. intros _ _. apply HW_push. exact H. Qed.
Lemma HW_leaf_next : forall t, sound t -> ordinary (t_kind t) -> HW (push_leaf_and_next dbg t) any.
Proof. intros t S H. eapply HW_bind; [apply HW_leaf, fine_ordinary, H|]. intros _ _. apply HW_skip; auto. apply not_end. exact H. Qed.
Lemma HW_commit : forall l t, trivial l -> sound t -> ordinary (t_kind t) -> HW (commit_syntax_and_next dbg l t) any.
Proof. intros l t L S H. eapply HW_bind; [apply HW_push_trivia, L|]. intros _ _. apply HW_leaf_next; auto. Qed.
Lemma HW_eat : HW (eat_trivia o dbg) sound.
Proof. eapply HW_bind; [apply HW_current|]. intros [l t] [H1 H2]. eapply HW_bind; [apply HW_push_trivia, H1|]. intros _ _. apply HW_ret. exact H2. Qed.
Lemma HW_eat_nl : HW (eat_trivia_not_newline o) sound.
Proof. eapply HW_bind; [apply HW_current_nl|]. intros [l t] [H1 H2]. eapply HW_bind; [apply HW_push_trivia, H1|]. intros _ _. apply HW_ret. exact H2. Qed.
Lemma HW_eat_file : HW (eat_trivia_as_file o dbg) (fun t => sound t /\ ordinary (t_kind t)).
Proof.
  eapply HW_bind; [apply HW_fuel; intros k; apply (HW_loop _ _ _ _ HW_file); [tauto|intros t; apply ordinary_trivia]|]. intros [l t] [H1 H2]. eapply HW_bind; [apply HW_debug|]. intros _ _.
  eapply HW_bind; [apply HW_push_trivia, H1|]. intros _ _. apply HW_ret. exact H2.
Qed.
Ltac shift := intros s (H1 & H2 & H3) a s' E.
Lemma HW_push_context : forall p, HW (push_context p) any.
Proof. intros p. shift. unfold push_context in E. destruct (stack s) eqn:Es; [discriminate E|]. injection E as _ <-. split; [|exact I]. split; auto. Qed.
Lemma HW_pop_context : HW pop_context any.
Proof. shift. unfold pop_context in E. destruct (ctxs s); [discriminate E|]. injection E as _ <-. split; [|exact I]. split; auto. Qed.
Lemma HW_set_prec : forall p, HW (set_prec p) any.
Proof. intros p. shift. unfold set_prec in E. destruct (ctxs s); [discriminate E|]. injection E as _ <-. split; [|exact I]. split; auto. Qed.
Lemma HW_push_group : forall c, HW (push_group c) any.
Proof. intros c. shift. injection E as _ <-. split; [|exact I]. split; auto. Qed.
Lemma HW_pop_group : HW pop_group any.
Proof. shift. unfold pop_group in E. destruct (groups s); [discriminate E|]. injection E as _ <-. split; [|exact I]. split; auto. Qed.
Lemma Forall_skipn : forall A (Pr : A -> Prop) n l, Forall Pr l -> Forall Pr (skipn n l).
Proof. intros A Pr n l H. apply Forall_forall. intros x Hx. rewrite Forall_forall in H. apply H. rewrite <- (firstn_skipn n l). apply in_or_app. auto. Qed.
Lemma Forall_firstn : forall A (Pr : A -> Prop) n l, Forall Pr l -> Forall Pr (firstn n l).
Proof. intros A Pr n l H. apply Forall_forall. intros x Hx. rewrite Forall_forall in H. apply H. rewrite <- (firstn_skipn n l). apply in_or_app. auto. Qed.
Lemma HW_drain : forall A start (f : list cst -> P A) Q, (forall ch, Forall fine ch -> HW (f ch) Q) ->
  HW (fun s => if (length (stack s) <? start)%nat then Panic else f (skipn start (stack s)) (mkp (tz s) (firstn start (stack s)) (ctxs s) (groups s))) Q.
Proof.
  intros A start f Q Hf s (H1 & H2 & H3) a s' E. destruct (length (stack s) <? start)%nat; [discriminate E|]. refine (Hf _ _ _ _ _ _ E); [apply Forall_skipn; auto|].
  split; auto. split; auto. cbn [stack]. apply Forall_firstn. auto.
Qed.
Lemma fine_op : forall k op ch, Forall fine ch -> fine (Op k op ch).
Proof. intros k op ch H. apply fine_over; [discriminate|]. exact H. Qed.
Lemma HW_reduce : HW reduce (Forall fine).
Proof. eapply HW_bind; [apply HW_pop_context|]. intros start _. apply (HW_drain _ start (fun ch => pret ch)). intros ch H. apply HW_ret. exact H. Qed.
Lemma HW_reduce_op : forall k op, HW (reduce_op k op) any.
Proof. intros k op. eapply HW_bind; [apply HW_reduce|]. intros ch H. eapply HW_bind; [apply HW_assert|]. intros _ _. apply HW_push, fine_op, H. Qed.
Lemma HW_reduce_error : forall e, HW (reduce_syntax_error e) any.
Proof. intros e. eapply HW_bind; [apply HW_reduce|]. intros ch H. eapply HW_bind; [apply HW_assert|]. intros _ _. apply HW_push, fine_over; [discriminate|exact H]. Qed.
Lemma HW_reduce_group : forall k op, HW (reduce_group_as k op) any.
Proof.
  intros k op. eapply HW_bind; [apply HW_pop_context|]. intros start _. eapply HW_bind; [apply HW_pop_group|]. intros _ _.
  apply (HW_drain _ start (fun ch => (passert (negb (Nat.eqb (length ch) 0)) ;; push_node (Op k op ch))%parser)). intros ch H. eapply HW_bind; [apply HW_assert|]. intros _ _. apply HW_push, fine_op, H.
Qed.
Lemma HW_reduce_open : forall op, HW (reduce_unterminated_group keep op) any.
Proof.
  intros op. eapply HW_bind; [apply HW_pop_context|]. intros start _. eapply HW_bind; [apply HW_pop_group|]. intros _ _.
  apply (HW_drain _ start (fun ch => (ch' <- plift (keep op ch) ;; push_node (Op KGroupMissingCloser op ch'))%parser)). intros ch H. eapply HW_bind; [apply HW_lift|]. intros ch' E. injection E as <-. apply HW_push, fine_op, H.
Qed.
Lemma fine_children : forall k op ch, k <> KCompound -> fine (Op k op ch) -> Forall (fun t => accounted (flat_map nodes ch) t) (flat_map toks ch).
Proof.
  intros k op ch N H. unfold fine in H. rewrite toks_eq in H by discriminate. rewrite nodes_eq in H. cbn [children] in H. eapply Forall_impl; [|exact H]. intros t X p w j e C J Pp.
  assert (K : forall p' c', In (Op KCompound p' c') (Op k op ch :: flat_map nodes ch) -> In (Op KCompound p' c') (flat_map nodes ch)).
  { intros p' c' [Y|Y]; auto. injection Y as Y _ _. contradiction. }
  destruct (X p w j e C J Pp) as [(u & U1 & U2 & r & Y & Z)|(S & q & v & Y & Z)]; [left|right].
  - exists u. split; auto. split; auto. exists r. auto.
  - split; auto. exists q, v. auto.
Qed.
Lemma fine_call : forall k op ch hd m op', k <> KCompound -> fine (Op k op ch) -> Forall fine hd -> fine (Call (Concrete hd) m op' ch).
Proof.
  intros k op ch h m op' N H Hh. unfold fine. rewrite toks_eq by discriminate. rewrite nodes_eq, children_call. cbn [head_nodes]. rewrite !flat_map_app. apply Forall_app. split.
  - apply Forall_forall. intros t Ht. apply in_flat_map in Ht as (c & Hc & Ht). rewrite Forall_forall in Hh. specialize (Hh c Hc). unfold fine in Hh. rewrite Forall_forall in Hh.
    eapply accounted_more; [|apply Hh; exact Ht]. intros x Hx. right. apply in_or_app. left. apply in_flat_map. eauto.
  - eapply Forall_impl; [|apply (fine_children _ _ _ N H)]. intros t X. eapply accounted_more; [|exact X]. intros x Hx. right. apply in_or_app. right. exact Hx.
Qed.
Lemma HW_pop_node : HW pop_node fine.
Proof.
  shift. unfold pop_node in E. destruct (rev (stack s)) as [|n r] eqn:Er; [discriminate E|]. injection E as <- <-. apply (f_equal (@rev cst)) in Er. rewrite rev_involutive in Er. cbn [rev] in Er. rewrite Er in H3.
  apply Forall_app in H3 as [H3 H4]. inversion H4; subst. split; auto. split; auto.
Qed.
Lemma HW_reduce_call : HW reduce_call any.
Proof.
  eapply HW_bind; [apply HW_pop_context|]. intros start _. eapply HW_bind; [apply HW_pop_node|]. intros body Hb.
  apply (HW_drain _ start (fun head => match body with
              | Op KGroup op ch => (op' <- plift (try_to_call_operator op) ;; push_node (Call (Concrete head) false op' ch))%parser
              | Op KGroupMissingCloser op ch => (op' <- plift (try_to_call_operator op) ;; push_node (Call (Concrete head) true op' ch))%parser
              | _ => ppanic
              end)). intros ch H. destruct body as [| | |k op c| |]; try apply HW_panic. destruct k; try apply HW_panic.
  - eapply HW_bind; [apply HW_lift|]. intros op' _. apply HW_push. eapply fine_call; eauto. discriminate.
  - eapply HW_bind; [apply HW_lift|]. intros op' _. apply HW_push. eapply fine_call; eauto. discriminate.
Qed.
Lemma HW_pure : forall A (m : P A), (forall s a s', m s = Ok (a, s') -> s' = s) -> HW m any.
Proof. intros A m H s Hs a s' E. rewrite (H _ _ _ E). split; [auto|exact I]. Qed.
Lemma HW_colon : HW check_colon_lhs any.
Proof.
  apply HW_pure. intros s a s' E. unfold check_colon_lhs in E. destruct (top_node s) as [[t| | |k op ch| |]|]; try discriminate E; try (injection E as _ <-; reflexivity).
  - destruct (t_kind t =? TK_Symbol); [injection E as _ <-; reflexivity|]. destruct (zin _ _); [injection E as _ <-; reflexivity|]. destruct (t_kind t =? TK_Colon); [discriminate E|]. injection E as _ <-. reflexivity.
  - destruct k; injection E as _ <-; reflexivity.
Qed.
Lemma HW_precedence : forall p, HW (get_precedence p) any.
Proof. intros p. apply HW_pure. intros s a s' E. unfold get_precedence in E. destruct p; try discriminate E; injection E as _ <-; reflexivity. Qed.
Lemma sound_at_start : forall k t, sound t -> sound (tok_at_start k t).
Proof. intros k t [S1 S2]. split; exact S1. Qed.
Lemma sound_at : forall k t, sound t -> sound (tok_at k t).
Proof. intros k t [S1 S2]. split; auto. Qed.
Lemma HW_implicit : forall t, sound t -> HW (process_implicit_times t) sound.
Proof.
  intros t S s Hs u s' E. pose proof (sound_at_start TK_Fake_ImplicitTimes t S) as S'. unfold process_implicit_times in E. destruct (infix_of (t_kind t)); try (injection E as <- <-; auto; fail).
  - injection E as <- <-. split; auto. destruct (_ =? _); auto.
  - unfold pbind, top_node_is_span in E. destruct (top_node s) as [[| | |k op ch| |]|]; try discriminate E; try destruct k; injection E as <- <-; split; auto; destruct (_ =? _); auto.
Qed.

Variable rec : call -> P unit.
Definition ready (c : call) : Prop :=
  match c with
  | CPrefix t | CInfix t => sound t
  | CGroupLoop _ closer => 0 <= closer
  | CInfixLoop op => op <> IOP_CodeParser_InternalInvalid
  | _ => True
  end.
Hypothesis Hrec : forall c, ready c -> HW (rec c) any.

(** ** What is read behind a token *)
Definition policy_of (h : Z) : policy := if h =? TK_Hash then INSIDE_SLOT else if h =? TK_HashHash then INSIDE_SLOTSEQUENCE else if h =? TK_Percent then INSIDE_OUT else TOPLEVEL.
Lemma joined_index : forall h op, In (h, TK_Integer, op) joined -> h = TK_Hash \/ h = TK_HashHash \/ h = TK_Percent.
Proof. intros h op H. unfold joined in H. cbn [In] in H. repeat (destruct H as [H|H]; [try discriminate H; injection H as <- _; auto|]). destruct H. Qed.
Lemma continued : forall h g p u op w k e, reads o (AsToken g (policy_of h)) p u -> continues h w k e -> In (h, k, op) joined -> fst p = w ++ e -> t_kind u = k /\ t_text u = w.
Proof.
  intros h g p u op w k e (z & z' & HI & <- & E) C J R. unfold here in R. cbn [fst] in R.
  assert (S : p_scan (grouped g (policy_of h)) = false) by (unfold policy_of; destruct (h =? TK_Hash), (h =? TK_HashHash), (h =? TK_Percent), g; reflexivity).
  inversion C as [ds e' Hd He|w' e' Hw He|w' e' Hw|w' k' e' Hl Hb]; subst.
  - refine (ask_grouped o g _ z u z' (fun t => t_kind t = TK_Integer /\ t_text t = w) E (nextToken_index o _ z w e HI S _ Hd He R)).
    destruct (joined_index _ _ J) as [->|[->| ->]]; destruct g; reflexivity.
  - pose proof (ask_grouped o g _ z u z' _ E (nextToken_symbol o _ z w e _ _ HI S Hw (st_end e He) R)) as [T1 T2]. rewrite buf_between_app in T2. split; auto. rewrite T1.
    unfold policy_of. destruct (h =? TK_Hash), (h =? TK_HashHash), (h =? TK_Percent), g; reflexivity.
  - cbn [app] in R. assert (K : string_post (w' ++ e) (cur z) u z').
    { apply (ask_grouped o g _ z u z' (fun t => string_post (w' ++ e) (cur z) t z') E). eapply po_conseq; [apply nextToken_string; eauto|]. intros a s2 X. exact X. }
    unfold string_post in K. rewrite Hw in K. destruct K as [K1 K2]. split; auto. rewrite K2, R. change (34 :: w' ++ e) with ((34 :: w') ++ e). apply buf_between_app.
  - exact (ask_grouped o g _ z u z' (fun t => t_kind t = k /\ t_text t = w) E (nextToken_operator o _ z w k e HI S Hl Hb R)).
Qed.
(** [u] has been read behind [t] *)
Definition behind (t u : token) : Prop := exists g, reads o (AsToken g (policy_of (t_kind t))) (past t) u.
Lemma fine_alone : forall t u, behind t u -> (forall op, ~ In (t_kind t, t_kind u, op) joined) -> fine (Tok t).
Proof.
  intros t u [g Hr] N. constructor; [|constructor]. intros op w k e C J Pp. exfalso. destruct (continued _ _ _ _ _ _ _ _ Hr C J Pp) as [<- _]. exact (N _ J).
Qed.
Lemma joined_one : forall h k op op', In (h, k, op) joined -> In (h, k, op') joined -> op = op'.
Proof.
  intros h k op op' H H'. assert (F : forallb (fun e => forallb (fun e' => if fst (fst e) =? fst (fst e') then if snd (fst e) =? snd (fst e') then snd e =? snd e' else true else true) joined) joined = true) by (vm_compute; reflexivity).
  apply (proj1 (forallb_forall _ _) F) in H. apply (proj1 (forallb_forall _ _) H) in H'. cbn [fst snd] in H'. rewrite !Z.eqb_refl in H'. apply Z.eqb_eq in H'. exact H'.
Qed.
Lemma accounted_pair : forall ns op t u r, behind t u -> In (t_kind t, t_kind u, op) joined -> In (Op KCompound op (Tok t :: r)) ns -> r = [Tok u] \/ (exists bop v, r = [Op KCompound bop [Tok u; Tok v]]) -> accounted ns t.
Proof.
  intros ns op t u r [g Hr] J Hn Hx op' w k e C J' Pp. left. destruct (continued _ _ _ _ _ _ _ _ Hr C J' Pp) as [<- <-]. exists u. split; auto. split; auto. exists r. rewrite (joined_one _ _ _ _ J' J). auto.
Qed.
Lemma fine_pair : forall op t u, behind t u -> In (t_kind t, t_kind u, op) joined -> fine (Tok u) -> fine (Op KCompound op [Tok t; Tok u]).
Proof.
  intros op t u B J Hu. unfold fine. cbn [toks nodes flat_map app]. constructor.
  - eapply accounted_pair; [exact B|exact J|left; reflexivity|left; reflexivity].
  - constructor; [|constructor]. inversion Hu; subst. eapply accounted_more; [|eassumption]. intros x Hx. cbn [nodes] in Hx. destruct Hx as [<-|[]]. cbn. tauto.
Qed.
Lemma fine_head : forall op t u, behind t u -> In (t_kind t, t_kind u, op) joined -> In (t_kind t) [TK_Under; TK_UnderUnder; TK_UnderUnderUnder] -> t_kind u = TK_Symbol -> fine (Op KCompound op [Tok t; Tok u]).
Proof.
  intros op t u B J K Hu. unfold fine. cbn [toks nodes flat_map app]. constructor.
  - eapply accounted_pair; [exact B|exact J|left; reflexivity|left; reflexivity].
  - constructor; [|constructor]. intros op' w k e C J' Pp. right. split; auto. exists op, t. split; [left; reflexivity|exact K].
Qed.

Ltac bnd := eapply HW_bind.
Lemma go : forall c, ready c -> HW (rec c) any. Proof. exact Hrec. Qed.
Lemma HW_climb_with : forall t, fine (Tok t) -> HW (push_and_climb dbg rec t) any.
Proof. intros t H. bnd; [apply HW_leaf, H|]. intros _ _. apply go. exact I. Qed.

(** ** Parselets that take something *)
Lemma HW_slot : forall pol args op t, sound t -> t_kind t <> TK_EndOfFile -> policy_of (t_kind t) = pol -> p_scan pol = false ->
  (forall k, zin k args = true <-> In (t_kind t, k, op) joined) -> (forall op' k, In (t_kind t, k, op') joined -> op' = op) -> (forall k, zin k args = true -> ordinary k) -> HW (prefix_slot o dbg rec pol args op t) any.
Proof.
  intros pol args op t S N Hp Hs Ha Ho Hk. intros s Hok a s' E. unfold prefix_slot in E. unfold pbind at 1 in E. destruct (pskip t s) as [[[] s1]| |] eqn:E1; [|discriminate E|discriminate E].
  destruct (skip_at _ _ _ _ Hok S N E1) as [O1 P1]. unfold pbind at 1 in E. destruct (ppeek_with o pol s1) as [[u s2]| |] eqn:E2; [|discriminate E|discriminate E].
  destruct (peek_with_at _ _ _ _ O1 Hs E2) as (O2 & S2 & g & R2). rewrite P1, <- Hp in R2. assert (B : behind t u) by (exists g; exact R2).
  destruct (zin (t_kind u) args) eqn:Eu.
  - revert a s' E. change (forall a s', ?m s2 = Ok (a, s') -> OK s' /\ any a) with (forall a s', m s2 = Ok (a, s') -> OK s' /\ any a).
    match goal with |- forall a s', ?m s2 = Ok (a, s') -> _ => assert (W : HW m any) end; [|exact (W s2 O2)].
    bnd; [apply HW_skip; auto; apply not_end; auto|]. intros _ _. bnd; [apply HW_debug|]. intros _ _. bnd; [|intros _ _; apply go; exact I]. apply HW_push. apply fine_pair; auto; [apply Ha; auto|apply fine_ordinary; auto].
  - refine (HW_climb_with t _ s2 O2 _ _ E). eapply fine_alone; [exact B|]. intros op' J. rewrite (Ho _ _ J) in J. apply Ha in J. congruence.
Qed.
Definition blank (bop : Z) (t : token) (n : cst) : Prop := fine n /\ (n = Tok t \/ exists u, n = Op KCompound bop [Tok t; Tok u]).
Lemma under_kinds : forall t, In (t_kind t) [TK_Under; TK_UnderUnder; TK_UnderUnderUnder] -> t_kind t <> TK_EndOfFile /\ policy_of (t_kind t) = TOPLEVEL /\ (forall k op, In (t_kind t, k, op) joined -> k = TK_Symbol).
Proof.
  intros t H. cbn [In] in H. destruct H as [H|[H|[H|[]]]]; rewrite <- H; (split; [discriminate|split; [reflexivity|]]); intros k op J; unfold joined in J; cbn [In] in J;
    repeat (destruct J as [J|J]; [try discriminate J; injection J; auto|]); destruct J.
Qed.
Lemma HW_under : forall bop t, sound t -> In (t_kind t, TK_Symbol, bop) joined -> In (t_kind t) [TK_Under; TK_UnderUnder; TK_UnderUnderUnder] -> HW (get_under o bop t) (blank bop t).
Proof.
  intros bop t S J K s Hok a s' E. destruct (under_kinds t K) as (N & Hp & Hj). unfold get_under in E. unfold pbind at 1 in E. destruct (pskip t s) as [[[] s1]| |] eqn:E1; [|discriminate E|discriminate E].
  destruct (skip_at _ _ _ _ Hok S N E1) as [O1 P1]. unfold pbind at 1 in E. destruct (ppeek o s1) as [[u s2]| |] eqn:E2; [|discriminate E|discriminate E].
  destruct (peek_with_at TOPLEVEL _ _ _ O1 eq_refl E2) as (O2 & S2 & g & R2). rewrite P1, <- Hp in R2. assert (B : behind t u) by (exists g; exact R2).
  assert (Nx : forall n s3, pbind (pskip u) (fun _ => pret n) s2 = Ok (a, s3) -> t_kind u <> TK_EndOfFile -> a = n /\ OK s3).
  { intros n s3 X Nu. unfold pbind in X. destruct (pskip u s2) as [[[] s4]| |] eqn:E4; [|discriminate X|discriminate X]. injection X as <- <-. split; auto. eapply skip_at; [exact O2| | |exact E4]; auto. }
  destruct (Z.eqb_spec (t_kind u) TK_Symbol) as [Es|Ns].
  - cbn [orb] in E. destruct (Nx _ _ E ltac:(rewrite Es; discriminate)) as [-> O3]. split; auto. split; [|right; eauto]. apply fine_head; auto. rewrite Es. exact J.
  - assert (Al : fine (Tok t)) by (eapply fine_alone; [exact B|]; intros op X; apply Hj in X; contradiction).
    destruct (Z.eqb_spec (t_kind u) TK_Error_ExpectedLetterlike) as [Ee|Ne]; cbn [orb] in E.
    + destruct (Nx _ _ E ltac:(rewrite Ee; discriminate)) as [-> O3]. split; auto. split; [|right; eauto]. apply fine_op. constructor; [exact Al|]. constructor; [|constructor]. apply fine_ordinary. rewrite Ee. eapply (ordinary_in _ [_]); [left; reflexivity|reflexivity].
    + injection E as <- <-. split; auto. split; [exact Al|left; reflexivity].
Qed.
Lemma HW_pattern : forall bop pbop t u, sound u -> behind t u -> In (t_kind t, t_kind u, pbop) joined -> In (t_kind u, TK_Symbol, bop) joined -> In (t_kind u) [TK_Under; TK_UnderUnder; TK_UnderUnderUnder] ->
  HW (pattern_blank o dbg rec bop pbop t u) any.
Proof.
  intros bop pbop t u S B J J' K. unfold pattern_blank. bnd; [apply HW_under; eauto|]. intros n [Hn X]. bnd; [apply HW_debug|]. intros _ _. bnd; [|intros _ _; apply go; exact I]. apply HW_push.
  destruct X as [->|[v ->]]; [apply fine_pair; auto|]. unfold fine in *. cbn [toks flat_map app] in *. constructor.
  - eapply accounted_pair; [exact B|exact J|left; reflexivity|right; eauto].
  - eapply Forall_impl; [|exact Hn]. intros x Hx. eapply accounted_more; [|exact Hx]. intros y Hy. change (In y (nodes (Op KCompound pbop [Tok t; Op KCompound bop [Tok u; Tok v]]))). rewrite nodes_eq. right. cbn [children flat_map]. apply in_or_app. right. apply in_or_app. left. exact Hy.
Qed.
Lemma symbol_joined : forall k op, In (TK_Symbol, k, op) joined -> In k [TK_Under; TK_UnderUnder; TK_UnderUnderUnder; TK_UnderDot].
Proof. intros k op J. unfold joined in J. cbn [In] in J. repeat (destruct J as [J|J]; [try discriminate J; injection J as <- _; cbn; tauto|]). destruct J. Qed.
Ltac injoin := unfold joined; cbn [In]; tauto.
Lemma HW_symbol : forall t, sound t -> t_kind t = TK_Symbol -> HW (prefix_symbol o dbg rec t) any.
Proof.
  intros t S Kt s Hok a s' E. unfold prefix_symbol in E. unfold pbind at 1 in E. destruct (pskip t s) as [[[] s1]| |] eqn:E1; [|discriminate E|discriminate E].
  destruct (skip_at _ _ _ _ Hok S ltac:(rewrite Kt; discriminate) E1) as [O1 P1]. unfold pbind at 1 in E. destruct (ppeek o s1) as [[u s2]| |] eqn:E2; [|discriminate E|discriminate E].
  destruct (peek_with_at TOPLEVEL _ _ _ O1 eq_refl E2) as (O2 & S2 & g & R2). assert (B : behind t u) by (exists g; rewrite P1 in R2; rewrite Kt; exact R2).
  revert a s' E. match goal with |- forall a s', ?m s2 = Ok (a, s') -> _ => assert (W : HW m any) end; [|exact (W s2 O2)].
  destruct (Z.eqb_spec (t_kind u) TK_Under) as [E3|N3]; [apply HW_pattern; auto; try rewrite Kt; rewrite E3; [injoin|injoin|cbn; tauto]|].
  destruct (Z.eqb_spec (t_kind u) TK_UnderUnder) as [E4|N4]; [apply HW_pattern; auto; try rewrite Kt; rewrite E4; [injoin|injoin|cbn; tauto]|].
  destruct (Z.eqb_spec (t_kind u) TK_UnderUnderUnder) as [E5|N5]; [apply HW_pattern; auto; try rewrite Kt; rewrite E5; [injoin|injoin|cbn; tauto]|].
  destruct (Z.eqb_spec (t_kind u) TK_UnderDot) as [E6|N6].
  - assert (Ou : ordinary (t_kind u)) by (rewrite E6; eapply (ordinary_in _ [_]); [left; reflexivity|reflexivity]).
    bnd; [apply HW_skip; auto; apply not_end; auto|]. intros _ _. bnd; [apply HW_debug|]. intros _ _. bnd; [|intros _ _; apply go; exact I]. apply HW_push. apply fine_pair; auto; [rewrite Kt, E6; injoin|apply fine_ordinary; auto].
  - apply HW_climb_with. eapply fine_alone; [exact B|]. intros op J. rewrite Kt in J. apply symbol_joined in J. cbn [In] in J. intuition congruence.
Qed.

(** ** The other parselets *)
Ltac ordk := first [assumption | eapply (ordinary_in _ [_]); [left; reflexivity|reflexivity]].
Ltac kindof := match goal with H : t_kind ?t = ?k |- ordinary (t_kind ?t) => rewrite H; ordk end.
Ltac inserted := first [apply fine_ordinary; cbn [t_kind tok_at tok_at_start]; ordk].
Ltac step :=
  match goal with
  | |- HW (pbind _ _) _ => bnd
  | |- forall _, _ => intros; cbv beta in *
  | H : seen ?r |- HW _ _ => destruct r as [? ?]; destruct H; cbn [fst snd] in *
  | H : sound ?t /\ ordinary _ |- HW _ _ => destruct H
  | |- HW (rec _) _ => apply go; cbn [ready]; auto
  | |- HW (fun s => (if _ s then _ else _) s) _ => apply HW_if
  | |- HW (if ?c then _ else _) _ => let E := fresh "E" in destruct c eqn:E
  | |- HW (match ?a with ColonPattern => _ | _ => _ end) _ => destruct a
  | |- _ => first [apply HW_current | apply HW_current_nl | apply HW_eat | apply HW_eat_nl | apply HW_eat_file | apply HW_tag | apply HW_peek
      | apply HW_reduce_op | apply HW_reduce_error | apply HW_reduce_group | apply HW_reduce_open | apply HW_reduce_call | apply HW_push_context | apply HW_set_prec | apply HW_push_group | apply HW_colon | apply HW_precedence
      | apply HW_assert | apply HW_debug | apply HW_lift | apply HW_panic | (apply HW_ret; exact I)
      | (apply HW_trivia_reset; assumption) | (apply HW_push_trivia; assumption) | (apply HW_implicit; assumption) | (apply HW_reset; assumption)
      | (apply HW_leaf_next; assumption) | (apply HW_commit; assumption) | (apply HW_leaf; assumption) ]
  end.
Ltac walk := repeat step.
Lemma is_kind : forall k k', (k =? k') = true -> forallb (fun k => negb (zin k TAKERS)) [k'] = true -> ordinary k.
Proof. intros k k' H F. apply Z.eqb_eq in H. subst k'. apply (ordinary_in k [k]); [left; reflexivity|exact F]. Qed.
Lemma not_kind : forall k k', negb (k =? k') = false -> forallb (fun k => negb (zin k TAKERS)) [k'] = true -> ordinary k.
Proof. intros k k' H F. apply negb_false_iff in H. eapply is_kind; eauto. Qed.
Lemma fake : forall k t, forallb (fun k => negb (zin k TAKERS)) [k] = true -> fine (Tok (tok_at_start k t)).
Proof. intros k t F. apply fine_ordinary. cbn [t_kind tok_at tok_at_start]. apply (ordinary_in k [k]); [left; reflexivity|exact F]. Qed.
Lemma mark : forall k t, forallb (fun k => negb (zin k TAKERS)) [k] = true -> fine (Tok (tok_at k t)).
Proof. intros k t F. apply fine_ordinary. cbn [t_kind tok_at]. apply (ordinary_in k [k]); [left; reflexivity|exact F]. Qed.
Lemma fakes : forall (b : bool) k k' t, forallb (fun k => negb (zin k TAKERS)) [k; k'] = true -> fine (Tok (tok_at_start (if b then k else k') t)).
Proof. intros b k k' t F. apply fine_ordinary. cbn [t_kind tok_at tok_at_start]. eapply ordinary_in; [|exact F]. destruct b; cbn; auto. Qed.
Ltac leaf := apply HW_leaf; first [apply fake; reflexivity | apply mark; reflexivity | apply fakes; reflexivity].

Lemma HW_top_closer : forall t, sound t -> HW (prefix_toplevel_closer dbg t) any.
Proof. intros t S. unfold prefix_toplevel_closer. bnd; [apply HW_assert|]. intros u0 Hc. cbn beta in Hc. bnd; [leaf|]. intros _ _. apply HW_skip; auto. apply not_end, ordinary_closer. exact Hc. Qed.
Lemma HW_operator : forall p op t, sound t -> ordinary (t_kind t) -> HW (prefix_operator o dbg rec p op t) any.
Proof. intros p op t S Ot. unfold prefix_operator. walk. Qed.
Lemma HW_group : forall opener op t, sound t -> ordinary (t_kind t) -> HW (prefix_group dbg rec opener op t) any.
Proof. intros opener op t S Ot. unfold prefix_group. bnd; [apply HW_lift|]. intros c Hc. walk; exact (opener_closer _ _ Hc). Qed.
Lemma HW_group_loop : forall op closer, 0 <= closer -> HW (group_loop o dbg keep rec op closer) any.
Proof.
  intros op closer Hc. unfold group_loop. bnd; [apply HW_current|]. intros [l t] [L S]. cbn [fst snd] in *. destruct (Z.eqb_spec (TokenToCloser (t_kind t)) closer) as [E|_].
  - pose proof (ordinary_group _ _ E Hc). walk.
  - destruct (isCloser (t_kind t)) eqn:Ec.
    + apply HW_if; [walk|]. bnd; [apply HW_push_trivia, L|]. intros _ _. bnd; [apply HW_top_closer, S|]. walk.
    + walk.
Qed.
Lemma HW_integral : forall a b t, sound t -> ordinary (t_kind t) -> HW (prefix_integral o dbg rec a b t) any.
Proof. intros a b t S Ot. unfold prefix_integral. bnd; [walk|]. intros _ _. bnd; [walk|]. intros _ _. bnd; [walk|]. intros u Su. apply HW_bind with any; [destruct (is_differential (t_kind u)); [leaf|walk]|]. intros _ _. walk. Qed.
Lemma HW_less : forall t, sound t -> ordinary (t_kind t) -> HW (prefix_less_less o dbg rec t) any.
Proof. intros t S Ot. unfold prefix_less_less. walk. Qed.
Lemma HW_span2 : HW (span_parse2 o dbg rec) any.
Proof.
  unfold span_parse2, span_binary, span_ternary. bnd; [apply HW_current_nl|]. intros [l t] [L S]. cbn [fst snd] in *. destruct (negb (isPossibleBeginning (t_kind t)) || negb (t_kind t =? TK_SemiSemi)) eqn:E; [walk|].
  apply orb_false_iff in E as [_ E]. assert (Ot : ordinary (t_kind t)) by (eapply not_kind; eauto). bnd; [apply HW_skip; auto; apply not_end; auto|]. intros _ _. bnd; [apply HW_current_nl|]. intros [l4 t4] [L4 S4]. cbn [fst snd] in *.
  assert (Fl : HW (push_syntax dbg t) any) by (apply HW_leaf, fine_ordinary, Ot). destruct (_ || _); walk. exact Fl.
Qed.
Lemma HW_span1 : HW (span_parse1 o dbg rec) any.
Proof.
  unfold span_parse1, span_binary, span_ternary. bnd; [apply HW_eat_nl|]. intros t S. destruct (negb (isPossibleBeginning (t_kind t))); [bnd; [leaf|]; walk|].
  destruct (negb (t_kind t =? TK_SemiSemi)) eqn:E; [bnd; [walk|]; intros _ _; apply HW_span2|]. assert (Ot : ordinary (t_kind t)) by (eapply not_kind; eauto). bnd; [leaf|]. intros _ _. bnd; [apply HW_skip; auto; apply not_end; auto|]. intros _ _.
  bnd; [apply HW_current_nl|]. intros [l4 t4] [L4 S4]. cbn [fst snd] in *. assert (Fl : HW (push_syntax dbg t) any) by (apply HW_leaf, fine_ordinary, Ot). destruct (_ || _); walk. exact Fl.
Qed.
Lemma HW_span : forall t, sound t -> ordinary (t_kind t) -> HW (infix_span o dbg rec t) any.
Proof. intros t S Ot. unfold infix_span. bnd; [walk|]. intros _ _. apply HW_span1. Qed.
Lemma HW_operand : HW (comma_operand o dbg rec) any.
Proof. unfold comma_operand. bnd; [apply HW_eat|]. intros u S. destruct (is_comma (t_kind u)); [leaf|walk]. Qed.
Lemma HW_semi_operand : HW (semi_operand o dbg rec) any.
Proof. unfold semi_operand, reduce_compound. bnd; [apply HW_eat_nl|]. intros u S. destruct (t_kind u =? TK_Semi); [bnd; [leaf|]; walk|]. destruct (isPossibleBeginning _); [walk|]. bnd; [leaf|]; walk. Qed.
Lemma HW_infix_loop : forall op, op <> IOP_CodeParser_InternalInvalid -> HW (infix_loop o dbg rec op) any.
Proof. intros op N. unfold infix_loop. bnd; [apply HW_current|]. intros [l t] [L S]. cbn [fst snd] in *. destruct (negb _) eqn:E; [walk|]. apply negb_false_iff in E. pose proof (ordinary_op _ _ N E). walk. Qed.
Lemma HW_times_loop : HW (times_loop o dbg rec) any.
Proof.
  unfold times_loop. bnd; [apply HW_current|]. intros [l t] [L S]. cbn [fst snd] in *. bnd; [apply HW_implicit, S|]. intros t1 S1. apply HW_bind with seen.
  - destruct (t_kind t1 =? TK_Fake_ImplicitTimes); [|apply HW_ret; split; auto]. bnd; [apply HW_trivia_reset, L|]. intros _ _. bnd; [apply HW_current_nl|]. intros [l2 t2] [L2 S2]. cbn [fst snd] in *. bnd; [apply HW_implicit, S2|]. intros t3 S3. apply HW_ret. split; auto.
  - intros [l2 t2] [L2 S2]. cbn [fst snd] in *. destruct (negb _) eqn:E; [walk|]. apply negb_false_iff in E. assert (Ot : ordinary (t_kind t2)) by (eapply ordinary_op; [|exact E]; discriminate). walk.
Qed.
Lemma HW_comma_loop : HW (comma_loop o dbg rec) any.
Proof.
  unfold comma_loop. bnd; [apply HW_current|]. intros [l t] [L S]. cbn [fst snd] in *. destruct (negb _) eqn:E; [walk|]. apply negb_false_iff in E.
  assert (Ot : ordinary (t_kind t)) by (unfold is_comma in E; apply orb_true_iff in E as [E|E]; eapply is_kind; eauto). bnd; [walk|]. intros _ _. bnd; [apply HW_operand|]. walk.
Qed.
Lemma HW_semi_loop : HW (semi_loop o dbg rec) any.
Proof.
  unfold semi_loop, reduce_compound. bnd; [apply HW_current|]. intros [l t] [L S]. cbn [fst snd] in *. destruct (negb _) eqn:E; [walk|]. assert (Ot : ordinary (t_kind t)) by (eapply not_kind; eauto). bnd; [walk|]. intros _ _. apply HW_semi_operand.
Qed.
Lemma HW_colons_loop : HW (colon_colon_loop o dbg rec) any.
Proof. unfold colon_colon_loop. bnd; [apply HW_current|]. intros [l t] [L S]. cbn [fst snd] in *. destruct (negb _) eqn:E; [walk|]. assert (Ot : ordinary (t_kind t)) by (eapply not_kind; eauto). walk. Qed.
Lemma HW_slash : forall t, sound t -> ordinary (t_kind t) -> HW (infix_slash_colon o dbg rec t) any.
Proof.
  intros t S Ot. unfold infix_slash_colon. bnd; [walk|]. intros _ _. bnd; [walk|]. intros u Su. bnd; [walk|]. intros _ _. bnd; [apply HW_current|]. intros [l v] [L Sv]. cbn [fst snd] in *.
  destruct (t_kind v =? TK_Equal) eqn:E1; [assert (Ov : ordinary (t_kind v)) by (eapply is_kind; eauto)|destruct (t_kind v =? TK_ColonEqual) eqn:E2; [assert (Ov : ordinary (t_kind v)) by (eapply is_kind; eauto); walk|walk]].
  bnd; [walk|]. intros _ _. bnd; [walk|]. intros _ _. bnd; [walk|]. intros _ _. bnd; [walk|]. intros w Sw. destruct (t_kind w =? TK_Dot) eqn:E3; [assert (Ow : ordinary (t_kind w)) by (eapply is_kind; eauto); walk|walk].
Qed.
Lemma HW_equal : forall t, sound t -> ordinary (t_kind t) -> HW (infix_equal o dbg rec t) any.
Proof. intros t S Ot. unfold infix_equal. bnd; [walk|]. intros _ _. bnd; [walk|]. intros u Su. destruct (t_kind u =? TK_Dot) eqn:E3; [assert (Ou : ordinary (t_kind u)) by (eapply is_kind; eauto); walk|walk]. Qed.
Lemma HW_tilde : forall t, sound t -> ordinary (t_kind t) -> HW (infix_tilde o dbg rec t) any.
Proof.
  intros t S Ot. unfold infix_tilde. bnd; [walk|]. intros _ _. bnd; [walk|]. intros _ _. bnd; [walk|]. intros u Su. bnd; [walk|]. intros _ _. bnd; [apply HW_current|]. intros [l v] [L Sv]. cbn [fst snd] in *.
  destruct (negb (t_kind v =? TK_Tilde)) eqn:E; [walk|]. assert (Ov : ordinary (t_kind v)) by (eapply not_kind; eauto). walk.
Qed.

Lemma slots_of : forall h args op, forallb (fun k => existsb (fun e => if fst (fst e) =? h then if snd (fst e) =? k then snd e =? op else false else false) joined) args = true ->
  forallb (fun e => if fst (fst e) =? h then if zin (snd (fst e)) args then snd e =? op else false else true) joined = true ->
  (forall k, zin k args = true <-> In (h, k, op) joined) /\ (forall op' k, In (h, k, op') joined -> op' = op).
Proof.
  intros h args op F1 F2. assert (K : forall k op', In (h, k, op') joined -> zin k args = true /\ op' = op).
  { intros k op' H. apply (proj1 (forallb_forall _ _) F2) in H. cbn [fst snd] in H. rewrite Z.eqb_refl in H. destruct (zin k args); [|discriminate H]. apply Z.eqb_eq in H. auto. }
  split; [intros k; split|intros op' k H; apply (K k op' H)].
  - intros H. apply zin_In in H. apply (proj1 (forallb_forall _ _) F1) in H. apply existsb_exists in H as (((h' & k') & op') & HIn & E). cbn [fst snd] in E.
    destruct (Z.eqb_spec h' h) as [->|]; [|discriminate E]. destruct (Z.eqb_spec k' k) as [->|]; [|discriminate E]. apply Z.eqb_eq in E. subst op'. exact HIn.
  - intros H. apply (K k op H).
Qed.
Lemma prefix_taker : forall k, match prefix_of k with
  | PP_Hash => k = TK_Hash | PP_HashHash => k = TK_HashHash | PP_Percent => k = TK_Percent | PP_Symbol => k = TK_Symbol
  | PP_Under bop _ => In (k, TK_Symbol, bop) joined /\ In k [TK_Under; TK_UnderUnder; TK_UnderUnderUnder]
  | _ => True end.
Proof.
  intros k. unfold prefix_of. destruct (assoc k PREFIX_PARSELETS) as [p|] eqn:A; [|exact I].
  set (bl := fun (k b : Z) => existsb (fun e => if fst (fst e) =? k then if snd (fst e) =? TK_Symbol then snd e =? b else false else false) joined).
  assert (F : forallb (fun e : Z * prefix_parselet => match snd e with
    | PP_Hash => fst e =? TK_Hash | PP_HashHash => fst e =? TK_HashHash | PP_Percent => fst e =? TK_Percent | PP_Symbol => fst e =? TK_Symbol
    | PP_Under bop _ => if bl (fst e) bop then zin (fst e) [TK_Under; TK_UnderUnder; TK_UnderUnderUnder] else false | _ => true end) PREFIX_PARSELETS = true) by (vm_compute; reflexivity).
  assert (HIn : In (k, p) PREFIX_PARSELETS).
  { revert A. generalize PREFIX_PARSELETS. clear. intros l. induction l as [|[a b] l IH]; cbn [assoc]; [discriminate|]. destruct (Z.eqb_spec k a) as [->|]; [intros A; injection A as ->; left; reflexivity|]. intros A. right. auto. }
  apply (proj1 (forallb_forall _ _) F) in HIn. cbn [fst snd] in HIn. destruct p; auto; try (apply Z.eqb_eq in HIn; exact HIn).
  destruct (bl k bop) eqn:B; [|discriminate HIn]. split; [|apply zin_In; exact HIn].
  unfold bl in B. apply existsb_exists in B as (((h' & k') & op') & HJ & E). cbn [fst snd] in E.
    destruct (Z.eqb_spec h' k) as [->|]; [|discriminate E]. destruct (Z.eqb_spec k' TK_Symbol) as [->|]; [|discriminate E]. apply Z.eqb_eq in E. subst op'. exact HJ.
Qed.
Lemma HW_prefix : forall t, sound t -> HW (parse_prefix o dbg rec t) any.
Proof.
  intros t S. unfold parse_prefix. pose proof (prefix_taker (t_kind t)) as K. destruct (prefix_of (t_kind t)) eqn:Ep.
  all: try (assert (Ot : ordinary (t_kind t)) by (apply ordinary_prefix; intros p Hp; rewrite Ep in Hp; subst p; exact I)).
  - (* a leaf *) bnd; [apply HW_leaf_next; auto|]. walk.
  - intros s Hs a s' E. refine (HW_leaf _ _ s Hs _ _ E). apply fakes. reflexivity.
  - bnd; [apply HW_assert|]. intros u0 Hc. apply HW_leaf_next; auto.
  - unfold prefix_closer. bnd; [apply HW_assert|]. intros u0 Hc s Hs a s' E. cbv beta in E. revert a s' E.
    match goal with |- forall a s', ?m s = Ok (a, s') -> _ => assert (W : HW m any) end; [|exact (W s Hs)]. bnd; [leaf|]. walk.
  - unfold prefix_unsupported. bnd; [leaf|]. intros u0 _. apply HW_skip; auto. apply not_end; auto.
  - intros s Hs a s' E. unfold prefix_comma in E. revert a s' E.
    match goal with |- forall a s', ?m s = Ok (a, s') -> _ => assert (W : HW m any) end; [|exact (W s Hs)]. bnd; [leaf|]. walk.
  - unfold prefix_unhandled. bnd; [apply HW_assert|]. intros u0 _. bnd; [leaf|]. intros u1 _. bnd; [apply HW_peek|]. intros u2 _. bnd; [apply HW_precedence|]. intros q _. apply HW_if; walk.
  - apply HW_operator; auto.
  - apply HW_group; auto.
  - apply HW_symbol; auto.
  - unfold prefix_span. bnd; [apply HW_debug|]. intros u0 _. bnd; [leaf|]. intros u1 _. bnd; [apply HW_push_context|]. intros u2 _. apply HW_span; auto.
  - apply HW_integral; auto.
  - apply HW_less; auto.
  - destruct (slots_of TK_Hash [TK_Integer; TK_String] COP_Slot) as [A1 A2]; [vm_compute; reflexivity|vm_compute; reflexivity|]. apply HW_slot; auto; try rewrite K; auto; [discriminate|]. intros k Hk. apply zin_In in Hk. eapply ordinary_in; [exact Hk|reflexivity].
  - destruct (slots_of TK_HashHash [TK_Integer] COP_SlotSequence) as [A1 A2]; [vm_compute; reflexivity|vm_compute; reflexivity|]. apply HW_slot; auto; try rewrite K; auto; [discriminate|]. intros k Hk. apply zin_In in Hk. eapply ordinary_in; [exact Hk|reflexivity].
  - destruct (slots_of TK_Percent [TK_Integer] COP_Out) as [A1 A2]; [vm_compute; reflexivity|vm_compute; reflexivity|]. apply HW_slot; auto; try rewrite K; auto; [discriminate|]. intros k Hk. apply zin_In in Hk. eapply ordinary_in; [exact Hk|reflexivity].
  - destruct K as [K1 K2]. unfold prefix_under. bnd; [apply HW_under; eauto|]. intros n [Hn _]. bnd; [apply HW_push, Hn|]. walk.
  - bnd; [apply HW_leaf_next; auto|]. walk.
Qed.
Lemma HW_infix : forall t, sound t -> HW (parse_infix o dbg rec t) any.
Proof.
  intros t S. unfold parse_infix. destruct (infix_of (t_kind t)) eqn:Ep; try apply HW_panic.
  all: assert (Ot : ordinary (t_kind t)) by (apply ordinary_infix; intros p Hp; rewrite Ep in Hp; subst p; exact I).
  - unfold infix_binary. walk.
  - unfold infix_infix. walk. eapply infix_op_valid; eauto.
  - unfold infix_times. walk.
  - unfold infix_postfix. walk.
  - unfold infix_call. bnd; [walk|]. intros u0 _. bnd; [apply HW_group; auto|]. walk.
  - unfold infix_comma. bnd; [walk|]. intros u0 _. bnd; [walk|]. intros u1 _. bnd; [apply HW_operand|]. walk.
  - unfold infix_semi. bnd; [walk|]. intros u0 _. apply HW_semi_operand.
  - apply HW_span; auto.
  - apply HW_tilde; auto.
  - unfold infix_colon. walk.
  - apply HW_slash; auto.
  - apply HW_equal; auto.
  - unfold infix_binary. walk.
  - unfold infix_colon_colon. walk.
  - unfold infix_file. walk.
  - unfold infix_file. walk.
Qed.
Lemma HW_climb : HW (climb o rec) any.
Proof. unfold climb. bnd; [apply HW_current_nl|]. intros [l t] [L S]. cbn [fst snd] in *. bnd; [apply HW_implicit, S|]. intros u Su. bnd; [apply HW_precedence|]. intros q _. apply HW_if; walk. Qed.
Lemma HW_answer : forall c, ready c -> HW (answer o dbg keep rec c) any.
Proof.
  intros c Hc. destruct c; cbn [answer ready] in *.
  - apply HW_prefix; auto.
  - apply HW_infix; auto.
  - apply HW_climb.
  - apply HW_group_loop; auto.
  - apply HW_infix_loop; auto.
  - apply HW_times_loop.
  - apply HW_comma_loop.
  - apply HW_semi_loop.
  - apply HW_colons_loop.
Qed.
End Slots.

Lemma run_slots : forall o dbg, 0 < o_tab_width o -> forall fuel c, ready o c -> HW o (run o dbg keep fuel c) any.
Proof. intros o dbg Ht. induction fuel as [|k IH]; intros c Hc; [intros s Hs a s' E; discriminate E|]. cbn [run]. apply HW_answer; auto. Qed.
Lemma loop_slots : forall o dbg, 0 < o_tab_width o -> forall k, HW o (parse_loop o dbg keep k) (Forall fine).
Proof.
  intros o dbg Ht. induction k as [|k IH]; [intros s Hs a s' E; discriminate E|]. cbn [parse_loop]. eapply HW_bind; [apply HW_peek; auto|]. intros t S.
  destruct (Z.eqb_spec (t_kind t) TK_EndOfFile) as [_|N]; [apply HW_ret; constructor|]. destruct (isTrivia (t_kind t)) eqn:Et.
  - apply ordinary_trivia in Et. eapply HW_bind; [apply HW_skip; auto|]. intros u0 _. eapply HW_bind; [apply IH|]. intros l Hl. apply HW_ret. constructor; auto. apply fine_ordinary. exact Et.
  - apply HW_bind with any.
    + destruct (isCloser (t_kind t)); [apply HW_top_closer; auto|]. intros s Hs a s' E. exact (run_slots o dbg Ht _ (CPrefix t) S s Hs _ _ E).
    + intros u0 _. eapply HW_bind; [apply HW_pop_node|]. intros n Hn. apply HW_bind with any.
      * intros s Hs a s' E. unfold assert_quiescent in E. destruct (ctxs s); [|discriminate E]. destruct (groups s); [|discriminate E]. injection E as _ <-. split; [exact Hs|exact I].
      * intros u1 _. eapply HW_bind; [apply IH|]. intros l Hl. apply HW_ret. constructor; auto.
Qed.
Lemma parse_slots : forall o dbg b input l s', 0 < o_tab_width o -> parse_cst_raw o dbg keep b input = Ok (l, s') -> Forall fine l.
Proof.
  intros o dbg b input l s' Ht E. unfold parse_cst_raw, do_parse, pbind, tk, session_new in E. cbn [tz stack ctxs groups] in E.
  pose proof (handle_first_line_ok o b _ _ (reader_new_Inv o input Ht) (R_refl _ _)) as H. unfold wpr in H.
  destruct (handle_first_line o b (reader_new o input)) as [[[] s0]| |] eqn:EF; [|discriminate E|discriminate E]. destruct H as (I0 & R0 & _).
  assert (G0 : OK o (mkp s0 [] [] [])).
  { split; [apply I0|]. split; [eapply first_line_weof; [|exact EF]; reflexivity|constructor]. }
  unfold pwith_fuel in E. cbn [tz] in E.
  match type of E with match ?x with _ => _ end = _ => destruct x as [[a t1]| |] eqn:P1; [|discriminate E|discriminate E] end.
  destruct (dbg && _); [discriminate E|]. injection E as <- <-. exact (proj2 (loop_slots o dbg Ht _ _ G0 _ _ P1)).
Qed.

(** ** The text behind a token *)
Lemma row_text : forall o p l p', row o p l p' -> fst p = flat_map t_text l ++ fst p'.
Proof.
  intros o p l p' H. induction H as [p|p t l p' Ht H IH]; [reflexivity|]. cbn [flat_map]. rewrite <- app_assoc, <- IH. destruct Ht as [Ht|(q & u & Hq & Hr & Nu & Hu)].
  - rewrite (past_inserted _ _ Ht). destruct Ht as (_ & _ & -> & _). reflexivity.
  - rewrite (past_relabelled _ _ Hu Nu). destruct (reads_asked o q p u Hq Hr) as (_ & A & _). rewrite A at 1. f_equal. destruct Hu as [->|[[_ ->]|[_ ->]]]; reflexivity.
Qed.
Lemma row_split : forall o l1 t l2 p p', row o p (l1 ++ t :: l2) p' -> row o (past t) l2 p'.
Proof. intros o l1 t l2. induction l1 as [|u l1 IH]; intros p p' H; cbn [app] in H; inversion H; subst; eauto. Qed.
Lemma past_rest : forall o l1 t l2 p p', row o p (l1 ++ t :: l2) p' -> forall x, fst p = flat_map t_text l1 ++ t_text t ++ x -> x = fst (past t).
Proof.
  intros o l1 t l2 p p' H x E. pose proof (row_text _ _ _ _ H) as T. rewrite flat_map_app in T. cbn [flat_map] in T. rewrite (row_text _ _ _ _ (row_split _ _ _ _ _ _ H)).
  rewrite E, <- !app_assoc in T. apply app_inv_head in T. apply app_inv_head in T. exact T.
Qed.
Lemma concat_toks : forall l tss, Forall2 tokens_of l tss -> concat tss = leaves l.
Proof.
  intros l tss F. induction F as [|n ts l tss H F IH]; [reflexivity|]. cbn [concat]. rewrite IH. apply tokens_of_det in H. subst ts. reflexivity.
Qed.
Lemma inside_nodes : forall l n, In n (flat_map nodes l) -> inside l n.
Proof. intros l n H. apply in_flat_map in H as (m & Hm & Hn). exists m, (nodes m). split; auto. split; auto. apply preorder_nodes. Qed.
Lemma slots_attached : forall o dbg b input l s', 0 < o_tab_width o -> parse_cst_raw o dbg keep b input = Ok (l, s') ->
  exists first, (b = NotScript -> first = []) /\ forall ts1 t ts2 w k e op, all_tokens l (ts1 ++ t :: ts2) -> input = first ++ flat_map t_text ts1 ++ t_text t ++ w ++ e ->
  continues (t_kind t) w k e -> In (t_kind t, k, op) joined -> (exists u, t_kind u = k /\ t_text u = w /\ attached l op t u) \/ (t_kind t = TK_Symbol /\ heads l t).
Proof.
  intros o dbg b input l s' Ht E. pose proof (parse_slots _ _ _ _ _ _ Ht E) as F. pose proof (parse_facts _ _ _ _ _ _ _ Ht keep_ok E) as (s0 & ts & z' & F1 & T & F3 & F4 & F5 & F6 & F7 & F8 & F9 & F10 & F11 & F12 & F13).
  destruct F12 as (g & Hm & F12). apply mended_keep in Hm. subst g. destruct T as (gs & _ & T2 & _). exists (concat (map t_text ts)). split; [intros B; rewrite (F3 B); reflexivity|].
  intros ts1 t ts2 w k e op (tss & Ha & Hc) Hi C J. rewrite (concat_toks _ _ Ha) in Hc. symmetry in Hc. change (rest (cur (reader_new o input))) with input in T2. rewrite Hi in T2. apply app_inv_head in T2.
  rewrite Hc in F12. pose proof (past_rest _ _ _ _ _ _ F12 (w ++ e) (eq_sym T2)) as P.
  assert (HIn : In t (leaves l)) by (rewrite Hc; apply in_or_app; right; left; reflexivity). unfold leaves in HIn. apply in_flat_map in HIn as (n & Hn & Hx). rewrite Forall_forall in F. specialize (F n Hn). unfold fine in F. rewrite Forall_forall in F.
  assert (K : forall m, In m (nodes n) -> inside l m) by (intros m Hm; exists n, (nodes n); split; auto; split; auto; apply preorder_nodes).
  destruct (F t Hx op w k e C J (eq_sym P)) as [(u & U1 & U2 & r & Y & Z)|(Sy & q & v & Y & Z)]; [left|right].
  - exists u. split; auto. split; auto. exists r. auto.
  - split; auto. exists q, v. auto.
Qed.
