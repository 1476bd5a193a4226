(** The parser finishes, keeps its stacks in order and builds well-shaped trees. *)
From Coq Require Import ZArith List Bool Lia.
From Verif Require Import Base Source WLChar LongNames ByteDecoder CharDecoder Decode SpecText Iter
  TextProofs Logic WlDecode SpecReader ReaderProofs GenTokenKind TokenKind Format Tokenizer TokLogic
  TokenizerProofs SpecTokenizer TokenLoop TokSim TokAgree GenPrec GenOps GenParselets Parselets Cst SpecCst CstProofs Parser SpecParser ParserLogic ParserRules.
Import ListNotations.
Local Open Scope Z_scope.

(** ** Small facts *)
Definition cprec (C : list ctx) : Z := match C with [] => 0 | c :: _ => c_prec c end.
Definition closedl (l : list cst) : Prop := Forall (fun n => open_ended n = false) l.
Definition lopen (l : list cst) : bool := existsb open_ended l.

Lemma settled_snoc : forall l n, closedl l -> settled (l ++ [n]).
Proof. intros l n H. unfold settled. rewrite removelast_last. exact H. Qed.
Lemma settled_nil : settled []. Proof. constructor. Qed.
Lemma lopen_closed : forall l, lopen l = false -> closedl l.
Proof. intros l H. apply Forall_forall. intros n Hn. unfold lopen in H. destruct (open_ended n) eqn:E; auto.
  assert (existsb open_ended l = true) by (apply existsb_exists; eauto). congruence. Qed.
Lemma closed_lopen : forall l, closedl l -> lopen l = false.
Proof. intros l H. unfold lopen. induction H as [|n l Hn H IH]; auto. cbn. rewrite Hn. exact IH. Qed.
Lemma closed_settled : forall l, closedl l -> settled l.
Proof.
  intros l H. unfold settled. apply Forall_forall. intros n Hn. unfold closedl in H. rewrite Forall_forall in H. apply H. clear H.
  induction l as [|a l IH]; cbn in *; auto. destruct l; [contradiction|]. destruct Hn; auto.
Qed.
Lemma lopen_app : forall a b, lopen (a ++ b) = lopen a || lopen b.
Proof. intros. apply existsb_app. Qed.

Definition lasto (l : list cst) (b : bool) : bool := fold_left (fun (b : bool) m => if trivia_leaf m then b else open_ended m) l b.
Lemma lasto_lopen : forall l b, lasto l b = true -> b = true \/ lopen (parts l) = true.
Proof.
  induction l as [|n l IH]; intros b H; [left; exact H|]. cbn [lasto fold_left] in H. fold (lasto l (if trivia_leaf n then b else open_ended n)) in H.
  destruct (IH _ H) as [E|E]; clear H.
  - destruct (trivia_leaf n) eqn:T; auto. right. rewrite (parts_one _ _ T). cbn [lopen existsb]. rewrite E. reflexivity.
  - right. unfold parts. cbn [filter]. destruct (negb (trivia_leaf n)); [cbn [lopen existsb]; apply orb_true_iff; right|]; exact E.
Qed.
Definition plain_op (k : opkind) : bool := match k with KGroup | KGroupMissingCloser => false | _ => true end.
Definition lastd (l : list cst) (b : list Z) : list Z := fold_left (fun (b : list Z) m => if trivia_leaf m then b else dangling m) l b.
Lemma lastd_parts : forall l b, lastd l b = last (map dangling (parts l)) b.
Proof.
  induction l as [|n l IH]; intros b; auto. cbn [lastd fold_left]. fold (lastd l (if trivia_leaf n then b else dangling n)). rewrite IH.
  cbn [parts filter]. fold (parts l). destruct (trivia_leaf n); cbn [negb]; auto. cbn [map last]. destruct (map dangling (parts l)) eqn:E; auto.
  rewrite <- E. assert (H : map dangling (parts l) <> []) by (rewrite E; discriminate). clear - H. revert H. generalize (map dangling (parts l)). intros k H.
  destruct k as [|x k]; [contradiction|]. clear H. revert x. induction k as [|y k IH]; intros x; auto. cbn in *. apply IH.
Qed.
Lemma dangling_op : forall k op ch, plain_op k = true -> dangling (Op k op ch) = last_dangling (parts ch).
Proof. intros k op ch H. transitivity (lastd ch []); [destruct k; try discriminate H; destruct ch as [|[]]; reflexivity|apply lastd_parts]. Qed.
Lemma dangling_err : forall e ch, dangling (SynErr e ch) = last_dangling (parts ch).
Proof. intros e ch. exact (lastd_parts ch []). Qed.
Lemma last_dangling_snoc : forall l n, last_dangling (l ++ [n]) = dangling n.
Proof. intros l n. unfold last_dangling. rewrite map_app. apply last_last. Qed.

Lemma open_dangling : forall n, open_ended n = false -> dangling n = [].
Proof.
  apply (cst_ind' (fun n => open_ended n = false -> dangling n = [])). intros n IH H.
  assert (K : forall l, Forall (fun n => open_ended n = false -> dangling n = []) l -> forall x y, (x = false -> y = []) -> lasto l x = false -> lastd l y = []).
  { induction l as [|m l IHl]; intros F x y Hxy Hl; [exact (Hxy Hl)|]. inversion F; subst. cbn [lasto lastd fold_left] in *. apply (IHl H3 (if trivia_leaf m then x else open_ended m)); auto.
    destruct (trivia_leaf m); auto. }
  destruct n as [t|h m op b|e ch|k op ch|b ch s|f s c]; auto.
  - cbn [open_ended] in H. subst m. reflexivity.
  - apply (K ch IH false); auto.
  - destruct k; try discriminate H; auto; apply (K ch IH false); auto.
Qed.
Lemma closed_dangling : forall l, closedl l -> last_dangling l = [].
Proof. intros l H. unfold last_dangling. induction H as [|n l Hn H IH]; auto. cbn [map last]. destruct (map dangling l) eqn:E; auto. apply open_dangling; auto. Qed.
Lemma dangling_missing : forall op t mid, dangling (Op KGroupMissingCloser op (Tok t :: mid)) = closer_of t ++ last_dangling (parts mid).
Proof. intros op t mid. change (closer_of t ++ lastd mid [] = closer_of t ++ last_dangling (parts mid)). rewrite lastd_parts. reflexivity. Qed.

Lemma open_op : forall k op ch, plain_op k = true -> open_ended (Op k op ch) = true -> lopen (parts ch) = true.
Proof.
  intros k op ch Hk H. assert (lasto ch false = true) by (destruct k; cbn in Hk; try discriminate; exact H).
  destruct (lasto_lopen _ _ H0); [discriminate|auto].
Qed.
Lemma open_err : forall e ch, open_ended (SynErr e ch) = true -> lopen (parts ch) = true.
Proof. intros e ch H. assert (lasto ch false = true) by exact H. destruct (lasto_lopen _ _ H0); [discriminate|auto]. Qed.

Lemma root_iprec : forall n k op e ch a t r p, n = Op k op ch \/ n = SynErr e ch -> parts ch = a :: Tok t :: r -> root_precedence n = Some p ->
  infix_of (t_kind t) <> IP_Colon /\ iprec (infix_of (t_kind t)) = Some p.
Proof.
  intros n k op e ch a t r p Hn Hp H. destruct Hn as [-> | ->].
  - cbn [root_precedence] in H. rewrite Hp in H. destruct k; try discriminate H; destruct (infix_of (t_kind t)); try discriminate H; (split; [discriminate|]); auto;
      destruct a as [f| | | | |]; auto; destruct (t_kind f =? TK_Fake_ImplicitOne); auto; discriminate H.
  - cbn [root_precedence] in H. rewrite Hp in H. destruct (infix_of (t_kind t)); try discriminate H; (split; [discriminate|]); auto;
      destruct a as [f| | | | |]; auto; destruct (t_kind f =? TK_Fake_ImplicitOne); auto; discriminate H.
Qed.

(** the precedence [q] at which the operator token [t] was accepted *)
Definition accepted (t : token) (q : Z) : Prop := infix_of (t_kind t) = IP_Colon \/ iprec (infix_of (t_kind t)) = Some q.
Lemma accepted_binds : forall n k op e ch a t r p q, n = Op k op ch \/ n = SynErr e ch -> parts ch = a :: Tok t :: r -> accepted t q ->
  prec_greater p q = false -> binds p n.
Proof.
  intros n k op e ch a t r p q Hn Hp Ha Hq p' Hr. destruct (root_iprec n k op e ch a t r p' Hn Hp Hr) as [N I]. destruct Ha as [A|A]; [contradiction|].
  rewrite I in A. injection A as ->. apply not_greater. exact Hq.
Qed.

Lemma binds_tok : forall p t, binds p (Tok t). Proof. intros p t q H. discriminate. Qed.

Lemma parts_trivl : forall l, Forall (fun t => isTrivia (t_kind t) = true) l -> parts (map Tok l) = [].
Proof. exact parts_trivia. Qed.

Lemma leaf_not_trivia : forall k, leaf_kind k = true -> isTrivia k = false.
Proof.
  intros k H. unfold leaf_kind in H.
  assert (F : zin k [TK_Fake_ImplicitOne; TK_Fake_ImplicitAll; TK_Fake_ImplicitNull; TK_Error_InfixImplicitNull; TK_Error_PrefixImplicitNull] = true -> isTrivia k = false).
  { clear H. intros H. apply zin_In in H. cbn [In] in H. destruct H as [<-|[<-|[<-|[<-|[<-|[]]]]]]; reflexivity. }
  destruct (prefix_of k); auto; apply negb_true_iff; auto.
Qed.
Lemma operand_solid : forall n, operand n = true -> trivia_leaf n = false.
Proof. intros [t| | | | |] H; auto. apply leaf_not_trivia. exact H. Qed.

Lemma find_hd : forall A (f : A -> bool) l, find f l = hd_error (filter f l).
Proof. induction l as [|a l IH]; auto. cbn. destruct (f a); auto. Qed.
Lemma filter_rev' : forall A (f : A -> bool) l, filter f (rev l) = rev (filter f l).
Proof. induction l as [|a l IH]; auto. cbn. rewrite filter_app, IH. cbn. destruct (f a); cbn; auto. apply app_nil_r. Qed.
Lemma top_node_parts : forall z st ch cs gs ps n, parts ch = ps ++ [n] -> top_node (mkp z (st ++ ch) cs gs) = Some n.
Proof.
  intros z st ch cs gs ps n H. unfold top_node. cbn [stack]. rewrite find_hd, filter_rev'.
  change (filter (fun n0 => negb (is_trivia_node n0)) (st ++ ch)) with (parts (st ++ ch)). rewrite parts_app, H, app_assoc, rev_app_distr. reflexivity.
Qed.

Lemma inserted_kinds : forall k, len_zero k = true -> zin k INSERTED = true.
Proof. intros k H. apply zin_In in H. apply zin_In. cbn [In] in *. unfold INSERTED. cbn [In]. tauto. Qed.

(** a place that can be reached from [base] *)
Definition within (o : opts) (base : st) (p : place) : Prop := exists cs, moves o (rest (cur base)) (ploc (cur base)) cs (fst p) (snd p).
(** these nodes are the repaired forms of nodes whose leaves lie in a row within the input *)
Definition placed (o : opts) (repair : Z -> list cst -> res (list cst)) (base : st) (ch : list cst) : Prop :=
  exists p p' g, within o base p /\ Forall2 (mended repair) g ch /\ row o p (leaves g) p'.

Lemma within_reads : forall o base q p t, plain_request q -> within o base p -> reads o q p t -> t_kind t <> TK_EndOfFile -> within o base (past t).
Proof.
  intros o base q p t Hq [cs M] (z & z' & I & <- & A) N. pose proof (ask_ok o q z I Hq) as H. unfold wpr in H. rewrite A in H.
  destruct H as (_ & _ & (_ & _ & [(ds & M2 & _) _] & _)). exists (cs ++ ds). eapply moves_trans; eauto.
Qed.
Lemma within_row : forall o base p l p', row o p l p' -> within o base p -> within o base p'.
Proof.
  intros o base p l p' H. induction H as [p|p t l p' [HI|(q & u & Hq & Hr & N & Hl)] H IH]; auto.
  - intros W. apply IH. rewrite (past_inserted _ _ HI). exact W.
  - intros W. apply IH. rewrite (past_relabelled _ _ Hl N). eapply within_reads; eauto.
Qed.
Lemma row_split : forall o a p b p', row o p (a ++ b) p' -> exists m, row o p a m /\ row o m b p'.
Proof.
  intros o. induction a as [|t a IH]; cbn [app]; intros p b p' H; [exists p; split; auto; constructor|].
  inversion H as [|p0 t0 l p0' Ht Hl]; subst. destruct (IH _ _ _ Hl) as (m & A & B). exists m. split; auto. constructor; auto.
Qed.
Lemma Forall2_map_tok : forall (R : cst -> cst -> Prop) l, (forall t, R (Tok t) (Tok t)) -> Forall2 R (map Tok l) (map Tok l).
Proof. intros R l H. induction l; cbn; constructor; auto. Qed.
Lemma leaves_op : forall S kd op ch, leaves (S ++ [Op kd op ch]) = leaves (S ++ ch).
Proof. intros. rewrite !leaves_app. f_equal. unfold leaves. cbn [flat_map toks]. apply app_nil_r. Qed.
Lemma leaves_err : forall S e ch, leaves (S ++ [SynErr e ch]) = leaves (S ++ ch).
Proof. intros. rewrite !leaves_app. f_equal. unfold leaves. cbn [flat_map toks]. apply app_nil_r. Qed.

(** ** What ends the last operand of a node *)
(** the precedence with which a token of this kind would take what stands to its left *)
Definition tprec (kd : Z) : Z :=
  match joining_precedence kd with
  | Some p => p
  | None => match infix_of kd with IP_InfixImplicitTimes | IP_InfixDifferentialD => PREC_STAR | _ => 0 end
  end.
Definition shut (q kd : Z) : Prop :=
  prec_greater q (tprec kd) = true \/ (q = PREC_CLASS_INTEGRATIONOPERATORS /\ infix_of kd = IP_InfixDifferentialD).

Lemma greater_ends : forall q p, prec_greater q p = true -> ends_operand q p.
Proof.
  intros q p H. unfold prec_greater in H. rewrite lor_one in H. apply Z.ltb_lt in H. unfold ends_operand. destruct (Z.odd q) eqn:E; [left; lia|].
  destruct (Z.eq_dec p q) as [->|N]; [right; auto|left; lia].
Qed.
Lemma greater_less : forall q p p', prec_greater q p = true -> p' <= p -> prec_greater q p' = true.
Proof. intros q p p' H L. unfold prec_greater in *. apply Z.ltb_lt in H. apply Z.ltb_lt. lia. Qed.
Lemma tprec_none : forall kd, infix_of kd = IP_InfixAssertFalse \/ infix_of kd = IP_InfixToplevelNewline -> tprec kd = 0.
Proof. intros kd H. unfold tprec, joining_precedence. destruct H as [-> | ->]; reflexivity. Qed.

Definition left_tok (n : cst) (t : token) : Prop := forall p q, joining_precedence (t_kind t) = Some p -> open_at_end n q ->
  ends_operand q p \/ implicit_exception n (t_kind t) q.
Lemma tok_end : forall t q, open_at_end (Tok t) q -> False.
Proof. intros t q H. inversion H as [n q' b L|n q' b q2 L]; subst; inversion L. Qed.
Lemma left_tok_leaf : forall t u, left_tok (Tok t) u.
Proof. intros t u p q _ H. destruct (tok_end _ _ H). Qed.
(** every operand that is followed by an operator, with no end of a line at top level between *)
Definition calm (l : list token) : Prop := Forall (fun u => isTriviaButNotToplevelNewline (t_kind u) = true) l.
Definition pairs (ch : list cst) : Prop := forall pre a mid t post, ch = pre ++ a :: map Tok mid ++ Tok t :: post -> calm mid -> isTrivia (t_kind t) = false -> left_tok a t.
Definition later_kind (kd : opkind) : bool := match kd with KTernary | KInfix => true | _ => false end.
Lemma left_node : forall kd op ch n t r, parts ch = n :: Tok t :: r -> left_tok n t -> (later_kind kd = true -> pairs ch) -> left_ok (Op kd op ch).
Proof.
  intros kd op ch n t r P H HP a kd' p q L J O. inversion L as [kd0 op0 ch0 a0 t0 r0 K P0|kd0 op0 pre a0 mid t0 post K T M| |]; subst.
  - rewrite P in P0. injection P0 as <- <- <-. auto.
  - refine (HP _ pre a mid t0 post eq_refl M T p q J O). cbn [In] in K. destruct K as [<-|[<-|[]]]; reflexivity.
Qed.
Lemma left_err : forall e ch n t r, parts ch = n :: Tok t :: r -> left_tok n t -> left_ok (SynErr e ch).
Proof. intros e ch n t r P H a kd' p q L J O. inversion L as [| |e0 ch0 a0 t0 r0 P0|]; subst. rewrite P in P0. injection P0 as <- <- <-. auto. Qed.
Lemma left_called : forall l n m op ch t opener gop, parts l = [n] -> infix_of (t_kind t) = IP_Call opener gop -> left_tok n t -> left_ok (Call (Concrete l) m op ch).
Proof.
  intros l n m op ch t opener gop P I H a kd' p q L J O. inversion L as [| | |l0 h m0 op0 ch0 P0]; subst. rewrite P in P0. injection P0 as <-.
  vm_compute in J. injection J as <-. left. assert (J' : joining_precedence (t_kind t) = Some PREC_CALL) by (unfold joining_precedence; rewrite I; reflexivity).
  destruct (H _ _ J' O) as [X|[X _]]; auto. rewrite X in I. vm_compute in I. discriminate I.
Qed.
Definition joins_left (k : opkind) : bool := match k with KBinary | KTernary | KInfix | KPostfix => true | _ => false end.
Lemma left_other : forall kd op ch, joins_left kd = false -> left_ok (Op kd op ch).
Proof. intros kd op ch H a k p q L. inversion L as [kd0 op0 ch0 a0 t0 r0 K P0|kd0 op0 pre a0 mid t0 post K T M| |]; subst; exfalso; cbn [In] in K; [destruct K as [<-|[<-|[<-|[<-|[]]]]]|destruct K as [<-|[<-|[]]]]; discriminate H. Qed.
Lemma left_leaf : forall t, left_ok (Tok t).
Proof. intros t a k p q L. inversion L. Qed.

Lemma calm_parts : forall l, calm l -> parts (map Tok l) = [].
Proof. intros l H. apply parts_trivia. eapply Forall_impl; [|exact H]. intros u Hu. apply triv_newline. exact Hu. Qed.
Lemma trivia_left : forall a t, trivia_leaf a = true -> left_tok a t.
Proof. intros [u| | | | |] t H; try discriminate H. apply left_tok_leaf. Qed.
(** the last operand so far lets the operator follow *)
Definition next_ok (ps : list cst) (t : token) : Prop := left_tok (last ps (Tok t)) t.
Lemma next_none : forall t, next_ok [] t.
Proof. intros t. apply left_tok_leaf. Qed.
Lemma next_tok : forall ps u t, next_ok (ps ++ [Tok u]) t.
Proof. intros ps u t. unfold next_ok. rewrite last_last. apply left_tok_leaf. Qed.
Lemma next_one : forall b t, left_tok b t -> next_ok [b] t.
Proof. intros b t H. exact H. Qed.
Lemma next_snoc : forall ps b t, left_tok b t -> next_ok (ps ++ [b]) t.
Proof. intros ps b t H. unfold next_ok. rewrite last_last. exact H. Qed.
Lemma assoc_in : forall A k (l : list (Z * A)) v, assoc k l = Some v -> In (k, v) l.
Proof.
  intros A k l v. induction l as [|[x y] l IH]; cbn; [discriminate|]. destruct (Z.eqb k x) eqn:E; intros H; [apply Z.eqb_eq in E; left; congruence|right; auto].
Qed.
Lemma joins_none : forall k, leaf_kind k = true -> joining_precedence k = None.
Proof.
  assert (T : forallb (fun '(k, _) => if leaf_kind k then match joining_precedence k with None => true | _ => false end else true) INFIX_PARSELETS = true) by (vm_compute; reflexivity).
  intros k H. destruct (joining_precedence k) eqn:J; [|reflexivity]. exfalso. assert (I : exists p, assoc k INFIX_PARSELETS = Some p).
  { unfold joining_precedence, infix_of in J. destruct (assoc k INFIX_PARSELETS) as [p|]; [eauto|discriminate J]. }
  destruct I as [p I]. apply assoc_in in I. rewrite forallb_forall in T. specialize (T _ I). cbn beta iota in T. rewrite H, J in T. discriminate T.
Qed.
Lemma closer_quiet : forall k, isCloser (TokenToCloser k) = true -> joining_precedence k = None.
Proof.
  assert (T : forallb (fun '(k, _) => if isCloser (TokenToCloser k) then match joining_precedence k with None => true | _ => false end else true) INFIX_PARSELETS = true) by (vm_compute; reflexivity).
  intros k H. destruct (joining_precedence k) eqn:J; [|reflexivity]. exfalso. assert (I : exists p, assoc k INFIX_PARSELETS = Some p).
  { unfold joining_precedence, infix_of in J. destruct (assoc k INFIX_PARSELETS) as [p|]; [eauto|discriminate J]. }
  destruct I as [p I]. apply assoc_in in I. rewrite forallb_forall in T. specialize (T _ I). cbn beta iota in T. rewrite H, J in T. discriminate T.
Qed.
Lemma next_quiet : forall ps t, joining_precedence (t_kind t) = None -> next_ok ps t.
Proof. intros ps t H p q J. rewrite H in J. discriminate J. Qed.
Lemma pairs_nil : pairs [].
Proof. intros pre a mid t post E. destruct pre; discriminate E. Qed.
Lemma pairs_snoc : forall ch n, pairs ch -> (forall t pre a mid, n = Tok t -> isTrivia (t_kind t) = false -> ch = pre ++ a :: map Tok mid -> calm mid -> left_tok a t) -> pairs (ch ++ [n]).
Proof.
  intros ch n H Hn pre a mid t post E M T. destruct post as [|x post] using rev_ind.
  - change (pre ++ a :: map Tok mid ++ [Tok t]) with (pre ++ (a :: map Tok mid) ++ [Tok t]) in E. rewrite app_assoc in E. apply app_inj_tail in E as [E ->]. eapply Hn; eauto.
  - clear IHpost. replace (pre ++ a :: map Tok mid ++ Tok t :: post ++ [x]) with ((pre ++ a :: map Tok mid ++ Tok t :: post) ++ [x]) in E by (rewrite <- !app_assoc; cbn [app]; rewrite <- !app_assoc; reflexivity).
    apply app_inj_tail in E as [E _]. eapply H; eauto.
Qed.
Lemma pairs_operand : forall ch n, operand n = true -> pairs ch -> pairs (ch ++ [n]).
Proof. intros ch n Hn H. apply pairs_snoc; auto. intros t pre a mid -> _ _ _ p q J. cbn [operand] in Hn. rewrite (joins_none _ Hn) in J. discriminate J. Qed.
Lemma pairs_trivia : forall l ch, Forall (fun u => isTrivia (t_kind u) = true) l -> pairs ch -> pairs (ch ++ map Tok l).
Proof.
  induction l as [|u l IHl]; intros ch Hl H; [rewrite app_nil_r; exact H|]. apply Forall_cons_iff in Hl as [Hu Hl]. cbn [map]. change (Tok u :: map Tok l) with ([Tok u] ++ map Tok l). rewrite app_assoc. apply IHl; auto.
  apply pairs_snoc; auto. intros t pre a mid [= <-] X. congruence.
Qed.
Lemma pairs_commit : forall ch l t, pairs ch -> Forall (fun u => isTrivia (t_kind u) = true) l -> (calm l -> next_ok (parts ch) t) -> pairs ((ch ++ map Tok l) ++ [Tok t]).
Proof.
  intros ch l t H Hl Hn. apply pairs_snoc; [apply pairs_trivia; auto|]. intros t' pre a mid [= <-] _ E M. destruct (trivia_leaf a) eqn:Ta; [apply trivia_left; exact Ta|].
  assert (X : exists m1, ch = pre ++ a :: map Tok m1 /\ mid = m1 ++ l).
  { assert (Y : exists y, ch = pre ++ a :: y).
    { clear - E Ta Hl. revert pre E. induction ch as [|c ch IHc]; intros pre E.
      - exfalso. cbn [app] in E. assert (In a (map Tok l)) by (rewrite E; apply in_or_app; right; left; reflexivity). apply in_map_iff in H as (u & <- & Hu). rewrite Forall_forall in Hl. cbn [trivia_leaf] in Ta. rewrite (Hl u Hu) in Ta. discriminate Ta.
      - destruct pre as [|x pre]; cbn [app] in E; injection E as -> E; [exists ch; reflexivity|]. destruct (IHc _ E) as [y ->]. exists y. reflexivity. }
    destruct Y as [y ->]. rewrite <- app_assoc in E. apply app_inv_head in E. cbn [app] in E. injection E as E. symmetry in E. apply map_eq_app in E as (m1 & m2 & -> & <- & E2).
    assert (m2 = l). { clear - E2. revert l E2. induction m2 as [|x m2 IH]; intros [|y l] E; cbn in E; try discriminate E; auto. injection E as -> E. f_equal. auto. } subst. exists m1. auto. }
  destruct X as (m1 & -> & ->). unfold calm in M. apply Forall_app in M as [M1 M2]. specialize (Hn M2). unfold next_ok in Hn. rewrite parts_app in Hn. change (a :: map Tok m1) with ([a] ++ map Tok m1) in Hn.
  rewrite parts_app, (calm_parts _ M1), app_nil_r in Hn. unfold parts at 2 in Hn. cbn [filter] in Hn. rewrite Ta in Hn. cbn [negb] in Hn. rewrite last_last in Hn. exact Hn.
Qed.
Lemma pairs_next : forall ch t, pairs ch -> next_ok (parts ch) t -> pairs (ch ++ [Tok t]).
Proof. intros ch t H Hn. rewrite <- (app_nil_r ch). change ((ch ++ []) ++ [Tok t]) with ((ch ++ map Tok []) ++ [Tok t]). apply pairs_commit; auto. Qed.

Lemma pairs_quiet : forall ch t, pairs ch -> joining_precedence (t_kind t) = None -> pairs (ch ++ [Tok t]).
Proof. intros ch t H J. apply pairs_snoc; auto. intros t' pre a mid [= <-] _ _ _ p q J'. rewrite J in J'. discriminate J'. Qed.
#[local] Hint Resolve next_none next_one next_tok next_snoc left_tok_leaf pairs_nil : core.

(** *** The last operand is the one that was read last *)
Definition lasts (n : cst) (q : Z) (b : cst) : Prop := forall q' b', last_operand n q' b' -> q' = q /\ b' = b.
Lemma lasts_prefix : forall op ch t b q, parts ch = [Tok t; b] -> (op <> PREOP_Get -> prefix_entry (prefix_of (t_kind t)) op q) -> lasts (Op KPrefix op ch) q b.
Proof.
  intros op ch t b q P H q' b' L. inversion L as [op0 ch0 t0 b0 q0 P0 H0 N| | | | |]; subst. rewrite P in P0. injection P0 as <- <-. split; auto. specialize (H N).
  destruct (prefix_of (t_kind t)); cbn in H, H0; try contradiction; destruct H, H0; congruence.
Qed.
Lemma lasts_prefix_binary : forall op ch t a b, parts ch = [Tok t; a; b] -> lasts (Op KPrefixBinary op ch) PREC_CLASS_INTEGRATIONOPERATORS b.
Proof. intros op ch t a b P q' b' L. inversion L as [|op0 ch0 t0 a0 b0 P0| | | |]; subst. rewrite P in P0. injection P0 as <- <- <-. auto. Qed.
Lemma lasts_binary : forall op ch a t b q, parts ch = [a; Tok t; b] -> (op <> BOP_Put -> op <> BOP_PutAppend -> binary_entry (infix_of (t_kind t)) op q) -> lasts (Op KBinary op ch) q b.
Proof.
  intros op ch a t b q P H q' b' L. inversion L as [| |op0 ch0 a0 t0 b0 q0 P0 H0 N1 N2| | |]; subst. rewrite P in P0. injection P0 as <- <- <-. split; auto. specialize (H N1 N2).
  destruct (infix_of (t_kind t)); cbn in H, H0; try contradiction; try (destruct H, H0; congruence).
  destruct H as [[H1 H2]|[H1 H2]], H0 as [[H3 H4]|[H3 H4]]; try congruence; exfalso; rewrite H1 in H3; discriminate H3.
Qed.
Lemma lasts_ternary : forall op ch a t b u c p q, parts ch = [a; Tok t; b; Tok u; c] -> ternary_entry op (t_kind t) (t_kind u) p q -> lasts (Op KTernary op ch) q c.
Proof.
  intros op ch a t b u c p q P H q' b' L. inversion L as [| | |op0 ch0 a0 t0 b0 u0 c0 p0 q0 P0 H0| |]; subst. rewrite P in P0. injection P0 as <- <- <- <- <-. split; auto.
  unfold ternary_entry in *. destruct H as [H|[H|[H|H]]], H0 as [H0|[H0|[H0|H0]]]; destruct H as (H1 & _ & _ & _ & H2), H0 as (H3 & _ & _ & _ & H4); try congruence;
    exfalso; rewrite H1 in H3; discriminate H3.
Qed.
Lemma lasts_infix : forall op ch a t r l b q, parts ch = a :: Tok t :: r -> parts ch = l ++ [b] -> (op <> IOP_MessageName -> infix_entry (infix_of (t_kind t)) op q) -> lasts (Op KInfix op ch) q b.
Proof.
  intros op ch a t r l b q P P' H q' b' L. inversion L as [| | | |op0 ch0 a0 t0 l0 b0 q0 P0 H0 N|]; subst. rewrite P in P0. injection P0 as <- <- ->. specialize (H N). split.
  - destruct (infix_of (t_kind t)); cbn in H, H0; try contradiction; destruct H, H0; congruence.
  - rewrite P in P'. change (a :: Tok t :: l0 ++ [b']) with ((a :: Tok t :: l0) ++ [b']) in P'. apply app_inj_tail in P' as [_ P']. exact P'.
Qed.
Lemma lasts_error : forall e ch a t b, parts ch = [a; Tok t; b] -> lasts (SynErr e ch) (error_precedence e) b.
Proof. intros e ch a t b P q' b' L. inversion L as [| | | | |e0 ch0 a0 t0 b0 P0]; subst. rewrite P in P0. injection P0 as <- <- <-. auto. Qed.

Section Main.
Variable o : opts.
Variable dbg : bool.
Variable repair : Z -> list cst -> res (list cst).
Variable base : st.
Variable E : Prop.
Hypothesis HE : SE base -> E.
Hypothesis Hrep : forall op ch, unclosed_group op ch -> Forall (shaped repair) ch -> placed o repair base ch -> (repair op ch = Panic -> E) /\ repair op ch <> OutOfFuel.
Hypothesis Hcomma : dbg = true -> forall z g t, R o base z -> reads o (AsToken g TOPLEVEL) (here z) t -> t_kind t = TK_LongName_InvisibleComma -> E.
Variable start : place.
Hypothesis Hstart : within o base start.
Variable k : nat.

Local Notation good := (good o base).
Local Notation PW := (PW E).
Local Notation shaped := (shaped repair).
Local Notation run := (run o dbg repair k).

(** What has been read is the leaves of what has been built, before any repair. *)
Definition acct (z : st) (stk : list cst) : Prop := exists g, Forall2 (mended repair) g stk /\ row o start (leaves g) (here z).

(** ** Where nothing but a closer of an enclosing group, or the end, can follow *)
Definition stop_kind (G D : list Z) (kd : Z) : Prop := kd = TK_EndOfFile \/ (isCloser kd = true /\ In (TokenToCloser kd) G /\ ~ In (TokenToCloser kd) D).
Definition stops (G D : list Z) (p : place) : Prop := forall l t p', strip o (qtop G) isTrivia p l t p' -> stop_kind G D (t_kind t).

Lemma stop_infix : forall G D kd, solidk kd = true -> stop_kind G D kd -> infix_of kd = IP_InfixAssertFalse /\ isPossibleBeginning kd = false.
Proof. intros G D kd H K. destruct (solidk_stop kd H) as (A & B & _); [destruct K as [K|[K _]]; auto|auto]. Qed.

(** ** Places and leaves *)
Lemma acct_trivia : forall q triv z z' l t stk, plain_request q -> (forall kd, triv kd = true -> isTrivia kd = true) ->
  acct z stk -> strip o q triv (here z) l t (here z') -> acct z' (stk ++ map Tok l).
Proof.
  intros q triv z z' l t stk Hq Ht (g & HM & HA) HS. exists (g ++ map Tok l). split; [apply Forall2_app; auto; apply Forall2_map_tok; constructor|].
  rewrite leaves_app, leaves_map. eapply row_cat; [exact HA|]. clear HA.
  remember (here z') as b eqn:Eb. clear Eb. induction HS as [p t Hr Hn|p t l u p' Hr Hn HS IH]; [constructor|].
  constructor; auto. right. exists q, t. split; auto. split; auto. split; [|left; auto]. eapply reads_trivia; eauto.
Qed.
Lemma acct_told : forall q z z' u t stk, plain_request q -> acct z stk -> reads o q (here z) u -> t_kind u <> TK_EndOfFile -> relabelled u t ->
  here z' = past u -> acct z' (stk ++ [Tok t]).
Proof.
  intros q z z' u t stk Hq (g & HM & HA) Hr N Hl Hp. exists (g ++ [Tok t]). split; [apply Forall2_app; auto; repeat constructor|].
  rewrite leaves_app. change (leaves [Tok t]) with [t]. rewrite Hp, <- (past_relabelled u t Hl N).
  eapply row_snoc; [exact HA|]. right. exists q, u. auto.
Qed.
Lemma inserted_here : forall q z kd t, plain_request q -> reads o q (here z) t -> len_zero kd = true -> inserted_at (here z) (tok_at_start kd t).
Proof.
  intros q z kd t Hq Hr Hk. destruct (tok_start o q _ t Hq Hr) as [A B]. split; [apply inserted_kinds; auto|]. cbn [t_start t_text t_src tok_at_start tok_at sp_start sp_end].
  rewrite Hk, B. auto.
Qed.
Lemma acct_inserted : forall q z kd t stk, plain_request q -> acct z stk -> reads o q (here z) t -> len_zero kd = true ->
  acct z (stk ++ [Tok (tok_at_start kd t)]).
Proof.
  intros q z kd t stk Hq (g & HM & HA) Hr Hk. exists (g ++ [Tok (tok_at_start kd t)]). split; [apply Forall2_app; auto; repeat constructor|].
  rewrite leaves_app. change (leaves [Tok (tok_at_start kd t)]) with [tok_at_start kd t].
  pose proof (inserted_here q z kd t Hq Hr Hk) as HI. pose proof (row_snoc o _ _ _ _ HA (or_introl HI)) as W.
  rewrite (past_inserted (here z) _ HI) in W. exact W.
Qed.
Lemma acct_here : forall z z' stk, acct z stk -> here z' = here z -> acct z' stk.
Proof. intros z z' stk (g & HM & HA) Hh. exists g. rewrite Hh. auto. Qed.
Lemma acct_op : forall z S kd op ch, acct z (S ++ ch) -> acct z (S ++ [Op kd op ch]).
Proof.
  intros z S kd op ch (g & HM & HA). apply Forall2_app_inv_r in HM as (gS & gc & H1 & H2 & ->). exists (gS ++ [Op kd op gc]).
  rewrite leaves_op. split; auto. apply Forall2_app; auto. constructor; auto. constructor; auto.
Qed.
Lemma acct_err : forall z S e ch, acct z (S ++ ch) -> acct z (S ++ [SynErr e ch]).
Proof.
  intros z S e ch (g & HM & HA). apply Forall2_app_inv_r in HM as (gS & gc & H1 & H2 & ->). exists (gS ++ [SynErr e gc]).
  rewrite leaves_err. split; auto. apply Forall2_app; auto. constructor; auto. constructor; auto.
Qed.
Lemma acct_repaired : forall z S op ch ch', acct z (S ++ ch) -> repair op ch = Ok ch' -> acct z (S ++ [Op KGroupMissingCloser op ch']).
Proof.
  intros z S op ch ch' (g & HM & HA) Hr. apply Forall2_app_inv_r in HM as (gS & gc & H1 & H2 & ->). exists (gS ++ [Op KGroupMissingCloser op gc]).
  rewrite leaves_op. split; auto. apply Forall2_app; auto. constructor; auto. eapply mended_group; eauto.
Qed.
Lemma acct_call : forall z S l (m : bool) op op' ch, acct z (S ++ l ++ [Op (if m then KGroupMissingCloser else KGroup) op ch]) -> try_to_call_operator op = Ok op' ->
  acct z (S ++ [Call (Concrete l) m op' ch]).
Proof.
  intros z S l m op op' ch (g & HM & HA) Ho. apply Forall2_app_inv_r in HM as (gS & gc & H1 & H2 & ->). apply Forall2_app_inv_r in H2 as (gl & gb & H2 & H3 & ->).
  inversion H3 as [|x y l0 l0' Hx Hn]; subst. inversion Hn; subst.
  assert (K : forall c gch, x = Op c op gch -> row o start (leaves (gS ++ [Call (Concrete gl) m op' gch])) (here z)).
  { intros c gch ->. rewrite !leaves_app in *. unfold leaves in *. cbn [flat_map toks] in *. rewrite !app_nil_r in *. exact HA. }
  inversion Hx as [|k0 op0 gch ch0 Hg| | |op0 gch ch0 fixed Hg Hf|]; subst.
  - exists (gS ++ [Call (Concrete gl) m op' gch]). split; [|eapply K; eauto]. apply Forall2_app; auto. constructor; auto. constructor; auto.
  - destruct m; [|discriminate]. exists (gS ++ [Call (Concrete gl) true op' gch]). split; [|eapply K; eauto]. apply Forall2_app; auto. constructor; auto.
    eapply mended_group_call; eauto.
Qed.
Lemma acct_placed : forall z S ch, acct z (S ++ ch) -> placed o repair base ch.
Proof.
  intros z S ch (g & HM & HA). apply Forall2_app_inv_r in HM as (gS & gc & H1 & H2 & ->). rewrite leaves_app in HA. apply row_split in HA as (m & A & B).
  exists m, (here z), gc. split; auto. eapply within_row; eauto.
Qed.

(** ** Frames: what has been pushed since the context began *)
Record fr (z : st) (S ch ps : list cst) : Prop := mkfr {
  fr_good : good z; fr_acct : acct z (S ++ ch); fr_parts : parts ch = ps; fr_shaped : Forall shaped ch; fr_pairs : pairs ch }.

Lemma shaped_tok : forall t, shaped (Tok t).
Proof. intros t. apply shaped_node; [constructor|apply left_leaf|constructor]. Qed.
Lemma shaped_toks : forall l, Forall shaped (map Tok l).
Proof. induction l; cbn; constructor; auto using shaped_tok. Qed.

Lemma fr_here : forall z z' S ch ps, fr z S ch ps -> good z' -> here z' = here z -> fr z' S ch ps.
Proof. intros z z' S ch ps [A B C D W] G H. constructor; auto. eapply acct_here; eauto. Qed.

Lemma fr_nonempty : forall z S ch ps, fr z S ch ps -> ps <> [] -> ch <> [].
Proof. intros z S ch ps [_ _ P _ _] N ->. apply N. rewrite <- P. reflexivity. Qed.

Lemma fr_trivia : forall triv z z' S ch ps q l t, plain_request q -> (forall kd, triv kd = true -> isTrivia kd = true) ->
  fr z S ch ps -> good z' -> strip o q triv (here z) l t (here z') -> fr z' S (ch ++ map Tok l) ps.
Proof.
  intros triv z z' S ch ps q l t Hq Ht [A B P D W] Hg HS. destruct (strip_place _ _ _ _ _ _ _ HS) as (_ & _ & HT). constructor; auto.
  - rewrite app_assoc. eapply acct_trivia; eauto.
  - rewrite parts_app, P, parts_trivia, app_nil_r; auto. eapply Forall_impl; [|exact HT]. auto.
  - apply Forall_app. auto using shaped_toks.
  - apply pairs_trivia; auto. eapply Forall_impl; [|exact HT]. auto.
Qed.
Lemma fr_next : forall q z z' S ch ps t, plain_request q -> fr z S ch ps -> looks o q z t -> t_kind t <> TK_EndOfFile -> isTrivia (t_kind t) = false -> pairs (ch ++ [Tok t]) ->
  good z' -> here z' = past t -> fr z' S (ch ++ [Tok t]) (ps ++ [Tok t]).
Proof.
  intros q z z' S ch ps t Hq [A B P D W] HL N Ht Hw Hg Hh. constructor; auto.
  - rewrite app_assoc. eapply (acct_told q z z' t t); eauto; [apply looks_reads; auto|left; auto].
  - rewrite parts_app, P, parts_solid; auto.
  - apply Forall_app; split; auto. constructor; auto using shaped_tok.
Qed.

Lemma F_push_trivia : forall triv z z' S ch ps q l t C G (Q : unit -> pst -> Prop), plain_request q -> (forall kd, triv kd = true -> isTrivia kd = true) ->
  fr z S ch ps -> good z' -> strip o q triv (here z) l t (here z') ->
  (fr z' S (ch ++ map Tok l) ps -> Q tt (mkp z' (S ++ (ch ++ map Tok l)) C G)) ->
  PW (push_trivia l) (mkp z' (S ++ ch) C G) Q.
Proof.
  intros triv z z' S ch ps q l t C G Q Hq Ht HF Hg HS HQ. apply PW_push_trivia. rewrite <- app_assoc. apply HQ. eapply fr_trivia; eauto.
Qed.

Lemma F_next : forall q z S ch ps t C G (Q : unit -> pst -> Prop), plain_request q -> fr z S ch ps -> looks o q z t ->
  t_kind t <> TK_EndOfFile -> isTrivia (t_kind t) = false -> pairs (ch ++ [Tok t]) ->
  (forall z', fr z' S (ch ++ [Tok t]) (ps ++ [Tok t]) -> here z' = past t -> (len z' <= len z)%nat -> (t_text t <> [] -> (len z' < len z)%nat) ->
     Q tt (mkp z' (S ++ (ch ++ [Tok t])) C G)) ->
  PW (push_syntax_and_next dbg t) (mkp z (S ++ ch) C G) Q.
Proof.
  intros q z S ch ps t C G Q Hq HF HL N Ht Hw HQ. unfold push_syntax_and_next. apply PW_bind. apply PW_push_syntax; auto.
  apply (PW_skip o base E q); auto; [apply (fr_good _ _ _ _ HF)|]. intros z' G' H' R' L1 L2. rewrite <- app_assoc. apply HQ; auto. eapply fr_next; eauto.
Qed.
Lemma F_leaf_next : forall q z S ch ps t C G (Q : unit -> pst -> Prop), plain_request q -> fr z S ch ps -> looks o q z t ->
  t_kind t <> TK_EndOfFile -> leaf_kind (t_kind t) = true ->
  (forall z', fr z' S (ch ++ [Tok t]) (ps ++ [Tok t]) -> here z' = past t -> (len z' <= len z)%nat -> (t_text t <> [] -> (len z' < len z)%nat) ->
     Q tt (mkp z' (S ++ (ch ++ [Tok t])) C G)) ->
  PW (push_leaf_and_next dbg t) (mkp z (S ++ ch) C G) Q.
Proof.
  intros q z S ch ps t C G Q Hq HF HL N Ht HQ. eapply F_next; eauto; [apply leaf_not_trivia; exact Ht|]. apply pairs_operand; [exact Ht|]. apply (fr_pairs _ _ _ _ HF).
Qed.

(** a solid token of the parser's own reading *)
Lemma F_next_top : forall G z S ch ps t C G' (Q : unit -> pst -> Prop), fr z S ch ps -> looks o (qtop G) z t -> solidk (t_kind t) = true ->
  t_kind t <> TK_EndOfFile -> next_ok ps t ->
  (forall z', fr z' S (ch ++ [Tok t]) (ps ++ [Tok t]) -> here z' = past t -> (len z' < len z)%nat -> Q tt (mkp z' (S ++ (ch ++ [Tok t])) C G')) ->
  PW (push_syntax_and_next dbg t) (mkp z (S ++ ch) C G') Q.
Proof.
  intros G z S ch ps t C G' Q HF HL Hs N Hn HQ. eapply (F_next (qtop G)); eauto; [reflexivity|apply solidk_trivia; auto|apply pairs_next; [apply (fr_pairs _ _ _ _ HF)|rewrite (fr_parts _ _ _ _ HF); exact Hn]|].
  intros z' F1 F2 F3 F4. apply HQ; auto. apply F4. eapply reads_text; eauto. apply looks_reads. exact HL.
Qed.

Lemma F_fake : forall q z S ch ps kd t C G (Q : unit -> pst -> Prop), plain_request q -> fr z S ch ps -> looks o q z t ->
  len_zero kd = true -> leaf_kind kd = true ->
  (fr z S (ch ++ [Tok (tok_at_start kd t)]) (ps ++ [Tok (tok_at_start kd t)]) -> Q tt (mkp z (S ++ (ch ++ [Tok (tok_at_start kd t)])) C G)) ->
  PW (push_leaf dbg (tok_at_start kd t)) (mkp z (S ++ ch) C G) Q.
Proof.
  intros q z S ch ps kd t C G Q Hq [A B P D W] HL Hk Ht HQ. apply PW_push_leaf; [apply leaf_not_trivia; exact Ht|]. rewrite <- app_assoc. apply HQ. constructor; auto.
  - rewrite app_assoc. eapply acct_inserted; eauto. apply looks_reads; auto.
  - rewrite parts_app, P, parts_solid; auto. apply leaf_not_trivia. exact Ht.
  - apply Forall_app; split; auto. constructor; auto using shaped_tok.
  - apply pairs_operand; auto.
Qed.

Lemma F_current : forall z S C G (Q : list token * token -> pst -> Prop), good z ->
  (forall l t z', good z' -> R o z z' -> (len z' <= len z)%nat -> strip o (qtop G) isTrivia (here z) l t (here z') -> looks o (qtop G) z' t ->
     solidk (t_kind t) = true -> (forall D, stops G D (here z) -> stop_kind G D (t_kind t)) -> Q (l, t) (mkp z' S C G)) ->
  PW (current_token o dbg) (mkp z S C G) Q.
Proof.
  intros z S C G Q Hg HQ. apply (PW_current o dbg base E HE); auto. intros l t z' G' R' St HL. apply HQ; auto.
  - apply R_length in R'. exact R'.
  - destruct (strip_place _ _ _ _ _ _ _ St) as (Hr & Ht & _). eapply reads_solid; eauto.
  - intros D H. eapply H. exact St.
Qed.

Lemma F_current_nl : forall z S C G (Q : list token * token -> pst -> Prop), good z ->
  (forall l t z', good z' -> R o z z' -> (len z' <= len z)%nat -> strip o (qtop G) isTriviaButNotToplevelNewline (here z) l t (here z') -> looks o (qtop G) z' t ->
     (solidk (t_kind t) = true \/ t_kind t = TK_ToplevelNewline) -> (forall D, stops G D (here z) -> stop_kind G D (t_kind t) \/ t_kind t = TK_ToplevelNewline) ->
     Q (l, t) (mkp z' S C G)) ->
  PW (current_token_not_newline o) (mkp z S C G) Q.
Proof.
  intros z S C G Q Hg HQ. apply (PW_current_nl o base E HE); auto. intros l t z' G' R' St HL. apply HQ; auto.
  - apply R_length in R'. exact R'.
  - destruct (strip_place _ _ _ _ _ _ _ St) as (Hr & Ht & _). eapply reads_newline; eauto.
  - intros D H. destruct (strip_newline _ _ _ _ _ _ St) as [St'|St']; auto. left. eapply H. exact St'.
Qed.

(** go back to where the trivia began *)
Lemma F_back : forall triv z z' S ch ps l t C G (Q : unit -> pst -> Prop), fr z S ch ps -> good z' -> R o z z' ->
  strip o (qtop G) triv (here z) l t (here z') ->
  (forall z2, fr z2 S ch ps -> here z2 = here z -> (len z2 = len z)%nat -> lg z2 = lg z' -> Q tt (mkp z2 (S ++ ch) C G)) ->
  PW (trivia_reset l) (mkp z' (S ++ ch) C G) Q.
Proof.
  intros triv z z' S ch ps l t C G Q HF Hg HR HS HQ. apply (PW_trivia_reset o base E (qtop G) triv z z' l t); auto; [reflexivity|apply (fr_good _ _ _ _ HF)|].
  intros z2 G2 H2 L2. apply HQ; auto; [eapply fr_here; eauto|]. unfold len. injection H2 as H2 _. rewrite H2. reflexivity.
Qed.

Lemma F_eat : forall z S ch ps C G (Q : token -> pst -> Prop), fr z S ch ps ->
  (forall t z' ch', fr z' S ch' ps -> (len z' <= len z)%nat -> looks o (qtop G) z' t -> solidk (t_kind t) = true -> (forall D, stops G D (here z) -> stop_kind G D (t_kind t)) ->
     (forall u, reads o (qtop G) (here z) u -> isTrivia (t_kind u) = false -> t = u) -> Q t (mkp z' (S ++ ch') C G)) ->
  PW (eat_trivia o dbg) (mkp z (S ++ ch) C G) Q.
Proof.
  intros z S ch ps C G Q HF HQ. unfold eat_trivia. apply PW_bind. apply F_current; [apply (fr_good _ _ _ _ HF)|].
  intros l t z' G' R' L' St HL Hs Hst. apply PW_bind. apply (F_push_trivia isTrivia z z' S ch ps (qtop G) l t); auto; [reflexivity|]. intros HF'.
  apply PW_ret. apply HQ; auto. intros u Hu Tu. pose proof (strip_nil o (qtop G) isTrivia _ u Hu Tu) as St'.
  destruct (strip_det o (qtop G) isTrivia _ _ _ _ eq_refl St _ _ _ St') as (_ & X & _). exact X.
Qed.

Lemma F_eat_nl : forall z S ch ps C G (Q : token -> pst -> Prop), fr z S ch ps ->
  (forall t z' ch', fr z' S ch' ps -> (len z' <= len z)%nat -> looks o (qtop G) z' t -> (solidk (t_kind t) = true \/ t_kind t = TK_ToplevelNewline) ->
     Q t (mkp z' (S ++ ch') C G)) ->
  PW (eat_trivia_not_newline o) (mkp z (S ++ ch) C G) Q.
Proof.
  intros z S ch ps C G Q HF HQ. unfold eat_trivia_not_newline. apply PW_bind. apply F_current_nl; [apply (fr_good _ _ _ _ HF)|].
  intros l t z' G' R' L' St HL Hs Hst. apply PW_bind. apply (F_push_trivia isTriviaButNotToplevelNewline z z' S ch ps (qtop G) l t); auto; [reflexivity|apply triv_newline|]. intros HF'.
  apply PW_ret. apply HQ; auto.
Qed.

Lemma file_solid : forall p t, reads o AsFile p t -> isTrivia (t_kind t) = false -> leaf_kind (t_kind t) = true /\ t_kind t <> TK_EndOfFile.
Proof.
  intros p t H Ht. apply reads_file in H. unfold FILE_KINDS in H. cbn [In] in H.
  destruct H as [H|[H|[H|[H|[H|[H|[]]]]]]]; rewrite <- H in *; try (vm_compute in Ht; discriminate Ht); (split; [reflexivity|discriminate]).
Qed.
Lemma tag_solid : forall p t, reads o AsTag p t -> leaf_kind (t_kind t) = true /\ t_kind t <> TK_EndOfFile.
Proof.
  intros p t H. apply reads_tag in H. unfold TAG_KINDS in H. cbn [In] in H. destruct H as [H|[H|[H|[]]]]; rewrite <- H; (split; [reflexivity|discriminate]).
Qed.

Lemma F_eat_file : forall z S ch ps C G (Q : token -> pst -> Prop), fr z S ch ps ->
  (forall t z' ch', fr z' S ch' ps -> (len z' <= len z)%nat -> looks o AsFile z' t -> leaf_kind (t_kind t) = true -> t_kind t <> TK_EndOfFile ->
     Q t (mkp z' (S ++ ch') C G)) ->
  PW (eat_trivia_as_file o dbg) (mkp z (S ++ ch) C G) Q.
Proof.
  intros z S ch ps C G Q HF HQ. unfold eat_trivia_as_file. apply PW_bind. apply (PW_current_file o base E HE); [apply (fr_good _ _ _ _ HF)|].
  intros l t z' G' R' St HL. destruct (strip_place _ _ _ _ _ _ _ St) as (Hr & Ht & _). destruct (file_solid _ _ Hr Ht) as [K1 K2].
  apply PW_bind. apply PW_debug; [rewrite Ht; auto|]. apply PW_bind.
  apply (F_push_trivia isTrivia z z' S ch ps AsFile l t); auto; [exact I|]. intros HF'. apply PW_ret. apply HQ; auto. apply R_length in R'. exact R'.
Qed.

(** ** What comes after a node *)
Definition follows (G : list Z) (p : place) (kd : Z) : Prop := exists l t p', strip o (qtop G) isTriviaButNotToplevelNewline p l t p' /\ t_kind t = kd.
(** what follows does not go on with any last operand of the node *)
Definition yields (G : list Z) (p : place) (n : cst) : Prop := forall q kd, open_at_end n q -> follows G p kd -> shut q kd.
(** the node ended because of what follows *)
Definition held (G : list Z) (q : Z) (p : place) (n : cst) : Prop := dead_end n = false -> forall kd, follows G p kd -> shut q kd.
Definition tail (G : list Z) (q : Z) (p : place) (n : cst) : Prop := yields G p n /\ held G q p n.

Lemma yields_lasts : forall G p n q b, lasts n q b -> tail G q p b -> yields G p n.
Proof.
  intros G p n q b Hl [Hy Hh] q' kd Ho Hf. inversion Ho as [n0 q0 b0 L D|n0 q0 b0 q1 L D]; subst; destruct (Hl _ _ L) as [-> ->]; [apply Hh; auto|eapply Hy; eauto].
Qed.
Lemma yields_none : forall G p n, (forall q b, last_operand n q b -> False) -> yields G p n.
Proof. intros G p n H q kd Ho. inversion Ho as [n0 q0 b0 L D|n0 q0 b0 q1 L D]; subst; destruct (H _ _ L). Qed.
Lemma yields_tok : forall G p t, yields G p (Tok t).
Proof. intros G p t. apply yields_none. intros q b L. inversion L. Qed.
Definition no_last (k : opkind) : bool := match k with KPrefix | KPrefixBinary | KBinary | KTernary | KInfix => false | _ => true end.
Lemma yields_op : forall G p kd op ch, no_last kd = true -> yields G p (Op kd op ch).
Proof. intros G p kd op ch H. apply yields_none. intros q b L. inversion L; subst; discriminate H. Qed.
Lemma yields_call : forall G p h m op ch, yields G p (Call h m op ch).
Proof. intros. apply yields_none. intros q b L. inversion L. Qed.
Lemma tail_dead : forall G q p t, dead_end (Tok t) = true -> tail G q p (Tok t).
Proof. intros G q p t H. split; [apply yields_tok|]. intros X. congruence. Qed.
Lemma stops_held : forall G D p q n, stops G D p -> 0 <= q -> held G q p n.
Proof.
  intros G D p q n H Hq _ kd (l & t & p' & St & <-). left. rewrite tprec_none; [apply greater_zero; auto|].
  destruct (strip_newline _ _ _ _ _ _ St) as [St'|St']; [|right; rewrite St'; reflexivity].
  left. destruct (strip_place _ _ _ _ _ _ _ St') as (Hr & Ht & _). eapply stop_infix; [eapply reads_solid; eauto|eapply H; eauto].
Qed.

(** ** Requests *)
Definition ok_node (C : list ctx) (G : list Z) (z : st) (n : cst) : Prop :=
  operand n = true /\ shaped n /\ binds (cprec C) n /\ (open_ended n = true -> stops G (dangling n) (here z)) /\ yields G (here z) n.
Definition done_node (C : list ctx) (G : list Z) (z : st) (n : cst) : Prop := ok_node C G z n /\ held G (cprec C) (here z) n.
(** where an infix node begins and ends *)
Definition begun (ps : list cst) : Prop := exists a t r, ps = a :: Tok t :: r /\ left_tok a t.
Definition lately (op : Z) (G : list Z) (q : Z) (p : place) (ps : list cst) : Prop := exists r b, ps = r ++ [b] /\ ((op = IOP_MessageName /\ yields G p b) \/ tail G q p b).

Lemma yields_left : forall G p n l t p', yields G p n -> strip o (qtop G) isTriviaButNotToplevelNewline p l t p' -> left_tok n t.
Proof.
  intros G p n l t p' Hy St pj q J O. assert (Sh : shut q (t_kind t)) by (apply (Hy q (t_kind t) O); exists l, t, p'; auto).
  unfold shut, tprec in Sh. rewrite J in Sh. destruct Sh as [Sh|[_ Sh]]; [left; apply greater_ends; auto|]. unfold joining_precedence in J. rewrite Sh in J. discriminate.
Qed.
Lemma strip_calm : forall q p l t p', strip o q isTrivia p l t p' -> calm l -> strip o q isTriviaButNotToplevelNewline p l t p'.
Proof.
  intros q p l t p' H. induction H as [p t H1 H2|p t l u p' H1 H2 H IHl]; intros Hc.
  - constructor; auto. destruct (isTriviaButNotToplevelNewline (t_kind t)) eqn:X; auto. apply triv_newline in X. congruence.
  - apply Forall_cons_iff in Hc as [Hc1 Hc2]. constructor; auto.
Qed.
Lemma yields_next : forall G p ps n l t p', yields G p n -> strip o (qtop G) isTrivia p l t p' -> calm l -> next_ok (ps ++ [n]) t.
Proof. intros G p ps n l t p' Hy St Hc. apply next_snoc. eapply yields_left; eauto. apply strip_calm; eauto. Qed.
Lemma lately_yields : forall op G q p ps, lately op G q p ps -> exists r b, ps = r ++ [b] /\ yields G p b.
Proof. intros op G q p ps (r & b & -> & [[_ H]|[H _]]); exists r, b; auto. Qed.
Lemma lately_next : forall op G q p ps l t p', lately op G q p ps -> strip o (qtop G) isTrivia p l t p' -> calm l -> next_ok ps t.
Proof. intros op G q p ps l t p' H St Hc. destruct (lately_yields _ _ _ _ _ H) as (r & b & -> & Hy). eapply yields_next; eauto. Qed.

(** the operator token a parselet has been asked to start with *)
Definition infix_token (G : list Z) (z : st) (t : token) (q : Z) : Prop :=
  (looks o (qtop G) z t /\ solidk (t_kind t) = true /\ iprec (infix_of (t_kind t)) <> None /\ accepted t q) \/
  (q = PREC_STAR /\ exists t0, t = tok_at_start TK_Fake_ImplicitTimes t0 /\ looks o (qtop G) z t0 /\ solidk (t_kind t0) = true /\ consuming (prefix_of (t_kind t0)) = true).

Definition loop_frame (op : Z) (S : list cst) (C : list ctx) (G : list Z) (s : pst) : Prop :=
  exists z ch ps q, s = mkp z (S ++ ch) (mkctx q (length S) :: C) G /\ fr z S ch ps /\ alternate op q ps /\ (settled ps /\ begun ps) /\
    ((lopen ps = true -> stops G (last_dangling ps) (here z)) /\ lately op G q (here z) ps) /\ 0 <= cprec C /\ prec_greater (cprec C) q = false.

Definition pre (c : call) (S : list cst) (C : list ctx) (G : list Z) (s : pst) : Prop :=
  match c with
  | CPrefix t => exists z, s = mkp z S C G /\ good z /\ acct z S /\ looks o (qtop G) z t /\ solidk (t_kind t) = true /\ 0 <= cprec C
  | CInfix t => exists z ch n q, s = mkp z (S ++ ch) (mkctx q (length S) :: C) G /\ fr z S ch [n] /\ operand n = true /\ open_ended n = false /\
      0 <= cprec C /\ prec_greater (cprec C) q = false /\ infix_token G z t q /\ left_tok n t
  | CClimb => exists z n, s = mkp z (S ++ [n]) C G /\ good z /\ acct z (S ++ [n]) /\ ok_node C G z n /\ 0 <= cprec C
  | CGroupLoop op closer => exists z t mid ps, s = mkp z ((S ++ [Tok t]) ++ mid) (mkctx 0 (length S) :: C) (closer :: G) /\ fr z (S ++ [Tok t]) mid ps /\
      opens op t /\ GroupOpenerToCloser (t_kind t) = Ok closer /\ isCloser closer = true /\ isTrivia (t_kind t) = false /\
      Forall (fun n => operand n = true) ps /\ settled ps /\ (lopen ps = true -> stops (closer :: G) (last_dangling ps) (here z)) /\ 0 <= cprec C
  | CInfixLoop op => loop_frame op S C G s /\ zin op [IOP_Times; IOP_CodeParser_InternalInvalid] = false
  | CTimesLoop => loop_frame IOP_Times S C G s
  | CCommaLoop => loop_frame IOP_CodeParser_Comma S C G s
  | CSemiLoop => loop_frame IOP_CompoundExpression S C G s
  | CColonColonLoop => loop_frame IOP_MessageName S C G s
  end.

Definition extra (c : call) (S : list cst) (C : list ctx) (G : list Z) (s : pst) (z : st) (n : cst) : Prop :=
  match c with
  | CPrefix t => consuming (prefix_of (t_kind t)) = true \/ (cprec C = 0 /\ isCloser (t_kind t) = false /\ t_kind t <> TK_EndOfFile) -> (len z < len (tz s))%nat
  | CInfix _ => (len z < len (tz s))%nat
  | CClimb => (cprec C = PREC_HIGHEST -> stack s = S ++ [n]) /\
      (cprec C = 0 -> forall t, reads o (qtop G) (here (tz s)) t -> is_comma (t_kind t) = true -> (len z < len (tz s))%nat)
  | CGroupLoop op _ => cprec C = PREC_HIGHEST -> exists ch, n = Op KGroup op ch \/ n = Op KGroupMissingCloser op ch
  | _ => True
  end.

Definition finished (S : list cst) (C : list ctx) (G : list Z) (X : st -> cst -> Prop) : unit -> pst -> Prop :=
  fun _ s' => exists z n, s' = mkp z (S ++ [n]) C G /\ good z /\ acct z (S ++ [n]) /\ done_node C G z n /\ X z n.

Definition post (c : call) (S : list cst) (C : list ctx) (G : list Z) (s : pst) : unit -> pst -> Prop :=
  finished S C G (fun z n => (len z <= len (tz s))%nat /\ extra c S C G s z n).

Definition rank (c : call) : nat :=
  match c with
  | CPrefix t => match prefix_of (t_kind t) with PP_PrefixComma => 4 | PP_PrefixUnhandled => 2 | _ => 1 end
  | CInfix t => if Z.eqb (t_kind t) TK_Fake_ImplicitTimes then 2 else 1
  | CClimb => 3
  | CGroupLoop _ _ => 5
  | _ => 4
  end%nat.
Definition measure (c : call) (s : pst) : nat := (6 * len (tz s) + rank c)%nat.

Lemma rank_prefix : forall t, (rank (CPrefix t) <= 4)%nat.
Proof. intros t. cbn. destruct (prefix_of (t_kind t)); lia. Qed.
Lemma rank_consuming : forall t, consuming (prefix_of (t_kind t)) = true -> rank (CPrefix t) = 1%nat.
Proof. intros t H. cbn. destruct (prefix_of (t_kind t)); cbn in H; try discriminate; auto. Qed.

Hypothesis IH : forall c S C G s, pre c S C G s -> (measure c s <= k)%nat -> PW (run c) s (post c S C G s).

Lemma rec_prefix : forall t z S ch ps C G (Q : unit -> pst -> Prop), fr z S ch ps -> looks o (qtop G) z t -> solidk (t_kind t) = true -> 0 <= cprec C ->
  (6 * len z + rank (CPrefix t) <= k)%nat ->
  (forall z' n, fr z' S (ch ++ [n]) (ps ++ [n]) -> (len z' <= len z)%nat -> operand n = true -> binds (cprec C) n ->
     ((open_ended n = true -> stops G (dangling n) (here z')) /\ tail G (cprec C) (here z') n) ->
     (consuming (prefix_of (t_kind t)) = true \/ (cprec C = 0 /\ isCloser (t_kind t) = false /\ t_kind t <> TK_EndOfFile) -> (len z' < len z)%nat) ->
     Q tt (mkp z' (S ++ (ch ++ [n])) C G)) ->
  PW (run (CPrefix t)) (mkp z (S ++ ch) C G) Q.
Proof.
  intros t z S ch ps C G Q [A B P D W] HL Hs Hc Hk HQ. eapply PW_conseq; [apply (IH (CPrefix t) (S ++ ch) C G)|].
  - exists z. auto 10.
  - exact Hk.
  - intros [] s' (z' & n & -> & G' & A' & ((N1 & N2 & N3 & N4 & N5) & N6) & L' & X'). rewrite <- app_assoc in A' |- *. apply HQ; auto; [constructor; auto|split; [|split]; auto].
    + rewrite parts_app, P, parts_solid; auto. apply operand_solid; auto.
    + apply Forall_app. auto.
    + apply pairs_operand; auto.
Qed.

Lemma rec_climb : forall z S n C G N, good z -> acct z (S ++ [n]) -> ok_node C G z n -> 0 <= cprec C -> (6 * len z + 3 <= k)%nat -> (len z < N)%nat ->
  PW (run CClimb) (mkp z (S ++ [n]) C G) (finished S C G (fun z' _ => (len z' < N)%nat)).
Proof.
  intros z S n C G N Hg Ha Hn Hc Hk HN. eapply PW_conseq; [apply (IH CClimb S C G)|].
  - exists z, n. auto.
  - exact Hk.
  - intros [] s' (z' & n' & -> & G' & A' & O' & L' & X'). exists z', n'. cbn [tz] in L'. split; auto. do 3 (split; [assumption|]). lia.
Qed.

(** push a node made of the frame, and go on *)
Lemma F_reduce : forall kd op z S ch ps q C G N, fr z S ch ps -> ps <> [] -> node_ok (Op kd op ch) -> plain_op kd = true ->
  binds (cprec C) (Op kd op ch) -> (lopen ps = true -> stops G (last_dangling ps) (here z)) -> 0 <= cprec C -> (6 * len z + 3 <= k)%nat -> (len z < N)%nat ->
  left_ok (Op kd op ch) -> yields G (here z) (Op kd op ch) ->
  PW (pbind (reduce_op kd op) (fun _ => run CClimb)) (mkp z (S ++ ch) (mkctx q (length S) :: C) G) (finished S C G (fun z' _ => (len z' < N)%nat)).
Proof.
  intros kd op z S ch ps q C G N HF Hne Hok Hp Hb Ho Hc Hk HN Hlf Hy. apply PW_bind, PW_reduce_op; [eapply fr_nonempty; eauto|]. destruct HF as [A B P D W].
  apply rec_climb; auto.
  - apply acct_op. exact B.
  - split; [destruct kd; reflexivity|]. split; [apply shaped_node; auto|]. split; auto. split; auto. intros X. rewrite dangling_op, P by auto. apply open_op in X; auto. rewrite P in X. auto.
Qed.
Lemma F_reduce_error : forall e z S ch ps q C G N, fr z S ch ps -> ps <> [] -> node_ok (SynErr e ch) ->
  binds (cprec C) (SynErr e ch) -> (lopen ps = true -> stops G (last_dangling ps) (here z)) -> 0 <= cprec C -> (6 * len z + 3 <= k)%nat -> (len z < N)%nat ->
  left_ok (SynErr e ch) -> yields G (here z) (SynErr e ch) ->
  PW (pbind (reduce_syntax_error e) (fun _ => run CClimb)) (mkp z (S ++ ch) (mkctx q (length S) :: C) G) (finished S C G (fun z' _ => (len z' < N)%nat)).
Proof.
  intros e z S ch ps q C G N HF Hne Hok Hb Ho Hc Hk HN Hlf Hy. apply PW_bind, PW_reduce_error; [eapply fr_nonempty; eauto|]. destruct HF as [A B P D W].
  apply rec_climb; auto.
  - apply acct_err. exact B.
  - split; [reflexivity|]. split; [apply shaped_node; auto|]. split; auto. split; auto. intros X. rewrite dangling_err, P. apply open_err in X. rewrite P in X. auto.
Qed.

Lemma len_here : forall z z', here z' = here z -> len z' = len z.
Proof. intros z z' H. unfold len. injection H as H _. rewrite H. reflexivity. Qed.
Lemma R_here : forall z1 z2 z3 z4, R o z1 z2 -> R o z2 z3 -> here z4 = here z2 -> lg z4 = lg z3 -> R o z1 z4.
Proof.
  intros z1 z2 z3 z4 H1 H2 Hh Hl. injection Hh as H3 H4. pose proof (R_seek_loc o z1 z2 z3 false H1 H2) as H. unfold R, lflag in *. cbn [cur lg rest ploc] in H.
  rewrite H3, H4, Hl. exact H.
Qed.

Lemma F_next_late : forall z z' S ch ps l t C G G' (Q : unit -> pst -> Prop), fr z S ch ps -> fr z' S (ch ++ map Tok l) ps -> strip o (qtop G) isTrivia (here z) l t (here z') ->
  looks o (qtop G) z' t -> solidk (t_kind t) = true -> t_kind t <> TK_EndOfFile -> (calm l -> next_ok ps t) ->
  (forall z2, fr z2 S ((ch ++ map Tok l) ++ [Tok t]) (ps ++ [Tok t]) -> here z2 = past t -> (len z2 < len z')%nat -> Q tt (mkp z2 (S ++ ((ch ++ map Tok l) ++ [Tok t])) C G')) ->
  PW (push_syntax_and_next dbg t) (mkp z' (S ++ (ch ++ map Tok l)) C G') Q.
Proof.
  intros z z' S ch ps l t C G G' Q HF HF1 St HL Hs N Hn HQ.
  eapply (F_next (qtop G)); eauto; [reflexivity|apply solidk_trivia; auto|apply pairs_commit; [apply (fr_pairs _ _ _ _ HF)| |rewrite (fr_parts _ _ _ _ HF); exact Hn]|].
  - apply (strip_place _ _ _ _ _ _ _ St).
  - intros z2 F1 F2 F3 F4. apply HQ; auto. apply F4. eapply reads_text; eauto. apply looks_reads. exact HL.
Qed.
Lemma F_commit : forall z z' S ch ps l t C G (Q : unit -> pst -> Prop), fr z S ch ps -> good z' -> strip o (qtop G) isTrivia (here z) l t (here z') ->
  looks o (qtop G) z' t -> solidk (t_kind t) = true -> t_kind t <> TK_EndOfFile -> (calm l -> next_ok ps t) ->
  (forall z2 ch2, fr z2 S (ch2 ++ [Tok t]) (ps ++ [Tok t]) -> (len z2 < len z')%nat -> Q tt (mkp z2 (S ++ (ch2 ++ [Tok t])) C G)) ->
  PW (commit_syntax_and_next dbg l t) (mkp z' (S ++ ch) C G) Q.
Proof.
  intros z z' S ch ps l t C G Q HF Hg St HL Hs N Hn HQ. unfold commit_syntax_and_next. apply PW_bind.
  apply (F_push_trivia isTrivia z z' S ch ps (qtop G) l t); auto; [reflexivity|]. intros HF1.
  eapply (F_next_late z z'); eauto.
Qed.

(** the loops *)
Definition ready (op q : Z) (ps : list cst) : Prop :=
  (closedl ps /\ begun ps) /\ forall b, operand b = true -> binds q b -> alternate op q (ps ++ [b]).
Lemma begun_app : forall ps l, begun ps -> begun (ps ++ l).
Proof. intros ps l (a & t & r & -> & H). exists a, t, (r ++ l). auto. Qed.
Lemma ready_first : forall op q n t, operand n = true -> open_ended n = false -> left_tok n t -> infix_entry (infix_of (t_kind t)) op q -> ready op q [n; Tok t].
Proof. intros op q n t H1 H2 H4 H3. split; [split; [repeat constructor; auto|exists n, t, []; auto]|]. intros b Hb Bb. apply alt_one; auto. Qed.
Lemma ready_more : forall op q q' l t, alternate op q l -> closedl l -> begun l -> infix_entry (infix_of (t_kind t)) op q' -> ready op q (l ++ [Tok t]).
Proof.
  intros op q q' l t H1 H2 H4 H3. split; [split; [apply Forall_app; split; auto|apply begun_app; auto]|]. intros b Hb Bb. rewrite <- app_assoc. eapply alt_more; eauto.
Qed.
Lemma infix_entry_iprec : forall p op q, infix_entry p op q -> iprec p = Some q.
Proof. intros p op q H. destruct p; cbn in *; try contradiction; destruct H as [_ ->]; reflexivity. Qed.
Lemma alternate_root : forall op q l, alternate op q l -> exists a t r, l = a :: Tok t :: r /\ accepted t q /\ infix_entry (infix_of (t_kind t)) op q.
Proof.
  intros op q l H. induction H as [a t b Ha He Hb Bb|l t b q' H IHl He Hb Bb].
  - exists a, t, [b]. split; auto. split; auto. right. eapply infix_entry_iprec; eauto.
  - destruct IHl as (a & u & r & -> & Hu). exists a, u, (r ++ [Tok t; b]). auto.
Qed.
Lemma alternate_nonempty : forall op q l, alternate op q l -> l <> [].
Proof. intros op q l H. destruct (alternate_root _ _ _ H) as (a & t & r & -> & _). discriminate. Qed.

Lemma finished_le : forall S C G N M u s, (N <= M)%nat -> finished S C G (fun z' _ => (len z' < N)%nat) u s -> finished S C G (fun z' _ => (len z' < M)%nat) u s.
Proof. intros S C G N M u s H (z & n & A1 & A2 & A3 & A4 & A5). exists z, n. do 4 (split; [assumption|]). lia. Qed.

Definition is_loop (lc : call) (op : Z) : Prop :=
  (lc = CInfixLoop op /\ zin op [IOP_Times; IOP_CodeParser_InternalInvalid] = false) \/
  (lc = CTimesLoop /\ op = IOP_Times) \/ (lc = CCommaLoop /\ op = IOP_CodeParser_Comma) \/
  (lc = CSemiLoop /\ op = IOP_CompoundExpression) \/ (lc = CColonColonLoop /\ op = IOP_MessageName).
Lemma is_loop_pre : forall lc op S C G s, is_loop lc op -> loop_frame op S C G s -> pre lc S C G s /\ rank lc = 4%nat.
Proof. intros lc op S C G s [[-> H]|[[-> ->]|[[-> ->]|[[-> ->]|[-> ->]]]]] HL; split; auto. split; auto. Qed.

Lemma rec_loop : forall lc op z S ch ps b q C G N, is_loop lc op -> fr z S ch (ps ++ [b]) -> ready op q ps -> operand b = true -> binds q b ->
  ((open_ended b = true -> stops G (dangling b) (here z)) /\ ((op = IOP_MessageName /\ yields G (here z) b) \/ tail G q (here z) b)) ->
  0 <= cprec C -> prec_greater (cprec C) q = false -> (6 * len z + 4 <= k)%nat -> (len z < N)%nat ->
  PW (run lc) (mkp z (S ++ ch) (mkctx q (length S) :: C) G) (finished S C G (fun z' _ => (len z' < N)%nat)).
Proof.
  intros lc op z S ch ps b q C G N Hl HF [[Hr1 Hr3] Hr2] Hb Bb [Ob Tb] Hc Hq Hk HN.
  assert (LF : loop_frame op S C G (mkp z (S ++ ch) (mkctx q (length S) :: C) G)).
  { exists z, ch, (ps ++ [b]), q. split; auto. split; auto. split; auto. split; [split; [apply settled_snoc; auto|apply begun_app; auto]|]. split; [split; [|exists ps, b; auto]|auto].
    intros X. rewrite last_dangling_snoc. apply Ob. rewrite lopen_app, (closed_lopen _ Hr1) in X. cbn in X. rewrite orb_false_r in X. exact X. }
  destruct (is_loop_pre lc op S C G _ Hl LF) as [Hp Hrk].
  eapply PW_conseq; [apply (IH lc S C G _ Hp)|].
  - unfold measure. rewrite Hrk. exact Hk.
  - intros [] s' (z' & n' & -> & G' & A' & O' & L' & X'). exists z', n'. cbn [tz] in L'. split; auto. do 3 (split; [assumption|]). lia.
Qed.

(** an operand and the rest of the loop *)
Lemma loop_operand : forall lc op z S ch ps q C G N u, is_loop lc op -> fr z S ch ps -> ready op q ps -> looks o (qtop G) z u -> solidk (t_kind u) = true ->
  0 <= cprec C -> prec_greater (cprec C) q = false -> 0 <= q -> (6 * len z + 4 <= k)%nat -> (len z < N)%nat ->
  PW (pbind (run (CPrefix u)) (fun _ => run lc)) (mkp z (S ++ ch) (mkctx q (length S) :: C) G) (finished S C G (fun z' _ => (len z' < N)%nat)).
Proof.
  intros lc op z S ch ps q C G N u Hl HF Hr HL Hs Hc Hq Hq0 Hk HN. apply PW_bind. eapply rec_prefix; eauto; [pose proof (rank_prefix u); lia|].
  intros z' n HF' L' On Bn [Sn Tn] _. eapply rec_loop; eauto; lia.
Qed.

(** the end of a loop *)
Lemma loop_reduce : forall op z S ch ps q C G N, fr z S ch ps -> alternate op q ps -> settled ps /\ begun ps ->
  (lopen ps = true -> stops G (last_dangling ps) (here z)) /\ lately op G q (here z) ps ->
  0 <= cprec C -> prec_greater (cprec C) q = false -> (6 * len z + 3 <= k)%nat -> (len z < N)%nat ->
  PW (pbind (reduce_op KInfix op) (fun _ => run CClimb)) (mkp z (S ++ ch) (mkctx q (length S) :: C) G) (finished S C G (fun z' _ => (len z' < N)%nat)).
Proof.
  intros op z S ch ps q C G N HF Ha [Hs Hbg] [Ho Hlt] Hc Hq Hk HN. pose proof (fr_parts _ _ _ _ HF) as P. destruct (alternate_root _ _ _ Ha) as (a & t & r & Er & Acc & Hent).
  eapply F_reduce; eauto; [eapply alternate_nonempty; eauto|eapply ok_infix; rewrite P; eauto| | |].
  - eapply (accepted_binds _ KInfix op ExpectedTilde ch a t r); eauto. congruence.
  - destruct Hbg as (a' & t' & r' & Er' & Hlf). eapply left_node; [rewrite P; exact Er'|exact Hlf|intros _; apply (fr_pairs _ _ _ _ HF)].
  - destruct Hlt as (l & b & El & [[Hm _]|Ht]); [|eapply yields_lasts; [eapply lasts_infix; [rewrite P; exact Er|rewrite P; exact El|intros _; exact Hent]|exact Ht]].
    apply yields_none. intros q' b' L. inversion L; subst; contradiction.
Qed.

Lemma prec_pos : forall p q, 0 <= p -> prec_greater p q = false -> 0 <= q.
Proof. intros p q H1 H2. apply not_greater in H2. lia. Qed.

Lemma not_eof : forall t, iprec (infix_of (t_kind t)) <> None -> t_kind t <> TK_EndOfFile.
Proof. intros t H K. rewrite K in H. apply H. reflexivity. Qed.

Lemma F_next_fake : forall z S ch ps t0 C G (Q : unit -> pst -> Prop), fr z S ch ps -> looks o (qtop G) z t0 -> pairs (ch ++ [Tok (tok_at_start TK_Fake_ImplicitTimes t0)]) ->
  (forall z', fr z' S (ch ++ [Tok (tok_at_start TK_Fake_ImplicitTimes t0)]) (ps ++ [Tok (tok_at_start TK_Fake_ImplicitTimes t0)]) -> here z' = here z ->
     Q tt (mkp z' (S ++ (ch ++ [Tok (tok_at_start TK_Fake_ImplicitTimes t0)])) C G)) ->
  PW (push_syntax_and_next dbg (tok_at_start TK_Fake_ImplicitTimes t0)) (mkp z (S ++ ch) C G) Q.
Proof.
  intros z S ch ps t0 C G Q HF HL Hn HQ. unfold push_syntax_and_next. apply PW_bind, PW_push_syntax; [reflexivity|]. rewrite <- app_assoc.
  assert (HF1 : fr z S (ch ++ [Tok (tok_at_start TK_Fake_ImplicitTimes t0)]) (ps ++ [Tok (tok_at_start TK_Fake_ImplicitTimes t0)])).
  { destruct HF as [A B P D W]. constructor; auto.
    - rewrite app_assoc. eapply (acct_inserted (qtop G)); eauto; try reflexivity. apply looks_reads; auto.
    - rewrite parts_app, P, parts_solid; auto.
    - apply Forall_app; split; auto. constructor; auto using shaped_tok.
  }
  apply (PW_skip_fake o base E (qtop G)); [apply (fr_good _ _ _ _ HF)|reflexivity|exact HL|reflexivity|discriminate|].
  intros z' G' H' L'. apply HQ; auto. eapply fr_here; eauto.
Qed.

(** ** Infix parselets *)
Definition times_token (G : list Z) (z : st) (t : token) : Prop :=
  (looks o (qtop G) z t /\ solidk (t_kind t) = true /\ infix_of (t_kind t) = IP_Times /\ (6 * len z <= k)%nat) \/
  ((exists t0, t = tok_at_start TK_Fake_ImplicitTimes t0 /\ looks o (qtop G) z t0 /\ solidk (t_kind t0) = true /\ consuming (prefix_of (t_kind t0)) = true) /\
   (6 * len z + 1 <= k)%nat).

Lemma times_token_entry : forall G z t, times_token G z t -> infix_of (t_kind t) = IP_Times.
Proof. intros G z t [(_ & _ & H & _)|[(t0 & -> & _) _]]; auto. Qed.

Lemma times_operand : forall z S ch ps t q C G N, fr z S ch ps -> times_token G z t -> pairs (ch ++ [Tok t]) -> ready IOP_Times q (ps ++ [Tok t]) ->
  0 <= cprec C -> prec_greater (cprec C) q = false -> (len z <= N)%nat ->
  PW (pbind (push_syntax_and_next dbg t) (fun _ => pbind (eat_trivia o dbg) (fun u => pbind (run (CPrefix u)) (fun _ => run CTimesLoop))))
     (mkp z (S ++ ch) (mkctx q (length S) :: C) G) (finished S C G (fun z' _ => (len z' < N)%nat)).
Proof.
  intros z S ch ps t q C G N HF Ht Hnx Hr Hc Hq HN. pose proof (prec_pos _ _ Hc Hq) as Hq0. apply PW_bind. destruct Ht as [(HL & Hs & Hi & Hk)|[(t0 & -> & HL & Hs & Hcons) Hk]].
  - eapply (F_next (qtop G)); eauto; [reflexivity|apply not_eof; rewrite Hi; discriminate|apply solidk_trivia; auto|]. intros z1 F1 _ _ L1.
    assert (L1' : (len z1 < len z)%nat) by (apply L1; eapply reads_text; [apply looks_reads; exact HL|apply not_eof; rewrite Hi; discriminate]). clear L1. apply PW_bind. eapply F_eat; eauto.
    intros u z2 ch2 F2 L2 HL2 Hs2 _ _. eapply loop_operand; eauto; try lia. right. left. auto.
  - eapply F_next_fake; eauto. intros z1 F1 H1. apply PW_bind. eapply F_eat; eauto. intros u z2 ch2 F2 L2 HL2 Hs2 _ U2.
    assert (u = t0) by (apply U2; [rewrite H1; apply looks_reads; auto|apply solidk_trivia; auto]). subst u.
    pose proof (len_here _ _ H1) as Hl1. apply PW_bind. eapply rec_prefix; eauto; [rewrite rank_consuming; auto; lia|].
    intros z3 n F3 L3 On Bn [Sn Tn] X3. specialize (X3 (or_introl Hcons)).
    eapply rec_loop; eauto; try lia. right. left. auto.
Qed.

Section Infix.
Variables (z : st) (S ch : list cst) (n : cst) (q : Z) (C : list ctx) (G : list Z) (t : token).
Hypothesis HF : fr z S ch [n].
Hypothesis Hn : operand n = true.
Hypothesis Ho : open_ended n = false.
Hypothesis Hc : 0 <= cprec C.
Hypothesis Hq : prec_greater (cprec C) q = false.
Hypothesis HL : looks o (qtop G) z t.
Hypothesis Hs : solidk (t_kind t) = true.
Hypothesis Ht : t_kind t <> TK_EndOfFile.
Hypothesis Hk : (6 * len z <= k)%nat.
Hypothesis Hacc : accepted t q.
Hypothesis Hleft : left_tok n t.

Local Notation goal m := (PW m (mkp z (S ++ ch) (mkctx q (length S) :: C) G) (finished S C G (fun z' _ => (len z' < len z)%nat))).

Lemma Hq0 : 0 <= q. Proof. exact (prec_pos _ _ Hc Hq). Qed.

Lemma binds_here : forall kd op ch' r, parts ch' = n :: Tok t :: r -> binds (cprec C) (Op kd op ch').
Proof. intros kd op ch' r P. eapply (accepted_binds _ kd op ExpectedTilde ch' n t r); eauto. Qed.
Lemma binds_err : forall e ch' r, parts ch' = n :: Tok t :: r -> binds (cprec C) (SynErr e ch').
Proof. intros e ch' r P. eapply (accepted_binds _ KInfix 0 e ch' n t r); eauto. Qed.

Lemma left_here : forall kd op ch' r, parts ch' = n :: Tok t :: r -> later_kind kd = false -> left_ok (Op kd op ch').
Proof. intros kd op ch' r P K. eapply left_node; eauto. intros X. congruence. Qed.
Lemma left_there : forall kd op z' ch' r, fr z' S ch' (n :: Tok t :: r) -> left_ok (Op kd op ch').
Proof. intros kd op z' ch' r F. eapply left_node; [apply (fr_parts _ _ _ _ F)|auto|intros _; apply (fr_pairs _ _ _ _ F)]. Qed.
Lemma left_here_err : forall e ch' r, parts ch' = n :: Tok t :: r -> left_ok (SynErr e ch').
Proof. intros e ch' r P. eapply left_err; eauto. Qed.

Lemma lopen3 : forall b, lopen [n; Tok t; b] = true -> open_ended b = true.
Proof. intros b H. cbn in H. rewrite Ho, orb_false_r in H. exact H. Qed.

Lemma infix_binary_ok : forall op, binary_entry (infix_of (t_kind t)) op q -> goal (infix_binary o dbg run op t).
Proof.
  intros op He. unfold infix_binary. apply PW_bind. eapply F_next_top; eauto. intros z1 F1 _ L1. apply PW_bind. eapply F_eat; eauto.
  intros u z2 ch2 F2 L2 HL2 Hs2 _ _. apply PW_bind. eapply rec_prefix; eauto; [apply Hq0|pose proof (rank_prefix u); lia|].
  intros z3 b F3 L3 On Bn Sn _. pose proof (fr_parts _ _ _ _ F3) as P. cbn [app] in P.
  eapply F_reduce; eauto; [discriminate| | |intros X; apply (proj1 Sn), lopen3, X|lia|lia| |].
  - eapply ok_binary; eauto.
  - eapply binds_here; eauto.
  - eapply left_here; eauto.
  - eapply yields_lasts; [eapply lasts_binary; eauto|exact (proj2 Sn)].
Qed.

Lemma infix_infix_ok : forall op, infix_of (t_kind t) = IP_InfixOperator q op -> zin op [IOP_Times; IOP_CodeParser_InternalInvalid] = false ->
  goal (infix_infix o dbg run op t).
Proof.
  intros op He Hz. unfold infix_infix. apply PW_bind. eapply F_next_top; eauto. intros z1 F1 _ L1. apply PW_bind. eapply F_eat; eauto.
  intros u z2 ch2 F2 L2 HL2 Hs2 _ _. eapply loop_operand; eauto; try lia; [left; auto| |apply Hq0].
  apply (ready_first op q n t); auto. rewrite He. split; reflexivity.
Qed.

Lemma infix_postfix_ok : forall p op, infix_of (t_kind t) = IP_PostfixOperator p op -> goal (infix_postfix dbg run op t).
Proof.
  intros p op He. unfold infix_postfix. apply PW_bind. eapply F_next_top; eauto. intros z1 F1 _ L1. pose proof (fr_parts _ _ _ _ F1) as P. cbn [app] in P.
  eapply F_reduce; eauto; [discriminate| | | |lia| |].
  - eapply ok_postfix; eauto.
  - eapply binds_here; eauto.
  - cbn. rewrite Ho. discriminate.
  - eapply left_here; eauto.
  - apply yields_op. reflexivity.
Qed.

Lemma infix_file_ok : forall op, binary_entry (infix_of (t_kind t)) op q -> op = BOP_Put \/ op = BOP_PutAppend -> goal (infix_file o dbg run op t).
Proof.
  intros op He Hop. unfold infix_file. apply PW_bind. eapply F_next_top; eauto. intros z1 F1 _ L1. apply PW_bind. eapply F_eat_file; eauto.
  intros u z2 ch2 F2 L2 HL2 Hl2 Hn2. apply PW_bind. eapply (F_leaf_next AsFile); eauto; [exact I|].
  intros z3 F3 _ L3 _. pose proof (fr_parts _ _ _ _ F3) as P. cbn [app] in P.
  eapply F_reduce; eauto; [discriminate| | | |lia|lia| |].
  - eapply ok_binary; eauto. apply binds_tok.
  - eapply binds_here; eauto.
  - intros X. apply lopen3 in X. discriminate.
  - eapply left_here; eauto.
  - apply yields_none. intros q' b L. inversion L; subst. destruct Hop; contradiction.
Qed.

Lemma infix_colon_colon_ok : infix_of (t_kind t) = IP_ColonColon -> goal (infix_colon_colon o dbg run t).
Proof.
  intros He. assert (q = PREC_COLONCOLON) by (destruct Hacc as [A|A]; rewrite He in A; [discriminate|injection A; auto]).
  unfold infix_colon_colon. apply PW_bind. eapply F_next_top; eauto. intros z1 F1 _ L1. apply PW_bind.
  apply (PW_ask o base E HE AsTag); [apply (fr_good _ _ _ _ F1)|exact I|]. intros u z2 G2 H2 _ HL2 _.
  destruct (tag_solid _ _ (looks_reads _ _ _ _ HL2)) as [K1 K2]. pose proof (len_here _ _ H2) as Hl2.
  apply PW_bind. eapply (F_leaf_next AsTag); eauto; [exact I|eapply fr_here; eauto|].
  intros z3 F3 _ L3 _. eapply (rec_loop CColonColonLoop IOP_MessageName); eauto; try lia.
  - right. right. right. right. auto.
  - apply (ready_first _ q n t); auto. rewrite He. split; auto.
  - apply binds_tok.
  - split; [discriminate|left; split; auto; apply yields_tok].
Qed.

Lemma infix_equal_ok : infix_of (t_kind t) = IP_Equal -> t_kind t = TK_Equal -> goal (infix_equal o dbg run t).
Proof.
  intros He Hkd. assert (q = PREC_EQUAL) by (destruct Hacc as [A|A]; rewrite He in A; [discriminate|injection A; auto]).
  unfold infix_equal. apply PW_bind. eapply F_next_top; eauto. intros z1 F1 _ L1. apply PW_bind. eapply F_eat; eauto.
  intros u z2 ch2 F2 L2 HL2 Hs2 _ _. destruct (t_kind u =? TK_Dot) eqn:Eu.
  - apply Z.eqb_eq in Eu. apply PW_bind. eapply F_next_top; eauto; [rewrite Eu; discriminate|]. intros z3 F3 _ L3. pose proof (fr_parts _ _ _ _ F3) as P. cbn [app] in P.
    eapply F_reduce; eauto; [discriminate| | | |lia|lia| |].
    + eapply ok_unset; eauto.
    + eapply binds_here; eauto.
    + intros X. apply lopen3 in X. discriminate.
    + eapply left_here; eauto.
    + apply yields_none. intros q' b L. inversion L as [| |op0 ch0 a0 t0 b0 q0 P0 H0 N1 N2| | |]; subst. rewrite P in P0. injection P0 as <- <- <-.
      rewrite He in H0. destruct H0 as [H0 _]. discriminate H0.
  - apply PW_bind. eapply rec_prefix; eauto; [apply Hq0|pose proof (rank_prefix u); lia|].
    intros z3 b F3 L3 On Bn Sn _. pose proof (fr_parts _ _ _ _ F3) as P. cbn [app] in P.
    eapply F_reduce; eauto; [discriminate| | |intros X; apply (proj1 Sn), lopen3, X|lia|lia| |].
    + eapply (ok_binary _ _ n t b q); eauto. rewrite He. split; auto.
    + eapply binds_here; eauto.
    + eapply left_here; eauto.
    + eapply yields_lasts; [eapply (lasts_binary _ _ n t b q); eauto; intros _ _; rewrite He; split; auto|exact (proj2 Sn)].
Qed.

Lemma stop_not : forall D kd, kd <> TK_EndOfFile -> isCloser kd = false -> stop_kind G D kd -> False.
Proof. intros D kd N1 N2 [H|[H _]]; congruence. Qed.

Lemma infix_tilde_ok : infix_of (t_kind t) = IP_Tilde -> t_kind t = TK_Tilde -> goal (infix_tilde o dbg run t).
Proof.
  intros He Hkd. assert (q = PREC_TILDE) by (destruct Hacc as [A|A]; rewrite He in A; [discriminate|injection A; auto]).
  unfold infix_tilde. apply PW_bind. apply PW_debug; [apply Z.eqb_eq; auto|]. apply PW_bind. eapply F_next_top; eauto. intros z1 F1 _ L1. apply PW_bind. eapply F_eat; eauto.
  intros u z2 ch2 F2 L2 HL2 Hs2 _ _. apply PW_bind. eapply rec_prefix; eauto; [apply Hq0|pose proof (rank_prefix u); lia|].
  intros z3 b F3 L3 On Bn Sn _. pose proof (fr_parts _ _ _ _ F3) as P. cbn [app] in P.
  apply PW_bind. apply F_current; [apply (fr_good _ _ _ _ F3)|]. intros l v z4 G4 R4 L4 St4 HL4 Hs4 Hst4. cbv beta iota.
  destruct (t_kind v =? TK_Tilde) eqn:Ev; cbn [negb].
  - apply Z.eqb_eq in Ev. assert (Ob : open_ended b = false).
    { destruct (open_ended b) eqn:Eb; auto. exfalso. specialize (Hst4 _ (proj1 Sn eq_refl)). rewrite Ev in Hst4. refine (stop_not _ TK_Tilde _ eq_refl Hst4). discriminate. }
    apply PW_bind. eapply (F_commit z3 z4); eauto; [rewrite Ev; discriminate|intros X; eapply yields_next; [exact (proj1 (proj2 Sn))|exact St4|exact X]|]. intros z5 ch5 F5 L5. apply PW_bind. eapply F_eat; eauto.
    intros w z6 ch6 F6 L6 HL6 Hs6 _ _. apply PW_bind. eapply rec_prefix; eauto; [apply Hq0|pose proof (rank_prefix w); lia|].
    intros z7 c F7 L7 Onc Bnc Snc _. pose proof (fr_parts _ _ _ _ F7) as P7. cbn [app] in P7.
    eapply F_reduce; eauto; [discriminate| | | |lia|lia| |].
    + eapply (ok_ternary _ _ n t b v c); eauto. left. rewrite Hkd, Ev. auto 6.
    + eapply binds_here; eauto.
    + cbn. rewrite Ho, Ob, orb_false_r. exact (proj1 Snc).
    + exact (left_there _ _ _ _ _ F7).
    + eapply yields_lasts; [eapply (lasts_ternary _ _ n t b v c q q); eauto; left; rewrite Hkd, Ev; auto 6|exact (proj2 Snc)].
  - apply PW_bind. eapply (F_back isTrivia z3 z4); eauto. intros z5 F5 H5 L5 _.
    eapply F_reduce_error; eauto; [discriminate| | | |lia|lia| |].
    + eapply (ok_error ExpectedTilde _ n t b); eauto.
    + eapply binds_err; eauto.
    + intros X. rewrite H5. apply (proj1 Sn), lopen3, X.
    + eapply left_here_err; eauto.
    + rewrite H5. eapply yields_lasts; [eapply lasts_error; eauto|]. cbn [error_precedence]. rewrite <- H. exact (proj2 Sn).
Qed.

Lemma infix_slash_colon_ok : infix_of (t_kind t) = IP_SlashColon -> t_kind t = TK_SlashColon -> goal (infix_slash_colon o dbg run t).
Proof.
  intros He Hkd. assert (Eq : q = PREC_SLASHCOLON) by (destruct Hacc as [A|A]; rewrite He in A; [discriminate|injection A; auto]).
  unfold infix_slash_colon. apply PW_bind. eapply F_next_top; eauto. intros z1 F1 _ L1. apply PW_bind. eapply F_eat; eauto.
  intros u z2 ch2 F2 L2 HL2 Hs2 _ _. apply PW_bind. eapply rec_prefix; eauto; [apply Hq0|pose proof (rank_prefix u); lia|].
  intros z3 b F3 L3 On Bn Sn _. pose proof (fr_parts _ _ _ _ F3) as P. cbn [app] in P. cbn [cprec c_prec] in Bn.
  apply PW_bind. apply F_current; [apply (fr_good _ _ _ _ F3)|]. intros l v z4 G4 R4 L4 St4 HL4 Hs4 Hst4. cbv beta iota.
  assert (Ob : t_kind v <> TK_EndOfFile -> isCloser (t_kind v) = false -> open_ended b = false).
  { intros N1 N2. destruct (open_ended b) eqn:Eb; auto. exfalso. exact (stop_not _ _ N1 N2 (Hst4 _ (proj1 Sn eq_refl))). }
  destruct (t_kind v =? TK_Equal) eqn:Ev.
  - apply Z.eqb_eq in Ev. rewrite Ev in Ob. specialize (Ob ltac:(discriminate) eq_refl).
    apply PW_bind, PW_set_prec. cbn [c_start]. apply PW_bind. apply (F_push_trivia isTrivia z3 z4 S _ _ (qtop G) l v _ _ _ eq_refl (fun _ H => H) F3 G4 St4).
    intros F4. apply PW_bind. eapply (F_next_late z3 z4); eauto; [rewrite Ev; discriminate|intros X; eapply yields_next; [exact (proj1 (proj2 Sn))|exact St4|exact X]|]. intros z5 F5 _ L5. apply PW_bind. eapply F_eat; eauto.
    intros w z6 ch6 F6 L6 HL6 Hs6 _ _. destruct (t_kind w =? TK_Dot) eqn:Ew.
    + apply Z.eqb_eq in Ew. apply PW_bind. eapply F_next_top; eauto; [rewrite Ew; discriminate|]. intros z7 F7 _ L7. pose proof (fr_parts _ _ _ _ F7) as P7. cbn [app] in P7.
      eapply F_reduce; eauto; [discriminate| | | |lia|lia| |].
      * eapply (ok_tag_unset _ n t b v w); eauto. rewrite <- Eq. exact Bn.
      * eapply binds_here; eauto.
      * cbn. rewrite Ho, Ob. discriminate.
      * exact (left_there _ _ _ _ _ F7).
      * apply yields_none. intros q' b' L. inversion L as [| | |op0 ch0 a0 t0 b0 u0 c0 p0 q0 P0 H0| |]; subst.
        destruct H0 as [H0|[H0|[H0|H0]]]; destruct H0 as [H0 _]; discriminate H0.
    + apply PW_bind. eapply rec_prefix; eauto; [discriminate|pose proof (rank_prefix w); lia|].
      intros z7 c F7 L7 Onc Bnc Snc _. pose proof (fr_parts _ _ _ _ F7) as P7. cbn [app] in P7.
      eapply F_reduce; eauto; [discriminate| | | |lia|lia| |].
      * eapply (ok_ternary _ _ n t b v c PREC_SLASHCOLON PREC_EQUAL); eauto; [right; right; left; auto 6|rewrite <- Eq; exact Bn].
      * eapply binds_here; eauto.
      * cbn. rewrite Ho, Ob, orb_false_r. exact (proj1 Snc).
      * exact (left_there _ _ _ _ _ F7).
      * eapply yields_lasts; [eapply (lasts_ternary _ _ n t b v c PREC_SLASHCOLON PREC_EQUAL); eauto; right; right; left; auto 6|exact (proj2 Snc)].
  - destruct (t_kind v =? TK_ColonEqual) eqn:Ev'.
    + apply Z.eqb_eq in Ev'. rewrite Ev' in Ob. specialize (Ob ltac:(discriminate) eq_refl).
      apply PW_bind, PW_set_prec. cbn [c_start]. apply PW_bind. apply (F_push_trivia isTrivia z3 z4 S _ _ (qtop G) l v _ _ _ eq_refl (fun _ H => H) F3 G4 St4).
      intros F4. apply PW_bind. eapply (F_next_late z3 z4); eauto; [rewrite Ev'; discriminate|intros X; eapply yields_next; [exact (proj1 (proj2 Sn))|exact St4|exact X]|]. intros z5 F5 _ L5. apply PW_bind. eapply F_eat; eauto.
      intros w z6 ch6 F6 L6 HL6 Hs6 _ _. apply PW_bind. eapply rec_prefix; eauto; [discriminate|pose proof (rank_prefix w); lia|].
      intros z7 c F7 L7 Onc Bnc Snc _. pose proof (fr_parts _ _ _ _ F7) as P7. cbn [app] in P7.
      eapply F_reduce; eauto; [discriminate| | | |lia|lia| |].
      * eapply (ok_ternary _ _ n t b v c PREC_SLASHCOLON PREC_COLONEQUAL); eauto; [right; right; right; auto 6|rewrite <- Eq; exact Bn].
      * eapply binds_here; eauto.
      * cbn. rewrite Ho, Ob, orb_false_r. exact (proj1 Snc).
      * exact (left_there _ _ _ _ _ F7).
      * eapply yields_lasts; [eapply (lasts_ternary _ _ n t b v c PREC_SLASHCOLON PREC_COLONEQUAL); eauto; right; right; right; auto 6|exact (proj2 Snc)].
    + apply PW_bind. eapply (F_back isTrivia z3 z4); eauto. intros z5 F5 H5 L5 _.
      eapply F_reduce_error; eauto; [discriminate| | | |lia|lia| |].
      * eapply (ok_error ExpectedSet _ n t b); eauto.
      * eapply binds_err; eauto.
      * intros X. rewrite H5. apply (proj1 Sn), lopen3, X.
      * eapply left_here_err; eauto.
      * rewrite H5. eapply yields_lasts; [eapply lasts_error; eauto|]. cbn [error_precedence]. rewrite <- Eq. exact (proj2 Sn).
Qed.

Lemma check_colon_ok : forall z' C' G' (Q : colon_lhs -> pst -> Prop), (forall lhs, Q lhs (mkp z' (S ++ ch) C' G')) ->
  PW check_colon_lhs (mkp z' (S ++ ch) C' G') Q.
Proof.
  intros z' C' G' Q HQ. unfold ParserRules.PW, check_colon_lhs. rewrite (top_node_parts z' S ch C' G' [] n (fr_parts _ _ _ _ HF)).
  destruct n as [f|h m op body|e l|kd op l|b l src|a b src]; auto.
  - cbv zeta. destruct (t_kind f =? TK_Symbol); auto. destruct (zin (t_kind f) _); auto. destruct (t_kind f =? TK_Colon) eqn:Ec; auto.
    apply Z.eqb_eq in Ec. cbn [operand] in Hn. rewrite Ec in Hn. vm_compute in Hn. discriminate.
  - destruct kd; auto.
Qed.

Lemma infix_colon_ok : infix_of (t_kind t) = IP_Colon -> t_kind t = TK_Colon -> goal (infix_colon o dbg run t).
Proof.
  intros He Hkd. unfold infix_colon. apply PW_bind. apply check_colon_ok. intros lhs. apply PW_bind. eapply F_next_top; eauto. intros z1 F1 _ L1. apply PW_bind. eapply F_eat; eauto.
  intros u z2 ch2 F2 L2 HL2 Hs2 _ _. destruct lhs; apply PW_bind, PW_set_prec; cbn [c_start]; apply PW_bind;
    (eapply rec_prefix; eauto; [discriminate|pose proof (rank_prefix u); lia|]); intros z3 b F3 L3 On Bn Sn _; pose proof (fr_parts _ _ _ _ F3) as P; cbn [app] in P.
  - eapply F_reduce; eauto; [discriminate| | |intros X; apply (proj1 Sn), lopen3, X|lia|lia| |].
    + eapply (ok_binary _ _ n t b PREC_FAKE_PATTERNCOLON); eauto. rewrite He. left. auto.
    + eapply binds_here; eauto.
    + eapply left_here; eauto.
    + eapply yields_lasts; [eapply (lasts_binary _ _ n t b PREC_FAKE_PATTERNCOLON); eauto; intros _ _; rewrite He; left; auto|exact (proj2 Sn)].
  - eapply F_reduce; eauto; [discriminate| | |intros X; apply (proj1 Sn), lopen3, X|lia|lia| |].
    + eapply (ok_binary _ _ n t b PREC_FAKE_OPTIONALCOLON); eauto. rewrite He. right. auto.
    + eapply binds_here; eauto.
    + eapply left_here; eauto.
    + eapply yields_lasts; [eapply (lasts_binary _ _ n t b PREC_FAKE_OPTIONALCOLON); eauto; intros _ _; rewrite He; right; auto|exact (proj2 Sn)].
  - eapply F_reduce_error; eauto; [discriminate| | |intros X; apply (proj1 Sn), lopen3, X|lia|lia| |].
    + eapply (ok_error ExpectedSymbol _ n t b); eauto.
    + eapply binds_err; eauto.
    + eapply left_here_err; eauto.
    + eapply yields_lasts; [eapply lasts_error; eauto|exact (proj2 Sn)].
Qed.

Lemma infix_times_ok : infix_of (t_kind t) = IP_Times -> goal (infix_times o dbg run t).
Proof.
  intros He. unfold infix_times. eapply times_operand; eauto.
  - left. auto.
  - apply pairs_next; [apply (fr_pairs _ _ _ _ HF)|rewrite (fr_parts _ _ _ _ HF); auto].
  - apply (ready_first IOP_Times q n t); auto. rewrite He. split; auto. destruct Hacc as [A|A]; rewrite He in A; [discriminate|injection A; auto].
Qed.

Lemma semi_operand_ok : forall z' ch' ps N, fr z' S ch' ps -> ready IOP_CompoundExpression q ps -> (6 * len z' + 4 <= k)%nat -> (len z' < N)%nat ->
  PW (semi_operand o dbg run) (mkp z' (S ++ ch') (mkctx q (length S) :: C) G) (finished S C G (fun z' _ => (len z' < N)%nat)).
Proof.
  clear z ch n t HF Hn Ho HL Hs Ht Hk Hacc Hleft.
  intros z' ch' ps N F Hr Hk' HN. unfold semi_operand. apply PW_bind. eapply F_eat_nl; eauto. intros u z1 ch1 F1 L1 HL1 Hs1.
  assert (IL : is_loop CSemiLoop IOP_CompoundExpression) by (right; right; right; left; auto).
  destruct (t_kind u =? TK_Semi) eqn:Eu; [|destruct (isPossibleBeginning (t_kind u)) eqn:Ep].
  - apply PW_bind. eapply (F_fake (qtop G)); eauto; try reflexivity. intros F2. eapply rec_loop; eauto; try lia; [apply binds_tok|split; [discriminate|right; apply tail_dead; reflexivity]].
  - destruct Hs1 as [Hs1|Hs1]; [|rewrite Hs1 in Ep; vm_compute in Ep; discriminate]. eapply loop_operand; eauto; try lia. apply Hq0.
  - apply PW_bind. eapply (F_fake (qtop G)); eauto; try reflexivity. intros F2. destruct Hr as [[Hr1 Hr3] Hr2].
    unfold reduce_compound. eapply loop_reduce; eauto; try lia.
    + apply Hr2; [reflexivity|apply binds_tok].
    + split; [apply settled_snoc; auto|apply begun_app; auto].
    + split; [rewrite lopen_app, (closed_lopen _ Hr1); discriminate|]. eexists _, _. split; [reflexivity|]. right. apply tail_dead. reflexivity.
Qed.

Lemma infix_semi_ok : infix_of (t_kind t) = IP_Semi -> goal (infix_semi o dbg run t).
Proof.
  intros He. unfold infix_semi. apply PW_bind. eapply F_next_top; eauto. intros z1 F1 _ L1. eapply semi_operand_ok; eauto; try lia.
  apply (ready_first IOP_CompoundExpression q n t); auto. rewrite He. split; auto. destruct Hacc as [A|A]; rewrite He in A; [discriminate|injection A; auto].
Qed.

Lemma comma_operand_ok : forall z' ch' ps N, fr z' S ch' ps -> ready IOP_CodeParser_Comma q ps -> (6 * len z' + 4 <= k)%nat -> (len z' < N)%nat ->
  PW (pbind (comma_operand o dbg run) (fun _ => run CCommaLoop)) (mkp z' (S ++ ch') (mkctx q (length S) :: C) G) (finished S C G (fun z' _ => (len z' < N)%nat)).
Proof.
  clear z ch n t HF Hn Ho HL Hs Ht Hk Hacc Hleft.
  intros z' ch' ps N F Hr Hk' HN. apply PW_bind. unfold comma_operand. apply PW_bind. eapply F_eat; eauto. intros u z1 ch1 F1 L1 HL1 Hs1 _ _.
  assert (IL : is_loop CCommaLoop IOP_CodeParser_Comma) by (right; right; left; auto).
  destruct (is_comma (t_kind u)) eqn:Eu.
  - eapply (F_fake (qtop G)); eauto; try reflexivity. intros F2. eapply rec_loop; eauto; try lia; [apply binds_tok|split; [discriminate|right; apply tail_dead; reflexivity]].
  - assert (H : PW (pbind (run (CPrefix u)) (fun _ => run CCommaLoop)) (mkp z1 (S ++ ch1) (mkctx q (length S) :: C) G) (finished S C G (fun z' _ => (len z' < N)%nat))).
    { eapply loop_operand; eauto; try lia. apply Hq0. }
    unfold ParserRules.PW in H |- *. unfold pbind in H. destruct (run (CPrefix u) _) as [[a s1]| |]; auto.
Qed.

Lemma infix_comma_ok : infix_of (t_kind t) = IP_Comma -> is_comma (t_kind t) = true -> goal (infix_comma o dbg run t).
Proof.
  intros He Hi. unfold infix_comma. apply PW_bind. apply PW_debug_or.
  - intros Ec Ed. apply (Hcomma Ed z (isg G) t); [apply (fr_good _ _ _ _ HF)|apply looks_reads; exact HL|].
    unfold is_comma in Hi. rewrite Ec in Hi. apply Z.eqb_eq. exact Hi.
  - apply PW_bind. eapply F_next_top; eauto. intros z1 F1 _ L1. eapply comma_operand_ok; eauto; try lia.
    apply (ready_first IOP_CodeParser_Comma q n t); auto. rewrite He. split; auto. destruct Hacc as [A|A]; rewrite He in A; [discriminate|injection A; auto].
Qed.

End Infix.

Lemma binds_none : forall p n, root_precedence n = None -> binds p n.
Proof. intros p n H q Hq. congruence. Qed.

(** ** Spans *)
Section Span.
Variables (z0 : st) (S : list cst) (n : cst) (C : list ctx) (G : list Z) (t : token).
Hypothesis Hn : operand n = true.
Hypothesis Ho : open_ended n = false.
Hypothesis Hc : 0 <= cprec C.
Hypothesis Hkd : t_kind t = TK_SemiSemi.
Hypothesis Hb : forall kd op ch' r, parts ch' = n :: Tok t :: r -> binds (cprec C) (Op kd op ch').
Hypothesis Hleft : left_tok n t.

Local Notation goal z ch m := (PW m (mkp z (S ++ ch) (mkctx PREC_SEMISEMI (length S) :: C) G) (finished S C G (fun z' _ => (len z' < len z0)%nat))).

Lemma span_binary_ok : forall z ch b, fr z S ch [n; Tok t; b] -> operand b = true -> binds PREC_SEMISEMI b -> (open_ended b = true -> stops G (dangling b) (here z)) /\ tail G PREC_SEMISEMI (here z) b ->
  (6 * len z + 3 <= k)%nat -> (len z < len z0)%nat -> goal z ch (span_binary run).
Proof.
  intros z ch b F Ob Bb Sb Hk HN. unfold span_binary. pose proof (fr_parts _ _ _ _ F) as P. eapply F_reduce; eauto; [discriminate| | | |].
  - eapply (ok_binary _ _ n t b PREC_SEMISEMI); eauto. rewrite Hkd. split; reflexivity.
  - cbn. rewrite Ho, orb_false_r. exact (proj1 Sb).
  - eapply left_node; eauto. intros _. apply (fr_pairs _ _ _ _ F).
  - eapply yields_lasts; [eapply (lasts_binary _ _ n t b PREC_SEMISEMI); eauto; intros _ _; rewrite Hkd; split; reflexivity|exact (proj2 Sb)].
Qed.
Lemma span_ternary_ok : forall z ch b u c, fr z S ch [n; Tok t; b; Tok u; c] -> operand b = true -> binds PREC_SEMISEMI b -> open_ended b = false ->
  t_kind u = TK_SemiSemi -> operand c = true -> binds PREC_SEMISEMI c -> (open_ended c = true -> stops G (dangling c) (here z)) /\ tail G PREC_SEMISEMI (here z) c ->
  (6 * len z + 3 <= k)%nat -> (len z < len z0)%nat -> goal z ch (span_ternary run).
Proof.
  intros z ch b u c F Ob Bb Cb Hu Oc Bc Sc Hk HN. unfold span_ternary. pose proof (fr_parts _ _ _ _ F) as P. eapply F_reduce; eauto; [discriminate| | | |].
  - eapply (ok_ternary _ _ n t b u c PREC_SEMISEMI PREC_SEMISEMI); eauto. right. left. auto 6.
  - cbn. rewrite Ho, Cb, orb_false_r. exact (proj1 Sc).
  - eapply left_node; eauto. intros _. apply (fr_pairs _ _ _ _ F).
  - eapply yields_lasts; [eapply (lasts_ternary _ _ n t b u c PREC_SEMISEMI PREC_SEMISEMI); eauto; right; left; auto 6|exact (proj2 Sc)].
Qed.

Lemma beginning_solid : forall u, isPossibleBeginning (t_kind u) = true -> solidk (t_kind u) = true \/ t_kind u = TK_ToplevelNewline -> solidk (t_kind u) = true.
Proof. intros u Ep [H|H]; auto. rewrite H in Ep. vm_compute in Ep. discriminate. Qed.

Lemma span_parse2_ok : forall z ch b, fr z S ch [n; Tok t; b] -> operand b = true -> binds PREC_SEMISEMI b -> (open_ended b = true -> stops G (dangling b) (here z)) /\ tail G PREC_SEMISEMI (here z) b ->
  (6 * len z + 4 <= k)%nat -> (len z < len z0)%nat -> goal z ch (span_parse2 o dbg run).
Proof.
  intros z ch b F Ob Bb Sb Hk HN. pose proof (fr_good _ _ _ _ F) as Hg. unfold span_parse2. apply PW_bind. apply F_current_nl; auto.
  intros l3 t3 z1 G1 R1 L1 St1 HL1 Hs1 Hst1. cbv beta iota. destruct (negb (isPossibleBeginning (t_kind t3)) || negb (t_kind t3 =? TK_SemiSemi)) eqn:E3.
  - apply PW_bind. eapply (F_back isTriviaButNotToplevelNewline z z1); eauto. intros z2 F2 H2 L2 _. eapply span_binary_ok; eauto; try lia. rewrite H2. auto.
  - apply orb_false_iff in E3 as [E3 E4]. rewrite negb_false_iff in E3, E4. apply Z.eqb_eq in E4. pose proof (beginning_solid _ E3 Hs1) as Hs3.
    assert (Cb : open_ended b = false).
    { destruct (open_ended b) eqn:Eb; auto. exfalso. rewrite E4 in Hst1. destruct (Hst1 _ (proj1 Sb eq_refl)) as [[X|[X _]]|X]; vm_compute in X; discriminate X. }
    assert (N3 : t_kind t3 <> TK_EndOfFile) by (rewrite E4; discriminate).
    apply PW_bind. apply (PW_skip o base E (qtop G) z1 t3); auto; [reflexivity|]. intros z2 G2 H2 R2 L2 S2.
    apply PW_bind. apply F_current_nl; auto. intros l4 t4 z3 G3 R3 L3 St3 HL3 Hs4 _. cbv beta iota.
    destruct (negb (isPossibleBeginning (t_kind t4)) || (t_kind t4 =? TK_SemiSemi)) eqn:E5.
    + apply PW_bind. apply (PW_trivia_reset o base E (qtop G) isTriviaButNotToplevelNewline z2 z3 l4 t4); auto; [reflexivity|]. intros z4 G4 H4 Lg4.
      assert (R14 : R o z1 z4) by (eapply (R_here z1 z2 z3); eauto).
      destruct (tok_start o (qtop G) _ t3 eq_refl (looks_reads _ _ _ _ HL1)) as [T1 T2].
      apply PW_bind. apply (PW_reset o base E z1 z4); auto. intros z5 G5 H5 Lg5.
      assert (R05 : R o z z5) by (eapply (R_here z z1 z4); eauto).
      apply PW_bind. eapply (F_back isTriviaButNotToplevelNewline z z5); eauto; [rewrite H5; exact St1|]. intros z6 F6 H6 L6 _.
      eapply span_binary_ok; eauto; try lia. rewrite H6, Cb. split; [discriminate|exact (proj2 Sb)].
    + apply orb_false_iff in E5 as [E5 _]. rewrite negb_false_iff in E5. pose proof (beginning_solid _ E5 Hs4) as Hs5.
      assert (F1 : fr z1 S (ch ++ map Tok l3) [n; Tok t; b]) by (eapply (fr_trivia isTriviaButNotToplevelNewline z z1 S ch _ (qtop G)); eauto; [reflexivity|apply triv_newline]).
      assert (F2 : fr z2 S ((ch ++ map Tok l3) ++ [Tok t3]) ([n; Tok t; b] ++ [Tok t3])) by (eapply (fr_next (qtop G) z1 z2); eauto; [reflexivity|apply solidk_trivia; auto|apply pairs_next; [apply (fr_pairs _ _ _ _ F1)|rewrite (fr_parts _ _ _ _ F1)]; apply (next_snoc [n; Tok t] b); eapply yields_left; [exact (proj1 (proj2 Sb))|exact St1]]).
      assert (F3 : fr z3 S (((ch ++ map Tok l3) ++ [Tok t3]) ++ map Tok l4) ([n; Tok t; b] ++ [Tok t3])) by (eapply (fr_trivia isTriviaButNotToplevelNewline z2 z3 S _ _ (qtop G)); eauto; [reflexivity|apply triv_newline]).
      apply PW_bind, PW_push_trivia, PW_bind, PW_push_syntax; [apply solidk_trivia; auto|]. apply PW_bind, PW_push_trivia. rewrite <- !app_assoc in *.
      apply PW_bind. eapply rec_prefix; eauto; [discriminate|pose proof (rank_prefix t4); lia|]. intros z4 c F4 L4 Oc Bc Sc _.
      eapply (span_ternary_ok z4 _ b t3 c); eauto; lia.
Qed.

Lemma span_parse1_ok : forall z ch, fr z S ch [n; Tok t] -> (6 * len z + 4 <= k)%nat -> (len z < len z0)%nat -> goal z ch (span_parse1 o dbg run).
Proof.
  intros z ch F Hk HN. unfold span_parse1. apply PW_bind. eapply F_eat_nl; eauto. intros t2 z2 ch2 F2 L2 HL2 Hs2.
  destruct (negb (isPossibleBeginning (t_kind t2))) eqn:E2; [|destruct (negb (t_kind t2 =? TK_SemiSemi)) eqn:E3].
  - apply PW_bind. eapply (F_fake (qtop G)); eauto; try reflexivity. intros F3. apply (span_binary_ok z2 _ _ F3); [reflexivity|apply binds_tok|split; [discriminate|apply tail_dead; reflexivity]|lia|lia].
  - rewrite negb_false_iff in E2. pose proof (beginning_solid _ E2 Hs2) as Hs3. apply PW_bind. eapply rec_prefix; eauto; [discriminate|pose proof (rank_prefix t2); lia|].
    intros z3 b F3 L3 Ob Bb Sb _. apply (span_parse2_ok z3 _ b F3 Ob Bb Sb); lia.
  - rewrite negb_false_iff in E2, E3. pose proof (beginning_solid _ E2 Hs2) as Hs3. apply Z.eqb_eq in E3.
    assert (N2 : t_kind t2 <> TK_EndOfFile) by (rewrite E3; discriminate).
    apply PW_bind. eapply (F_fake (qtop G)); eauto; try reflexivity. intros F3. pose proof (fr_good _ _ _ _ F3) as G3.
    apply PW_bind. apply (PW_skip o base E (qtop G) z2 t2); auto; [reflexivity|]. intros z4 G4 H4 R4 L4 S4.
    apply PW_bind. apply F_current_nl; auto. intros l4 t3 z5 G5 R5 L5 St5 HL5 Hs5 _. cbv beta iota.
    destruct (negb (isPossibleBeginning (t_kind t3)) || (t_kind t3 =? TK_SemiSemi)) eqn:E5.
    + apply PW_bind. apply (PW_trivia_reset o base E (qtop G) isTriviaButNotToplevelNewline z4 z5 l4 t3); auto; [reflexivity|]. intros z6 G6 H6 Lg6.
      assert (R26 : R o z2 z6) by (eapply (R_here z2 z4 z5); eauto).
      destruct (tok_start o (qtop G) _ t2 eq_refl (looks_reads _ _ _ _ HL2)) as [T1 T2].
      apply PW_bind. apply (PW_reset o base E z2 z6); auto. intros z7 G7 H7 Lg7. pose proof (len_here _ _ H7) as L7.
      apply (span_binary_ok z7 _ _ (fr_here _ _ _ _ _ F3 G7 H7)); [reflexivity|apply binds_tok|split; [discriminate|apply tail_dead; reflexivity]|lia|lia].
    + apply orb_false_iff in E5 as [E5 _]. rewrite negb_false_iff in E5. pose proof (beginning_solid _ E5 Hs5) as Hs6.
      pose proof (fr_next (qtop G) z2 z4 S _ _ t2 eq_refl F3 HL2 N2 (solidk_trivia _ Hs3) (pairs_next _ _ (fr_pairs _ _ _ _ F3) (eq_ind_r (fun x => next_ok x t2) (next_tok _ _ _) (fr_parts _ _ _ _ F3))) G4 H4) as F4.
      pose proof (fr_trivia isTriviaButNotToplevelNewline z4 z5 S _ _ (qtop G) l4 t3 eq_refl triv_newline F4 G5 St5) as F5.
      apply PW_bind, PW_push_syntax; [apply solidk_trivia; auto|]. apply PW_bind, PW_push_trivia. rewrite <- !app_assoc in *.
      apply PW_bind. eapply rec_prefix; eauto; [discriminate|pose proof (rank_prefix t3); lia|]. intros z6 c F6 L6 Oc Bc Sc _.
      eapply (span_ternary_ok z6 _ (Tok (tok_at_start TK_Fake_ImplicitAll t2)) t2 c F6); try assumption; try lia; [reflexivity|apply binds_tok|reflexivity].
Qed.

Lemma infix_span_ok : forall ch, fr z0 S ch [n] -> looks o (qtop G) z0 t -> (6 * len z0 <= k)%nat -> goal z0 ch (infix_span o dbg run t).
Proof.
  intros ch F HL Hk. unfold infix_span. apply PW_bind. eapply F_next_top; eauto; [rewrite Hkd; reflexivity|rewrite Hkd; discriminate|]. intros z1 F1 _ L1.
  eapply span_parse1_ok; eauto; lia.
Qed.
End Span.

(** ** Groups *)
Lemma stops_eof : forall G D z t g, looks o (AsToken g TOPLEVEL) z t -> t_kind t = TK_EndOfFile -> stops G D (here z).
Proof.
  intros G D z t g HL Ek l u p' St. pose proof (looks_reads _ _ _ _ HL) as Hr. apply (proj1 (reads_eof o g _ t Hr)) in Ek.
  left. destruct St as [p u Hu Tu|p u l v p' Hu Tu St]; [apply (proj2 (reads_eof o (isg G) _ u Hu)); exact Ek|].
  apply (proj2 (reads_eof o (isg G) _ u Hu)) in Ek. rewrite Ek in Tu. vm_compute in Tu. discriminate.
Qed.

Lemma group_loop_ok : forall z t mid ps op closer S C G, fr z (S ++ [Tok t]) mid ps ->
  opens op t -> GroupOpenerToCloser (t_kind t) = Ok closer -> isCloser closer = true -> isTrivia (t_kind t) = false ->
  Forall (fun n => operand n = true) ps -> settled ps -> (lopen ps = true -> stops (closer :: G) (last_dangling ps) (here z)) -> 0 <= cprec C -> (6 * len z + 4 <= k)%nat ->
  PW (group_loop o dbg repair run op closer) (mkp z ((S ++ [Tok t]) ++ mid) (mkctx 0 (length S) :: C) (closer :: G))
     (finished S C G (fun z' n => (len z' <= len z)%nat /\ (cprec C = PREC_HIGHEST -> exists ch, n = Op KGroup op ch \/ n = Op KGroupMissingCloser op ch))).
Proof.
  intros z t mid ps op closer S C G F Hop Hcl Hisc Htt Hops Hset Hstop Hc Hk. pose proof (fr_good _ _ _ _ F) as Hg.
  unfold group_loop. apply PW_bind. apply F_current; auto. intros l u z1 G1 R1 L1 St1 HL1 Hs1 Hst1. cbv beta iota.
  assert (Hdang : t_kind u <> TK_EndOfFile -> ~ In (TokenToCloser (t_kind u)) (last_dangling ps)).
  { intros Nu. destruct (lopen ps) eqn:El; [destruct (Hst1 _ (Hstop eq_refl)) as [X|(_ & _ & X)]; [contradiction|exact X]|].
    rewrite (closed_dangling _ (lopen_closed _ El)). intros []. }
  destruct (TokenToCloser (t_kind u) =? closer) eqn:Ecl; [|destruct (isCloser (t_kind u)) eqn:Ecu].
  - (* the closer *)
    apply Z.eqb_eq in Ecl. assert (Nu : t_kind u <> TK_EndOfFile).
    { intros X. rewrite X in Ecl. assert (closer = -1) by (rewrite <- Ecl; reflexivity). subst closer. rewrite H in Hisc. vm_compute in Hisc. discriminate. }
    apply PW_bind. eapply (F_commit z z1); eauto; [intros _; apply next_quiet, closer_quiet; rewrite Ecl; exact Hisc|]. intros z2 ch2 F2 L2. apply PW_bind. unfold reduce_group.
    replace ((S ++ [Tok t]) ++ (ch2 ++ [Tok u])) with (S ++ (Tok t :: ch2 ++ [Tok u])) by (rewrite <- app_assoc; reflexivity).
    apply PW_reduce_group; [discriminate|]. destruct F2 as [A B P D W].
    assert (P2 : parts ch2 = ps).
    { rewrite parts_app, parts_solid in P by (apply solidk_trivia; auto). apply app_inj_tail in P as [P _]. exact P. }
    assert (CG : closed_group op (Tok t :: ch2 ++ [Tok u])).
    { exists t, ch2, u. split; auto. split; auto. split; [unfold closes; congruence|]. rewrite P2. auto. }
    assert (A2 : acct z2 (S ++ [Op KGroup op (Tok t :: ch2 ++ [Tok u])])).
    { apply acct_op. rewrite <- app_assoc in B. exact B. }
    eapply PW_conseq; [apply (IH CClimb S C G)|].
    + exists z2, (Op KGroup op (Tok t :: ch2 ++ [Tok u])). split; auto. split; auto. split; auto. split; auto.
      split; [reflexivity|]. split; [apply shaped_node; [constructor; auto|apply left_other; reflexivity|cbn [children]; constructor; auto using shaped_tok]|]. split; [apply binds_none; reflexivity|].
      split; [discriminate|apply yields_op; reflexivity].
    + unfold measure. cbn [tz rank]. lia.
    + intros [] s' (z' & n' & -> & G' & A' & O' & L' & X'). exists z', n'. cbn [tz stack extra] in L', X'. destruct X' as [X1 _].
      split; auto. do 3 (split; [assumption|]). split; [lia|]. intros Hh. specialize (X1 Hh). apply app_inj_tail in X1 as [_ <-]. eauto.
  - destruct (check_group (TokenToCloser (t_kind u)) (mkp z1 ((S ++ [Tok t]) ++ mid) (mkctx 0 (length S) :: C) (closer :: G))) eqn:Ech.
    + (* a closer of an enclosing group *)
      unfold ParserRules.PW. rewrite Ech. fold (ParserRules.PW E (A := unit)).
      match goal with |- match ?m ?s with _ => _ end => change (PW m s (finished S C G (fun z' n => (len z' <= len z)%nat /\ (cprec C = PREC_HIGHEST -> exists ch, n = Op KGroup op ch \/ n = Op KGroupMissingCloser op ch)))) end.
      apply PW_bind. eapply (F_back isTrivia z z1); eauto. intros z2 F2 H2 L2 _. unfold reduce_group_missing_closer.
      replace ((S ++ [Tok t]) ++ mid) with (S ++ (Tok t :: mid)) by (rewrite <- app_assoc; reflexivity).
      apply PW_reduce_group; [discriminate|]. destruct F2 as [A B P D W].
      unfold check_group in Ech. cbn [groups existsb] in Ech. rewrite Ecl in Ech. cbn [orb] in Ech. apply existsb_exists in Ech as (c & Hin & Ec). apply Z.eqb_eq in Ec. subst c.
      assert (SG : stops G (dangling (Op KGroupMissingCloser op (Tok t :: mid))) (here z2)).
      { rewrite H2. intros l' u' p' St'. assert (Q : qtop G = qtop (closer :: G)) by (destruct G; [contradiction|reflexivity]). rewrite Q in St'.
        destruct (strip_det o (qtop (closer :: G)) isTrivia _ _ _ _ eq_refl St1 _ _ _ St') as (_ & <- & _). right. split; auto. split; auto.
        rewrite dangling_missing, P. unfold closer_of. rewrite Hcl. cbn [app]. intros [X|X]; [apply Z.eqb_neq in Ecl; auto|].
        apply Hdang; auto. intros K. rewrite K in Ecu. vm_compute in Ecu. discriminate. }
      exists z2, (Op KGroupMissingCloser op (Tok t :: mid)). split; auto. split; auto. split.
      { apply acct_op. rewrite <- app_assoc in B. exact B. }
      split; [|split; [lia|eauto]]. split; [|eapply stops_held; eauto]. split; [reflexivity|]. split; [|split; [apply binds_none; reflexivity|split; [auto|apply yields_op; reflexivity]]].
      apply shaped_node; [constructor; exists t, mid; rewrite P; auto|apply left_other; reflexivity|cbn [children]; constructor; auto using shaped_tok].
    + (* a closer of nothing *)
      unfold ParserRules.PW. rewrite Ech. 
      match goal with |- match ?m ?s with _ => _ end => change (PW m s (finished S C G (fun z' n => (len z' <= len z)%nat /\ (cprec C = PREC_HIGHEST -> exists ch, n = Op KGroup op ch \/ n = Op KGroupMissingCloser op ch)))) end.
      assert (Nu : t_kind u <> TK_EndOfFile) by (intros X; rewrite X in Ecu; vm_compute in Ecu; discriminate).
      assert (Lo : lopen ps = false).
      { destruct (lopen ps) eqn:El; auto. exfalso. destruct (Hst1 _ (Hstop eq_refl)) as [X|(_ & X & _)]; [contradiction|].
        unfold check_group in Ech. cbn [groups] in Ech. assert (existsb (Z.eqb (TokenToCloser (t_kind u))) (closer :: G) = true) by (apply existsb_exists; eexists; split; [exact X|apply Z.eqb_refl]). congruence. }
      apply PW_bind. apply (F_push_trivia isTrivia z z1 _ mid ps (qtop (closer :: G)) l u); auto; [reflexivity|]. intros F1. apply PW_bind. unfold prefix_toplevel_closer.
      apply PW_bind, PW_assert; auto. apply PW_bind. apply PW_push_leaf; [reflexivity|]. rewrite <- app_assoc.
      apply (PW_skip o base E (qtop (closer :: G)) z1 u); auto; [reflexivity|]. intros z2 G2 H2 R2 L2 S2.
      assert (T2 : (len z2 < len z1)%nat) by (apply S2; eapply reads_text; eauto; apply looks_reads; exact HL1).
      eapply PW_conseq; [apply (IH (CGroupLoop op closer) S C G)|].
      * exists z2, t, ((mid ++ map Tok l) ++ [Tok (tok_at TK_Error_UnexpectedCloser u)]), (ps ++ [Tok (tok_at TK_Error_UnexpectedCloser u)]). split; auto. split.
        { destruct F1 as [A B P D W]. constructor; auto.
          - rewrite app_assoc. eapply (acct_told (qtop (closer :: G)) z1 z2 u); eauto; [reflexivity|apply looks_reads; exact HL1|right; left; auto].
          - rewrite parts_app, P, parts_solid; auto.
          - apply Forall_app; split; auto. constructor; auto using shaped_tok.
          - apply pairs_operand; auto. }
        do 4 (split; [assumption|]). split; [apply Forall_app; split; auto; constructor; auto|]. split; [apply settled_snoc, lopen_closed; auto|].
        split; [|assumption]. rewrite lopen_app, Lo. discriminate.
      * unfold measure. cbn [tz rank]. lia.
      * intros [] s' (z' & n' & -> & G' & A' & O' & L' & X'). exists z', n'. cbn [tz] in L'. split; auto. do 3 (split; [assumption|]). split; [lia|exact X'].
  - (* an element or the end of the input *)
    apply PW_bind. apply (F_push_trivia isTrivia z z1 _ mid ps (qtop (closer :: G)) l u); auto; [reflexivity|]. intros F1.
    destruct (t_kind u =? TK_EndOfFile) eqn:Eu.
    + apply Z.eqb_eq in Eu. destruct F1 as [A B P D W].
      replace ((S ++ [Tok t]) ++ mid ++ map Tok l) with (S ++ (Tok t :: mid ++ map Tok l)) in * by (rewrite <- app_assoc; reflexivity).
      assert (UG : unclosed_group op (Tok t :: mid ++ map Tok l)) by (exists t, (mid ++ map Tok l); rewrite P; auto).
      assert (SD : Forall shaped (Tok t :: mid ++ map Tok l)) by (constructor; auto using shaped_tok).
      destruct (Hrep op _ UG SD (acct_placed _ _ _ B)) as [HP HO].
      unfold ParserRules.PW, reduce_unterminated_group, pbind, pop_context, pop_group. cbn [ctxs tz stack groups c_start]. rewrite not_short, skipn_len, firstn_len.
      unfold plift. destruct (repair op (Tok t :: mid ++ map Tok l)) as [ch'| |] eqn:Er; [|auto|contradiction].
      exists z1, (Op KGroupMissingCloser op ch'). split; [reflexivity|]. split; auto. split.
      { eapply acct_repaired; eauto. }
      split; [|split; [lia|eauto]]. split; [|eapply (stops_held _ []); [eapply stops_eof; eauto|auto]]. split; [reflexivity|]. split; [eapply shaped_repaired; eauto|].
      split; [apply binds_none; reflexivity|]. split; [|apply yields_op; reflexivity]. intros _. eapply stops_eof; eauto.
    + apply Z.eqb_neq in Eu. assert (Lo : lopen ps = false).
      { destruct (lopen ps) eqn:El; auto. exfalso. destruct (Hst1 _ (Hstop eq_refl)) as [X|(X & _)]; [contradiction|congruence]. }
      apply PW_bind. eapply rec_prefix; eauto; [discriminate|pose proof (rank_prefix u); lia|]. intros z2 b F2 L2 Ob Bb Sb X2.
      assert (T2 : (len z2 < len z1)%nat) by (apply X2; right; auto).
      eapply PW_conseq; [apply (IH (CGroupLoop op closer) S C G)|].
      * exists z2, t, ((mid ++ map Tok l) ++ [b]), (ps ++ [b]). split; auto. split; auto.
        do 4 (split; [assumption|]). split; [apply Forall_app; split; auto|]. split; [apply settled_snoc, lopen_closed; auto|].
        split; [|assumption]. rewrite last_dangling_snoc, lopen_app, Lo. cbn [lopen existsb orb]. rewrite orb_false_r. exact (proj1 Sb).
      * unfold measure. cbn [tz rank]. lia.
      * intros [] s' (z' & n' & -> & G' & A' & O' & L' & X'). exists z', n'. cbn [tz] in L'. split; auto. do 3 (split; [assumption|]). split; [lia|exact X'].
Qed.

Lemma group_facts : forall t opener op, solidk (t_kind t) = true -> prefix_of (t_kind t) = PP_Group opener op ->
  exists c, GroupOpenerToCloser opener = Ok c /\ GroupOpenerToCloser (t_kind t) = Ok c /\ isCloser c = true /\ t_kind t <> TK_EndOfFile.
Proof.
  intros t opener op Hs Hp. pose proof (solidk_prefix _ Hs) as F. unfold prefix_facts in F. rewrite Hp in F.
  pose proof (solidk_forall _ opener_closer_b _ Hs) as B. cbn beta in B. rewrite Hp in B.
  destruct (GroupOpenerToCloser (t_kind t)) as [c| |]; try discriminate. apply andb_true_iff in F as [F _]. apply andb_true_iff in B as [B _]. exists c.
  unfold res_eqb in F. destruct (GroupOpenerToCloser opener) as [c'| |]; try discriminate. apply Z.eqb_eq in F. subst c'. split; auto. split; auto. split; auto.
  intros X. rewrite X in Hp. vm_compute in Hp. discriminate.
Qed.

Lemma prefix_group_ok : forall opener op t z S C G, good z -> acct z S -> looks o (qtop G) z t -> solidk (t_kind t) = true ->
  prefix_of (t_kind t) = PP_Group opener op -> 0 <= cprec C -> (6 * len z <= k)%nat ->
  PW (prefix_group dbg run opener op t) (mkp z S C G)
    (finished S C G (fun z' n => (len z' < len z)%nat /\ (cprec C = PREC_HIGHEST -> exists ch, n = Op KGroup op ch \/ n = Op KGroupMissingCloser op ch))).
Proof.
  intros opener op t z S C G Hg Ha HL Hs Hp Hc Hk. destruct (group_facts t opener op Hs Hp) as (c & Hc1 & Hc2 & Hc3 & Nt).
  unfold prefix_group. apply PW_bind. eapply PW_lift; [exact Hc1|]. apply PW_bind. eapply PW_lift; [exact Hc2|]. apply PW_bind, PW_push_group. apply PW_bind.
  assert (F0 : fr z S [] []) by (constructor; auto; rewrite app_nil_r; auto). replace S with (S ++ []) at 1 by apply app_nil_r.
  eapply (F_next_top G); eauto. intros z1 F1 _ L1. cbn [app] in *. apply PW_bind, PW_push_context.
  eapply PW_conseq; [apply (IH (CGroupLoop op c) S C G)|].
  - exists z1, t, [], []. rewrite app_nil_r. split; auto. split.
    { constructor; [apply (fr_good _ _ _ _ F1)| |reflexivity|constructor|auto]. rewrite app_nil_r. apply (fr_acct _ _ _ _ F1). }
    split; [exists opener; auto|]. do 2 (split; [assumption|]). split; [apply solidk_trivia; auto|]. split; [constructor|]. split; [apply settled_nil|]. split; [discriminate|auto].
  - unfold measure. cbn [tz rank]. lia.
  - intros [] s' (z' & n' & -> & G' & A' & O' & L' & X'). exists z', n'. cbn [tz] in L'. split; auto. do 3 (split; [assumption|]). split; [lia|exact X'].
Qed.

Lemma shaped_call : forall l h op op' ch (m : bool), left_ok (Call (Concrete l) m op' ch) -> parts l = [h] -> operand h = true -> open_ended h = false -> Forall shaped l ->
  try_to_call_operator op = Ok op' -> shaped (Op (if m then KGroupMissingCloser else KGroup) op ch) -> shaped (Call (Concrete l) m op' ch).
Proof.
  intros l h op op' ch m H0 H1 H2 H3 H4 H5 H6. inversion H6 as [n Hok Hlf Hch| |]; subst.
  - cbn [children] in Hch. apply shaped_node; [|exact H0|cbn [children]; apply Forall_app; auto].
    destruct m; inversion Hok; subst; [eapply ok_call_missing_closer|eapply ok_call]; eauto.
  - destruct m; [|discriminate]. eapply shaped_repaired_call; eauto.
Qed.

Lemma infix_call_ok : forall z S ch n q C G t opener op, fr z S ch [n] -> operand n = true -> open_ended n = false -> 0 <= cprec C ->
  prec_greater (cprec C) q = false -> looks o (qtop G) z t -> solidk (t_kind t) = true -> accepted t q -> left_tok n t -> infix_of (t_kind t) = IP_Call opener op -> (6 * len z <= k)%nat ->
  PW (infix_call dbg run opener op t) (mkp z (S ++ ch) (mkctx q (length S) :: C) G) (finished S C G (fun z' _ => (len z' < len z)%nat)).
Proof.
  intros z S ch n q C G t opener op F Hn Ho Hc Hq HL Hs Hacc Hleft He Hk. pose proof (solidk_infix _ Hs) as If. unfold infix_facts in If. rewrite He in If.
  apply andb_true_iff in If as [If _]. apply andb_true_iff in If as [If1 If2]. destruct (prefix_of (t_kind t)) as [| | | | | | |pp0 po0|opener' op'| | |i1 i2| | | | |u1 u2|] eqn:Ep; try discriminate.
  apply andb_true_iff in If1 as [E1 E2]. apply Z.eqb_eq in E1, E2. subst opener' op'. destruct (try_to_call_operator op) as [cop| |] eqn:Ec; try discriminate. clear If2.
  assert (Eq : q = PREC_CALL) by (destruct Hacc as [A|A]; rewrite He in A; [discriminate|injection A; auto]).
  destruct F as [A B P D W]. unfold infix_call. apply PW_bind, PW_set_prec. cbn [c_start]. apply PW_bind.
  eapply PW_conseq; [eapply prefix_group_ok; eauto; discriminate|]. intros [] s' (z1 & b & -> & G1 & A1 & ((O1 & O2 & O3 & O4 & _) & _) & L1 & X1).
  destruct (X1 eq_refl) as (chb & Hb). rewrite <- app_assoc in A1.
  assert (HB : forall m : bool, b = Op (if m then KGroupMissingCloser else KGroup) op chb -> (m = true -> stops G (dangling b) (here z1)) ->
    PW (fun s => (passert true ;; push_node (Call (Concrete ch) m cop chb) ;; run CClimb)%parser s) (mkp z1 S C G) (finished S C G (fun z' _ => (len z' < len z)%nat))).
  { intros m Em Hm. apply PW_bind, PW_ret, PW_bind, PW_push_node. apply rec_climb; auto; [|split; [reflexivity|split; [|split; [|split; [|apply yields_call]]]]|lia].
    - eapply acct_call; [|exact Ec]. subst b. exact A1.
    - eapply shaped_call; eauto; [eapply left_called; eauto|]. subst b. exact O2.
    - intros p Hp. injection Hp as <-. rewrite <- Eq. apply not_greater. exact Hq.
    - intros X. specialize (Hm X). cbn [open_ended] in X. rewrite X in Em |- *. rewrite Em in Hm.
      replace (dangling (Call (Concrete ch) true cop chb)) with (dangling (Op KGroupMissingCloser op chb)) by (destruct chb as [|[]]; reflexivity). exact Hm. }
  assert (RC : forall m : bool, b = Op (if m then KGroupMissingCloser else KGroup) op chb ->
     reduce_call (mkp z1 ((S ++ ch) ++ [b]) (mkctx PREC_HIGHEST (length S) :: C) G) = Ok (tt, mkp z1 (S ++ [Call (Concrete ch) m cop chb]) C G)).
  { intros m Em. unfold reduce_call, pbind, pop_context, pop_node. cbn [ctxs stack tz groups c_start]. rewrite rev_app_distr. cbn [rev app tz stack ctxs groups]. rewrite rev_involutive, not_short, skipn_len, firstn_len.
    subst b. destruct m; unfold plift; rewrite Ec; reflexivity. }
  apply PW_bind. unfold ParserRules.PW at 1.
  destruct Hb as [Hb|Hb].
  - rewrite (RC false Hb). apply (HB false Hb). discriminate.
  - rewrite (RC true Hb). apply (HB true Hb). intros _. apply O4. rewrite Hb. reflexivity.
Qed.

(** ** Infix requests *)
Lemma parse_infix_ok : forall t S C G s, pre (CInfix t) S C G s -> (measure (CInfix t) s <= Datatypes.S k)%nat ->
  PW (parse_infix o dbg run t) s (post (CInfix t) S C G s).
Proof.
  intros t S C G s (z & ch & n & q & -> & F & Hn & Ho & Hc & Hq & Ht & Hleft) Hm.
  assert (Goal : PW (parse_infix o dbg run t) (mkp z (S ++ ch) (mkctx q (length S) :: C) G) (finished S C G (fun z' _ => (len z' < len z)%nat))).
  2: { eapply PW_conseq; [exact Goal|]. intros [] s' (z' & n' & H1 & H2 & H3 & H4 & H5). exists z', n'. cbn [tz extra]. do 4 (split; [assumption|]). split; [lia|assumption]. }
  unfold measure in Hm. cbn [tz rank] in Hm. destruct Ht as [(HL & Hs & Hi & Hacc)|(-> & t0 & -> & HL & Hs & Hcons)].
  - pose proof (not_eof _ Hi) as Nt. assert (Hk : (6 * len z <= k)%nat) by (destruct (t_kind t =? TK_Fake_ImplicitTimes); lia).
    pose proof (solidk_infix _ Hs) as If. unfold infix_facts in If. unfold parse_infix. destruct (infix_of (t_kind t)) as [| | | |p op|p op| |p op|opener op| | | | | | | | | | |] eqn:Ei;
      cbn [iprec] in Hi; try (exfalso; apply Hi; reflexivity); apply andb_true_iff in If as [If _];
      try (assert (Eq : q = p) by (destruct Hacc as [A|A]; rewrite Ei in A; [discriminate|injection A; auto]); subst q).
    + eapply infix_binary_ok; eauto. rewrite Ei. split; reflexivity.
    + eapply infix_infix_ok; eauto. apply negb_true_iff. exact If.
    + eapply infix_times_ok; eauto.
    + eapply infix_postfix_ok; eauto.
    + eapply infix_call_ok; eauto.
    + eapply infix_comma_ok; eauto.
    + eapply infix_semi_ok; eauto.
    + apply andb_true_iff in If as [If _]. apply Z.eqb_eq in If. assert (q = PREC_SEMISEMI) by (destruct Hacc as [A|A]; rewrite Ei in A; [discriminate|injection A; auto]). subst q.
      eapply infix_span_ok; eauto. intros kd op ch' r P. eapply (accepted_binds _ kd op ExpectedTilde ch' n t r); eauto.
    + apply Z.eqb_eq in If. eapply infix_tilde_ok; eauto.
    + apply Z.eqb_eq in If. eapply infix_colon_ok; eauto.
    + apply Z.eqb_eq in If. eapply infix_slash_colon_ok; eauto.
    + apply Z.eqb_eq in If. eapply infix_equal_ok; eauto.
    + assert (q = PREC_COLONEQUAL) by (destruct Hacc as [A|A]; rewrite Ei in A; [discriminate|injection A; auto]).
      eapply infix_binary_ok; eauto. rewrite Ei. split; auto.
    + eapply infix_colon_colon_ok; eauto.
    + assert (q = PREC_GREATERGREATER) by (destruct Hacc as [A|A]; rewrite Ei in A; [discriminate|injection A; auto]).
      eapply infix_file_ok; eauto. rewrite Ei. split; auto.
    + assert (q = PREC_GREATERGREATERGREATER) by (destruct Hacc as [A|A]; rewrite Ei in A; [discriminate|injection A; auto]).
      eapply infix_file_ok; eauto. rewrite Ei. split; auto.
  - unfold parse_infix. change (t_kind (tok_at_start TK_Fake_ImplicitTimes t0)) with TK_Fake_ImplicitTimes in *. rewrite infix_fake. unfold infix_times.
    assert (Hm' : (6 * len z + 2 <= Datatypes.S k)%nat) by exact Hm.
    eapply (times_operand z S ch [n]); eauto.
    + right. split; [exists t0; auto|lia].
    + apply pairs_next; [apply (fr_pairs _ _ _ _ F)|rewrite (fr_parts _ _ _ _ F); auto].
    + apply (ready_first IOP_Times PREC_STAR n); auto. split; reflexivity.
Qed.

Lemma PW_unbind : forall A B (m : P A) (f : A -> P B) s Q, PW (pbind m f) s Q -> PW m s (fun a s' => PW (f a) s' Q).
Proof. intros A B m f s Q H. unfold ParserRules.PW, pbind in *. destruct (m s) as [[a s']| |]; auto. Qed.

(** ** Loops *)
Lemma loop_post : forall lc op z S ch C0 C G u s, is_loop lc op -> finished S C G (fun z' _ => (len z' < Datatypes.S (len z))%nat) u s ->
  post lc S C G (mkp z (S ++ ch) C0 G) u s.
Proof.
  intros lc op z S ch C0 C G u s Hl (z' & n & H1 & H2 & H3 & H4 & H5). exists z', n. do 4 (split; [assumption|]). cbn [tz]. split; [lia|].
  destruct Hl as [[-> _]|[[-> _]|[[-> _]|[[-> _]|[-> _]]]]]; exact I.
Qed.

Lemma infix_op_entry : forall op p, zin op [IOP_Times; IOP_CodeParser_InternalInvalid] = false -> is_infix_op op p = true -> exists q, infix_entry p op q.
Proof.
  intros op p Hz H. assert (N1 : op <> IOP_Times) by (intros ->; discriminate). assert (N2 : op <> IOP_CodeParser_InternalInvalid) by (intros ->; discriminate).
  unfold is_infix_op in H. destruct p; cbn [get_op] in H; try discriminate H; apply Z.eqb_eq in H; try (exfalso; apply N2; symmetry; exact H); try (exfalso; apply N1; symmetry; exact H).
  subst. eexists. split; reflexivity.
Qed.
Lemma infix_entry_some : forall p op q, infix_entry p op q -> iprec p <> None.
Proof. intros p op q H. rewrite (infix_entry_iprec _ _ _ H). discriminate. Qed.
Lemma stop_iprec : forall G D kd, solidk kd = true -> stop_kind G D kd -> iprec (infix_of kd) = None.
Proof. intros G D kd Hs H. destruct (stop_infix G D kd Hs H) as [-> _]. reflexivity. Qed.

Lemma infix_loop_ok : forall op z S ch ps q C G, fr z S ch ps -> alternate op q ps -> settled ps /\ begun ps ->
  (lopen ps = true -> stops G (last_dangling ps) (here z)) /\ lately op G q (here z) ps ->
  0 <= cprec C -> prec_greater (cprec C) q = false -> zin op [IOP_Times; IOP_CodeParser_InternalInvalid] = false -> (6 * len z + 3 <= k)%nat ->
  PW (infix_loop o dbg run op) (mkp z (S ++ ch) (mkctx q (length S) :: C) G) (finished S C G (fun z' _ => (len z' < Datatypes.S (len z))%nat)).
Proof.
  intros op z S ch ps q C G F Ha [Hset Hbg] [Hst Hlt] Hc Hq Hz Hk. unfold infix_loop. apply PW_bind. apply F_current; [apply (fr_good _ _ _ _ F)|].
  intros l t z1 G1 R1 L1 St1 HL1 Hs1 Hst1. cbv beta iota. destruct (is_infix_op op (infix_of (t_kind t))) eqn:Ei; cbn [negb].
  - destruct (infix_op_entry _ _ Hz Ei) as (q' & He). pose proof (infix_entry_some _ _ _ He) as Hi.
    assert (Lo : lopen ps = false). { destruct (lopen ps) eqn:El; auto. exfalso. apply Hi. eapply stop_iprec; eauto. }
    apply PW_bind. eapply (F_commit z z1); eauto; [apply not_eof; auto|intros X; eapply lately_next; [exact Hlt|exact St1|exact X]|]. intros z2 ch2 F2 L2. apply PW_bind. eapply F_eat; eauto. intros u z3 ch3 F3 L3 HL3 Hs3 _ _.
    eapply loop_operand; eauto; try lia; [left; auto|eapply ready_more; eauto; apply lopen_closed; auto|exact (prec_pos _ _ Hc Hq)].
  - apply PW_bind. eapply (F_back isTrivia z z1); eauto. intros z2 F2 H2 L2 _. eapply loop_reduce; eauto; try lia. rewrite H2. auto.
Qed.

Lemma comma_stop : forall G D kd, is_comma kd = true -> stop_kind G D kd -> False.
Proof.
  intros G D kd H K. unfold is_comma in H. apply orb_true_iff in H as [H|H]; apply Z.eqb_eq in H; subst; destruct K as [X|[X _]]; vm_compute in X; discriminate X.
Qed.
Lemma comma_entry : forall kd, is_comma kd = true -> infix_of kd = IP_Comma /\ kd <> TK_EndOfFile.
Proof. intros kd H. unfold is_comma in H. apply orb_true_iff in H as [H|H]; apply Z.eqb_eq in H; subst; (split; [reflexivity|discriminate]). Qed.

Lemma comma_loop_ok : forall z S ch ps q C G, fr z S ch ps -> alternate IOP_CodeParser_Comma q ps -> settled ps /\ begun ps ->
  (lopen ps = true -> stops G (last_dangling ps) (here z)) /\ lately IOP_CodeParser_Comma G q (here z) ps ->
  0 <= cprec C -> prec_greater (cprec C) q = false -> (6 * len z + 3 <= k)%nat ->
  PW (comma_loop o dbg run) (mkp z (S ++ ch) (mkctx q (length S) :: C) G) (finished S C G (fun z' _ => (len z' < Datatypes.S (len z))%nat)).
Proof.
  intros z S ch ps q C G F Ha [Hset Hbg] [Hst Hlt] Hc Hq Hk. unfold comma_loop. apply PW_bind. apply F_current; [apply (fr_good _ _ _ _ F)|].
  intros l t z1 G1 R1 L1 St1 HL1 Hs1 Hst1. cbv beta iota. destruct (is_comma (t_kind t)) eqn:Ei; cbn [negb].
  - destruct (comma_entry _ Ei) as [He Nt]. assert (Lo : lopen ps = false). { destruct (lopen ps) eqn:El; auto. exfalso. exact (comma_stop _ _ _ Ei (Hst1 _ (Hst eq_refl))). }
    apply PW_bind. eapply (F_commit z z1); eauto; [intros X; eapply lately_next; [exact Hlt|exact St1|exact X]|]. intros z2 ch2 F2 L2. eapply comma_operand_ok; eauto; try lia.
    eapply ready_more; eauto; [apply lopen_closed; auto|]. rewrite He. split; reflexivity.
  - apply PW_bind. eapply (F_back isTrivia z z1); eauto. intros z2 F2 H2 L2 _. pose proof (fr_nonempty _ _ _ _ F2 (alternate_nonempty _ _ _ Ha)) as Ne.
    apply PW_reduce_op; auto. destruct F2 as [A B P D W]. exists z2, (Op KInfix IOP_CodeParser_Comma ch). split; auto. split; auto. split.
    { apply acct_op. exact B. }
    split; [|lia]. destruct (alternate_root _ _ _ Ha) as (a & t' & r & Er & Acc & Hent).
    split; [|intros X; discriminate X]. split; [reflexivity|]. split; [apply shaped_node; auto; [eapply ok_infix; rewrite P; eauto|]|split; [|split]].
    + destruct Hbg as (a' & t2 & r' & Er' & Hlf). eapply left_node; [rewrite P; exact Er'|exact Hlf|auto].
    + eapply (accepted_binds _ KInfix IOP_CodeParser_Comma ExpectedTilde ch a t' r); eauto. congruence.
    + intros X. rewrite dangling_op, P by reflexivity. apply open_op in X; auto. rewrite P in X. rewrite H2. auto.
    + destruct Hlt as (l0 & b & El & [[Hm _]|Ht]); [discriminate|]. rewrite H2. eapply yields_lasts; [eapply lasts_infix; [rewrite P; exact Er|rewrite P; exact El|intros _; exact Hent]|exact Ht].
Qed.

Lemma semi_loop_ok : forall z S ch ps q C G, fr z S ch ps -> alternate IOP_CompoundExpression q ps -> settled ps /\ begun ps ->
  (lopen ps = true -> stops G (last_dangling ps) (here z)) /\ lately IOP_CompoundExpression G q (here z) ps ->
  0 <= cprec C -> prec_greater (cprec C) q = false -> (6 * len z + 3 <= k)%nat ->
  PW (semi_loop o dbg run) (mkp z (S ++ ch) (mkctx q (length S) :: C) G) (finished S C G (fun z' _ => (len z' < Datatypes.S (len z))%nat)).
Proof.
  intros z S ch ps q C G F Ha [Hset Hbg] [Hst Hlt] Hc Hq Hk. unfold semi_loop. apply PW_bind. apply F_current; [apply (fr_good _ _ _ _ F)|].
  intros l t z1 G1 R1 L1 St1 HL1 Hs1 Hst1. cbv beta iota. destruct (t_kind t =? TK_Semi) eqn:Ei; cbn [negb].
  - apply Z.eqb_eq in Ei. assert (Lo : lopen ps = false).
    { destruct (lopen ps) eqn:El; auto. exfalso. specialize (Hst1 _ (Hst eq_refl)). rewrite Ei in Hst1. destruct Hst1 as [X|[X _]]; vm_compute in X; discriminate X. }
    apply PW_bind. eapply (F_commit z z1); eauto; [rewrite Ei; discriminate|intros X; eapply lately_next; [exact Hlt|exact St1|exact X]|]. intros z2 ch2 F2 L2. eapply semi_operand_ok; eauto; try lia.
    eapply ready_more; eauto; [apply lopen_closed; auto|]. rewrite Ei. split; reflexivity.
  - apply PW_bind. eapply (F_back isTrivia z z1); eauto. intros z2 F2 H2 L2 _. unfold reduce_compound. eapply loop_reduce; eauto; try lia. rewrite H2. auto.
Qed.

Lemma colon_colon_loop_ok : forall z S ch ps q C G, fr z S ch ps -> alternate IOP_MessageName q ps -> settled ps /\ begun ps ->
  (lopen ps = true -> stops G (last_dangling ps) (here z)) /\ lately IOP_MessageName G q (here z) ps ->
  0 <= cprec C -> prec_greater (cprec C) q = false -> (6 * len z + 3 <= k)%nat ->
  PW (colon_colon_loop o dbg run) (mkp z (S ++ ch) (mkctx q (length S) :: C) G) (finished S C G (fun z' _ => (len z' < Datatypes.S (len z))%nat)).
Proof.
  intros z S ch ps q C G F Ha [Hset Hbg] [Hst Hlt] Hc Hq Hk. unfold colon_colon_loop. apply PW_bind. apply F_current; [apply (fr_good _ _ _ _ F)|].
  intros l t z1 G1 R1 L1 St1 HL1 Hs1 Hst1. cbv beta iota. destruct (t_kind t =? TK_ColonColon) eqn:Ei; cbn [negb].
  - apply Z.eqb_eq in Ei. assert (Lo : lopen ps = false).
    { destruct (lopen ps) eqn:El; auto. exfalso. specialize (Hst1 _ (Hst eq_refl)). rewrite Ei in Hst1. destruct Hst1 as [X|[X _]]; vm_compute in X; discriminate X. }
    apply PW_bind. eapply (F_commit z z1); eauto; [rewrite Ei; discriminate|intros X; eapply lately_next; [exact Hlt|exact St1|exact X]|]. intros z2 ch2 F2 L2. apply PW_bind.
    apply (PW_ask o base E HE AsTag); [apply (fr_good _ _ _ _ F2)|exact I|]. intros u z3 G3 H3 _ HL3 _.
    destruct (tag_solid _ _ (looks_reads _ _ _ _ HL3)) as [K1 K2]. pose proof (len_here _ _ H3) as Hl3.
    apply PW_bind. eapply (F_leaf_next AsTag); eauto; [exact I|eapply fr_here; eauto|].
    intros z4 F4 _ L4 _. eapply (rec_loop CColonColonLoop IOP_MessageName); eauto; try lia.
    + right. right. right. right. auto.
    + eapply ready_more; eauto; [apply lopen_closed; auto|]. rewrite Ei. split; reflexivity.
    + apply binds_tok.
    + split; [discriminate|left; split; auto; apply yields_tok].
  - apply PW_bind. eapply (F_back isTrivia z z1); eauto. intros z2 F2 H2 L2 _. eapply loop_reduce; eauto; try lia. rewrite H2. auto.
Qed.

(** ** Implicit multiplication *)
Definition implied (C : list ctx) (n : cst) (t t' : token) : Prop :=
  (t' = t /\ infix_of (t_kind t) <> IP_InfixImplicitTimes /\ (infix_of (t_kind t) = IP_InfixDifferentialD -> cprec C = PREC_CLASS_INTEGRATIONOPERATORS)) \/
  (t' = tok_at_start TK_Fake_ImplicitTimes t /\ solidk (t_kind t) = true /\ consuming (prefix_of (t_kind t)) = true /\ infix_of (t_kind t) <> IP_InfixAssertFalse /\
    (infix_of (t_kind t) = IP_InfixImplicitTimes \/ infix_of (t_kind t) = IP_InfixDifferentialD \/ (infix_of (t_kind t) = IP_SemiSemi /\ span_node n))).

Lemma implicit_ok : forall t z S ch ps n C G (Q : token -> pst -> Prop), parts ch = ps ++ [n] -> solidk (t_kind t) = true \/ t_kind t = TK_ToplevelNewline ->
  (forall t', implied C n t t' -> Q t' (mkp z (S ++ ch) C G)) -> PW (process_implicit_times t) (mkp z (S ++ ch) C G) Q.
Proof.
  intros t z S ch ps n C G Q HP Hs HQ. unfold ParserRules.PW, process_implicit_times.
  assert (Fk : consuming (prefix_of (t_kind t)) = true -> infix_of (t_kind t) <> IP_InfixAssertFalse -> infix_of (t_kind t) <> IP_InfixToplevelNewline ->
     (infix_of (t_kind t) = IP_InfixImplicitTimes \/ infix_of (t_kind t) = IP_InfixDifferentialD \/ (infix_of (t_kind t) = IP_SemiSemi /\ span_node n)) ->
     Q (tok_at_start TK_Fake_ImplicitTimes t) (mkp z (S ++ ch) C G)).
  { intros H1 H2 H3 H4. apply HQ. right. split; auto. split; [|auto]. destruct Hs as [Hs|Hs]; auto. exfalso. apply H3. rewrite Hs. reflexivity. }
  assert (If : infix_of (t_kind t) <> IP_InfixToplevelNewline -> infix_facts (t_kind t) = true).
  { intros N. destruct Hs as [Hs|Hs]; [apply solidk_infix; auto|]. exfalso. apply N. rewrite Hs. reflexivity. }
  unfold infix_facts in If. destruct (infix_of (t_kind t)) eqn:Ei; try (apply HQ; left; split; [reflexivity|rewrite Ei; split; [discriminate|discriminate]]).
  - specialize (If ltac:(discriminate)). apply andb_true_iff in If as [If _]. apply Fk; auto; discriminate.
  - specialize (If ltac:(discriminate)). apply andb_true_iff in If as [If _]. change (top_prec (mkp z (S ++ ch) C G)) with (cprec C).
    destruct (cprec C =? PREC_CLASS_INTEGRATIONOPERATORS) eqn:Ec; [|apply Fk; auto; discriminate].
    apply HQ. left. split; auto. rewrite Ei. split; [discriminate|]. intros _. apply Z.eqb_eq; auto.
  - specialize (If ltac:(discriminate)). apply andb_true_iff in If as [If _]. apply andb_true_iff in If as [_ If].
    unfold pbind, top_node_is_span. rewrite (top_node_parts z S ch C G ps n HP).
    assert (K : forall b : bool, (b = true -> span_node n) -> Q (if b then tok_at_start TK_Fake_ImplicitTimes t else t) (mkp z (S ++ ch) C G)).
    { intros [] Hb; [apply Fk; auto; discriminate|]. apply HQ. left. split; auto. rewrite Ei. split; discriminate. }
    destruct n as [f|h m op body|e l|kd op l|b l src|a b src]; try (apply (K false); discriminate). destruct kd; try (apply (K false); discriminate); apply K; intros X; apply Z.eqb_eq in X; exists l; rewrite X; auto.
Qed.

Lemma implied_stop : forall G D C n t t', solidk (t_kind t) = true \/ t_kind t = TK_ToplevelNewline -> implied C n t t' ->
  stop_kind G D (t_kind t) \/ t_kind t = TK_ToplevelNewline -> t' = t /\ iprec (infix_of (t_kind t)) = None.
Proof.
  intros G D C n t t' Hs Hi Hst. assert (Hn : infix_of (t_kind t) = IP_InfixAssertFalse \/ t_kind t = TK_ToplevelNewline).
  { destruct Hs as [Hs|Hs]; auto. destruct Hst as [Hst|Hst]; auto. left. eapply stop_infix; eauto. }
  destruct Hi as [(-> & _)|(_ & Hs' & Hcons & N & _)].
  - split; auto. destruct Hn as [Hn|Hn]; rewrite Hn; reflexivity.
  - exfalso. destruct Hn as [Hn|Hn]; [contradiction|]. rewrite Hn in Hs'. vm_compute in Hs'. discriminate.
Qed.

Lemma implied_left : forall C G n t t' p l p', implied C n t t' -> yields G p n -> strip o (qtop G) isTriviaButNotToplevelNewline p l t p' -> left_tok n t'.
Proof.
  intros C G n t t' p l p' Hi Hy St pj q J O. assert (Sh : shut q (t_kind t)) by (apply (Hy q (t_kind t) O); exists l, t, p'; auto).
  unfold shut, tprec in Sh. destruct Hi as [(-> & N1 & N2)|(-> & Hs & Hcons & N & Hk)].
  - rewrite J in Sh. destruct Sh as [Sh|[_ Sh]]; [left; apply greater_ends; auto|]. unfold joining_precedence in J. rewrite Sh in J. discriminate.
  - change (joining_precedence (t_kind (tok_at_start TK_Fake_ImplicitTimes t))) with (Some PREC_STAR) in J. injection J as <-. unfold joining_precedence in Sh.
    destruct Hk as [Hk|[Hk|[Hk Hsp]]]; [..|right; split; [reflexivity|auto]]; rewrite Hk in Sh; destruct Sh as [Sh|[Sh Sh']]; try (left; apply greater_ends; exact Sh); try discriminate Sh'.
    right. split; [reflexivity|auto].
Qed.

Lemma times_rest : forall triv z z1 S ch ps q C G l n t t', fr z S ch ps -> alternate IOP_Times q ps -> settled ps /\ begun ps ->
  (lopen ps = true -> stops G (last_dangling ps) (here z)) /\ lately IOP_Times G q (here z) ps ->
  0 <= cprec C -> prec_greater (cprec C) q = false -> (6 * len z + 3 <= k)%nat -> (forall kd, triv kd = true -> isTrivia kd = true) ->
  good z1 -> R o z z1 -> (len z1 <= len z)%nat -> strip o (qtop G) triv (here z) l t (here z1) -> looks o (qtop G) z1 t -> solidk (t_kind t) = true \/ t_kind t = TK_ToplevelNewline ->
  (forall D, stops G D (here z) -> stop_kind G D (t_kind t) \/ t_kind t = TK_ToplevelNewline) -> implied (mkctx q (length S) :: C) n t t' ->
  (calm l -> strip o (qtop G) isTriviaButNotToplevelNewline (here z) l t (here z1)) -> (exists r, ps = r ++ [n]) ->
  PW (if negb (is_infix_op IOP_Times (infix_of (t_kind t'))) then (trivia_reset l ;; reduce_op KInfix IOP_Times ;; run CClimb)%parser
      else (commit_syntax_and_next dbg l t' ;; u <- eat_trivia o dbg ;; run (CPrefix u) ;; run CTimesLoop)%parser)
     (mkp z1 (S ++ ch) (mkctx q (length S) :: C) G) (finished S C G (fun z' _ => (len z' < Datatypes.S (len z))%nat)).
Proof.
  intros triv z z1 S ch ps q C G l n t t' F Ha [Hset Hbg] [Hst Hlt] Hc Hq Hk Htr G1 R1 L1 St1 HL1 Hs1 Hst1 Hi Hcalm Hlast. destruct (is_infix_op IOP_Times (infix_of (t_kind t'))) eqn:Ei; cbn [negb].
  - assert (Lo : lopen ps = false).
    { destruct (lopen ps) eqn:El; auto. exfalso. destruct (implied_stop G _ _ _ _ _ Hs1 Hi (Hst1 _ (Hst eq_refl))) as [-> X].
      destruct (infix_of (t_kind t)); try discriminate X; vm_compute in Ei; discriminate Ei. }
    assert (Tt : times_token G z1 t').
    { destruct Hi as [(-> & N1 & N2)|(-> & Hs' & Hcons & N & _)].
      - left. split; auto. assert (Hs' : solidk (t_kind t) = true).
        { destruct Hs1 as [Hs1|Hs1]; auto. rewrite Hs1 in Ei. vm_compute in Ei. discriminate. }
        split; auto. split; [|lia]. pose proof (solidk_infix _ Hs') as If. unfold infix_facts in If. unfold is_infix_op in Ei.
        destruct (infix_of (t_kind t)); cbn [get_op] in Ei; try discriminate Ei; auto.
        exfalso. apply andb_true_iff in If as [If _]. apply Z.eqb_eq in Ei. subst. vm_compute in If. discriminate If.
      - right. split; [exists t; auto|lia]. }
    apply PW_bind. unfold commit_syntax_and_next. apply PW_bind. apply (F_push_trivia triv z z1 S ch ps (qtop G) l t); auto; [reflexivity|]. intros F1.
    apply PW_unbind. eapply times_operand; eauto; try lia; [apply pairs_commit; [apply (fr_pairs _ _ _ _ F)| |rewrite (fr_parts _ _ _ _ F)]|]; [|intros Hl; specialize (Hcalm Hl); destruct Hlast as [r0 ->]; destruct (lately_yields _ _ _ _ _ Hlt) as (r & b & Eb & Hy); apply app_inj_tail in Eb as [<- <-]; apply next_snoc; eapply implied_left; eauto|].
    { destruct (strip_place _ _ _ _ _ _ _ St1) as (_ & _ & X). eapply Forall_impl; [|exact X]. auto. }
    eapply ready_more; eauto; [apply lopen_closed; auto|]. rewrite (times_token_entry _ _ _ Tt). split; reflexivity.
  - apply PW_bind. eapply (F_back triv z z1); eauto. intros z2 F2 H2 L2 _. eapply loop_reduce; eauto; try lia. rewrite H2. auto.
Qed.

Lemma alternate_last : forall op q l, alternate op q l -> exists r b, l = r ++ [b].
Proof. intros op q l H. destruct H as [a t b|l t b q']; [exists [a; Tok t], b; auto|exists (l ++ [Tok t]), b; rewrite <- app_assoc; auto]. Qed.

Lemma times_loop_ok : forall z S ch ps q C G, fr z S ch ps -> alternate IOP_Times q ps -> settled ps /\ begun ps ->
  (lopen ps = true -> stops G (last_dangling ps) (here z)) /\ lately IOP_Times G q (here z) ps ->
  0 <= cprec C -> prec_greater (cprec C) q = false -> (6 * len z + 3 <= k)%nat ->
  PW (times_loop o dbg run) (mkp z (S ++ ch) (mkctx q (length S) :: C) G) (finished S C G (fun z' _ => (len z' < Datatypes.S (len z))%nat)).
Proof.
  intros z S ch ps q C G F Ha [Hset Hbg] [Hst Hlt] Hc Hq Hk. destruct (alternate_last _ _ _ Ha) as (r & b & Er). pose proof (fr_parts _ _ _ _ F) as P. rewrite Er in P.
  unfold times_loop. apply PW_bind. apply F_current; [apply (fr_good _ _ _ _ F)|]. intros l t z1 G1 R1 L1 St1 HL1 Hs1 Hst1. cbv beta iota.
  apply PW_bind. eapply implicit_ok; eauto. intros t' Hi. apply PW_bind. destruct (t_kind t' =? TK_Fake_ImplicitTimes) eqn:Ef.
  - apply PW_bind. eapply (F_back isTrivia z z1); eauto. intros z2 F2 H2 L2 _. apply PW_bind. apply F_current_nl; [apply (fr_good _ _ _ _ F2)|].
    intros l3 t3 z3 G3 R3 L3 St3 HL3 Hs3 Hst3. cbv beta iota. apply PW_bind. eapply implicit_ok; eauto. intros t4 Hi4. apply PW_ret. cbv beta iota.
    rewrite <- L2. eapply (times_rest isTriviaButNotToplevelNewline z2 z3); eauto; [rewrite H2; auto|lia|apply triv_newline].
  - apply PW_ret. cbv beta iota. eapply (times_rest isTrivia z z1); eauto. apply strip_calm; auto.
Qed.

(** ** Climbing *)
Lemma prec_ok : forall n t t' S C G z, solidk (t_kind t) = true \/ t_kind t = TK_ToplevelNewline -> implied C n t t' ->
  exists p, get_precedence (infix_of (t_kind t')) (mkp z S C G) = Ok (p, mkp z S C G) /\
    ((p = 0 /\ t' = t /\ iprec (infix_of (t_kind t)) = None) \/
     (0 < p <= PREC_HIGHEST /\ solidk (t_kind t) = true /\
       ((t' = t /\ iprec (infix_of (t_kind t)) <> None /\ accepted t p) \/ (p = PREC_STAR /\ t' = tok_at_start TK_Fake_ImplicitTimes t /\ consuming (prefix_of (t_kind t)) = true)))).
Proof.
  intros n t t' S C G z Hs [(-> & N1 & N2)|(-> & Hs' & Hcons & N & _)].
  - destruct (iprec (infix_of (t_kind t))) as [p0|] eqn:Ep.
    + assert (Hs' : solidk (t_kind t) = true) by (destruct Hs as [Hs|Hs]; auto; rewrite Hs in Ep; discriminate).
      pose proof (solidk_infix _ Hs') as If. unfold infix_facts in If. rewrite Ep in If. apply andb_true_iff in If as [_ If]. apply andb_true_iff in If as [I1 I2].
      apply Z.ltb_lt in I1. apply Z.leb_le in I2.
      assert (W : forall p, get_precedence (infix_of (t_kind t)) (mkp z S C G) = Ok (p, mkp z S C G) -> 0 < p <= PREC_HIGHEST -> accepted t p ->
        exists p, get_precedence (infix_of (t_kind t)) (mkp z S C G) = Ok (p, mkp z S C G) /\
          ((p = 0 /\ t = t /\ Some p0 = None) \/ (0 < p <= PREC_HIGHEST /\ solidk (t_kind t) = true /\ ((t = t /\ Some p0 <> None /\ accepted t p) \/
             (p = PREC_STAR /\ t = tok_at_start TK_Fake_ImplicitTimes t /\ consuming (prefix_of (t_kind t)) = true))))).
      { intros p H1 H2 H3. exists p. split; auto. right. split; auto. split; auto. left. split; auto. split; auto. discriminate. }
      unfold accepted in W |- *. destruct (infix_of (t_kind t)) eqn:Ei; try discriminate Ep; cbn [iprec] in Ep; injection Ep as <-;
        try (eapply W; [reflexivity|auto|right; reflexivity]).
      apply (W (if check_pattern_precedence C then PREC_FAKE_OPTIONALCOLON else PREC_HIGHEST)); auto. destruct (check_pattern_precedence C); [|auto]. split; [reflexivity|discriminate].
    + exists 0. split; [|left; auto]. destruct (infix_of (t_kind t)) eqn:Ei; try discriminate Ep; cbn [get_precedence]; auto; [contradiction|].
      change (top_prec (mkp z S C G)) with (cprec C). rewrite (N2 eq_refl), Z.eqb_refl. reflexivity.
  - exists PREC_STAR. split; [reflexivity|]. right. split; [split; [reflexivity|discriminate]|]. split; auto.
Qed.

Lemma highest_greater : forall p, p <= PREC_HIGHEST -> prec_greater PREC_HIGHEST p = true.
Proof. intros p H. unfold prec_greater. apply Z.ltb_lt. change (Z.lor PREC_HIGHEST 1) with (PREC_HIGHEST + 1). lia. Qed.
Lemma zero_less : forall p, 0 < p -> prec_greater 0 p = false.
Proof. intros p H. unfold prec_greater. apply Z.ltb_ge. change (Z.lor 0 1) with 1. lia. Qed.
Lemma solidk_fake : solidk TK_Fake_ImplicitTimes = false. Proof. vm_compute. reflexivity. Qed.
Lemma rank_infix : forall t, solidk (t_kind t) = true -> rank (CInfix t) = 1%nat.
Proof. intros t H. cbn. destruct (Z.eqb_spec (t_kind t) TK_Fake_ImplicitTimes) as [X|]; auto. rewrite X, solidk_fake in H. discriminate. Qed.
Lemma rank_infix2 : forall t, (rank (CInfix t) <= 2)%nat.
Proof. intros t. cbn. destruct (t_kind t =? TK_Fake_ImplicitTimes); lia. Qed.

Lemma implied_shut : forall C n t t' p S G z, implied C n t t' -> get_precedence (infix_of (t_kind t')) (mkp z S C G) = Ok (p, mkp z S C G) ->
  prec_greater (cprec C) p = true -> 0 <= cprec C -> shut (cprec C) (t_kind t).
Proof.
  intros C n t t' p S G z Hi Hp Hg Hc. destruct Hi as [(-> & N1 & N2)|(-> & Hs & Hcons & N & Hk)].
  - unfold shut, tprec, joining_precedence. destruct (infix_of (t_kind t)) eqn:Ei; cbn [get_precedence] in Hp; try contradiction;
      try (left; apply greater_zero; exact Hc); try (right; auto; fail); try (injection Hp as <-; left; exact Hg).
    left. injection Hp as <-. destruct (check_pattern_precedence _); auto. eapply greater_less; [exact Hg|discriminate].
  - injection Hp as <-. left. unfold tprec, joining_precedence. destruct Hk as [->|[->|[-> _]]]; auto. eapply greater_less; [exact Hg|discriminate].
Qed.
Lemma climb_ok : forall S C G s, pre CClimb S C G s -> (measure CClimb s <= Datatypes.S k)%nat -> PW (climb o run) s (post CClimb S C G s).
Proof.
  intros S C G s (z & n & -> & Hg & Ha & (On & Sn & Bn & Stn & Yn) & Hc) Hm. unfold measure in Hm. cbn [tz rank] in Hm.
  assert (F : fr z S [n] [n]) by (constructor; auto; [apply parts_solid, operand_solid; auto|apply (pairs_operand [] n); auto]).
  unfold climb. apply PW_bind. apply F_current_nl; auto. intros l t z1 G1 R1 L1 St1 HL1 Hs1 Hst1. cbv beta iota.
  apply PW_bind. eapply (implicit_ok t z1 S [n] []); [apply (fr_parts _ _ _ _ F)|exact Hs1|]. intros t' Hi. apply PW_bind.
  destruct (prec_ok n t t' (S ++ [n]) C G z1 Hs1 Hi) as (p & Hp & Hcase). unfold ParserRules.PW at 1. rewrite Hp.
  assert (HW : forall b, b = prec_greater (cprec C) p -> PW (if b then trivia_reset l else (push_context p ;; push_trivia l ;; run (CInfix t'))%parser) (mkp z1 (S ++ [n]) C G)
     (post CClimb S C G (mkp z (S ++ [n]) C G))).
  2: { exact (HW _ eq_refl). }
  intros b Eb. destruct b.
  - eapply (F_back isTriviaButNotToplevelNewline z z1); eauto. intros z2 F2 H2 L2 _. exists z2, n. destruct F2 as [A B P D W].
    split; auto. split; auto. split; auto. split.
    { split; [split; auto; split; auto; split; auto; rewrite H2; auto|]. intros _ kd (l' & t2 & p2 & St2 & <-). rewrite H2 in St2.
      destruct (strip_det o (qtop G) isTriviaButNotToplevelNewline _ _ _ _ eq_refl St1 _ _ _ St2) as (_ & <- & _). eapply implied_shut; eauto. } cbn [tz extra stack]. split; [lia|].
    split; [auto|]. intros C0 t0 Ht0 Hcm. exfalso. destruct (comma_entry _ Hcm) as [Hie Hne].
    assert (Tr0 : isTrivia (t_kind t0) = false) by (unfold is_comma in Hcm; apply orb_true_iff in Hcm as [X|X]; apply Z.eqb_eq in X; rewrite X; reflexivity).
    assert (Tr1 : isTriviaButNotToplevelNewline (t_kind t0) = false) by (destruct (isTriviaButNotToplevelNewline (t_kind t0)) eqn:X; auto; apply triv_newline in X; congruence).
    pose proof (strip_nil o (qtop G) isTriviaButNotToplevelNewline _ t0 Ht0 Tr1) as St'.
    destruct (strip_det o (qtop G) isTriviaButNotToplevelNewline _ _ _ _ eq_refl St1 _ _ _ St') as (_ & -> & _).
    rewrite C0 in Eb. destruct Hcase as [(_ & _ & X)|(X & _)]; [rewrite Hie in X; discriminate|]. rewrite zero_less in Eb by lia. discriminate.
  - destruct Hcase as [(-> & _)|(Hp0 & Hs & Hcase)]; [rewrite greater_zero in Eb by auto; discriminate|].
    assert (On' : open_ended n = false).
    { destruct (open_ended n) eqn:X; auto. exfalso. destruct (implied_stop G _ _ _ _ _ Hs1 Hi (Hst1 _ (Stn eq_refl))) as [-> Y].
      destruct Hcase as [(_ & Z & _)|(_ & Z & _)]; [contradiction|]. assert (W : t_kind t = TK_Fake_ImplicitTimes) by (rewrite Z; reflexivity). rewrite W, solidk_fake in Hs. discriminate. }
    apply PW_bind, PW_push_context. apply PW_bind. apply (F_push_trivia isTriviaButNotToplevelNewline z z1 S [n] [n] (qtop G) l t); auto; [reflexivity|apply triv_newline|]. intros F1.
    eapply PW_conseq; [apply (IH (CInfix t') S C G)|].
    + exists z1, ([n] ++ map Tok l), n, p. split; auto. do 3 (split; [assumption|]). split; auto. split; auto.
      split; [destruct Hcase as [(-> & X & Y)|(-> & -> & X)]; [left; auto|right; split; auto; exists t; auto]|eapply implied_left; eauto].
    + unfold measure. cbn [tz]. pose proof (rank_infix2 t'). lia.
    + intros [] s' (z' & n' & -> & G' & A' & O' & L' & X'). cbn [tz extra] in L', X'. exists z', n'. split; auto. do 3 (split; [assumption|]). cbn [tz extra stack]. split; [lia|].
      split; [|intros; lia]. intros Ch. rewrite Ch, highest_greater in Eb by lia. discriminate.
Qed.

(** ** Prefix parselets *)
Section Prefix.
Variables (z : st) (S : list cst) (C : list ctx) (G : list Z) (t : token).
Hypothesis Hg : good z.
Hypothesis Ha : acct z S.
Hypothesis HL : looks o (qtop G) z t.
Hypothesis Hs : solidk (t_kind t) = true.
Hypothesis Hc : 0 <= cprec C.
Hypothesis Hk : (6 * len z <= k)%nat.

Local Notation goal m := (PW m (mkp z S C G) (post (CPrefix t) S C G (mkp z S C G))).
Local Notation sgoal m := (PW m (mkp z S C G) (finished S C G (fun z' _ => (len z' < len z)%nat))).

Lemma strict_goal : forall m, sgoal m -> goal m.
Proof.
  clear Hg Ha HL Hs Hc Hk. intros m H. eapply PW_conseq; [exact H|]. intros [] s' (z' & n' & H1 & H2 & H3 & H4 & H5). exists z', n'. do 4 (split; [assumption|]). cbn [tz extra]. split; [lia|auto].
Qed.
Lemma fr0 : fr z S [] []. Proof. constructor; auto; rewrite app_nil_r; auto. Qed.
Lemma leaf_ok : forall z' u, leaf_kind (t_kind u) = true -> ok_node C G z' (Tok u).
Proof. intros z' u H. split; [exact H|]. split; [apply shaped_tok|]. split; [apply binds_tok|]. split; [discriminate|apply yields_tok]. Qed.
Lemma leaf_done : forall z' u, leaf_kind (t_kind u) = true -> dead_end (Tok u) = true -> done_node C G z' (Tok u).
Proof. intros z' u H D. split; [apply leaf_ok; auto|]. intros X. congruence. Qed.

Lemma P_next : forall (Q : unit -> pst -> Prop), t_kind t <> TK_EndOfFile ->
  (forall z', fr z' S [Tok t] [Tok t] -> here z' = past t -> (len z' < len z)%nat -> Q tt (mkp z' (S ++ [Tok t]) C G)) ->
  PW (push_syntax_and_next dbg t) (mkp z S C G) Q.
Proof. intros Q N HQ. replace S with (S ++ []) by apply app_nil_r. eapply F_next_top; [apply fr0|exact HL|exact Hs|exact N|auto|exact HQ]. Qed.

(** taking the token without pushing it *)
Lemma P_skip : forall (Q : unit -> pst -> Prop), t_kind t <> TK_EndOfFile ->
  (forall z', good z' -> acct z' (S ++ [Tok t]) -> here z' = past t -> (len z' < len z)%nat -> Q tt (mkp z' S C G)) ->
  PW (pskip t) (mkp z S C G) Q.
Proof.
  intros Q N HQ. apply (PW_skip o base E (qtop G) z t); auto; [reflexivity|]. intros z' G' H' R' L1 L2. apply HQ; auto.
  - eapply (acct_told (qtop G) z z' t t); eauto; [reflexivity|apply looks_reads; auto|left; auto].
  - apply L2. eapply reads_text; eauto. apply looks_reads. exact HL.
Qed.

Lemma P_fake : forall kd (Q : unit -> pst -> Prop), len_zero kd = true -> isTrivia kd = false -> leaf_kind kd = true ->
  (fr z S [Tok (tok_at_start kd t)] [Tok (tok_at_start kd t)] -> ok_node C G z (Tok (tok_at_start kd t)) -> Q tt (mkp z (S ++ [Tok (tok_at_start kd t)]) C G)) ->
  PW (push_leaf dbg (tok_at_start kd t)) (mkp z S C G) Q.
Proof.
  intros kd Q H1 H2 H3 HQ. replace S with (S ++ []) by apply app_nil_r. eapply (F_fake (qtop G)); eauto; [reflexivity|apply fr0|]. cbn [app]. intros F. apply HQ; auto.
  apply leaf_ok. exact H3.
Qed.

Lemma prefix_leaf_ok : leaf_kind (t_kind t) = true -> t_kind t <> TK_EndOfFile -> goal (push_leaf_and_next dbg t ;; run CClimb)%parser.
Proof.
  intros Hl N. apply strict_goal. apply PW_bind. apply P_next; auto. intros z1 F1 _ L1. destruct F1 as [A B _ _]. apply rec_climb; auto; [apply leaf_ok; auto|lia].
Qed.
Lemma prefix_error_ok : leaf_kind (t_kind t) = true -> isError (t_kind t) = true -> t_kind t <> TK_EndOfFile -> goal (passert (isError (t_kind t)) ;; push_leaf_and_next dbg t)%parser.
Proof.
  intros Hl He N. apply strict_goal. apply PW_bind, PW_assert; auto. apply P_next; auto. intros z1 F1 _ L1. destruct F1 as [A B _ _].
  exists z1, (Tok t). split; auto. split; auto. split; auto. split; [apply leaf_done; auto; cbn [dead_end]; rewrite He; reflexivity|auto].
Qed.
Lemma prefix_eof_ok : prefix_of (t_kind t) = PP_PrefixEndOfFile -> goal (prefix_end_of_file dbg t).
Proof.
  intros Hp. pose proof (solidk_eof _ Hs Hp) as Hk'. unfold prefix_end_of_file, ParserRules.PW. cbn beta.
  match goal with |- match ?m (mkp z S C G) with _ => _ end => change (goal m) end.
  destruct (top_prec (mkp z S C G) =? PREC_COMMA); (apply P_fake; [reflexivity|reflexivity|reflexivity|]); intros [A B _ _] O';
    (eexists z, _; split; [reflexivity|]; split; auto; split; auto; split; [apply leaf_done; reflexivity|]; cbn [tz extra]; split; auto; rewrite Hp; intros [X|(_ & _ & X)]; [discriminate|contradiction]).
Qed.
Lemma prefix_closer_ok : prefix_of (t_kind t) = PP_PrefixCloser -> goal (prefix_closer o dbg t).
Proof.
  intros Hp. pose proof (solidk_prefix _ Hs) as Pf. unfold prefix_facts in Pf. rewrite Hp in Pf. unfold prefix_closer. apply PW_bind, PW_assert; auto.
  unfold ParserRules.PW. cbn beta.
  match goal with |- match ?m (mkp z S C G) with _ => _ end => change (goal m) end.
  apply PW_bind. destruct (top_prec (mkp z S C G) =? PREC_COMMA); (apply P_fake; [reflexivity|reflexivity|reflexivity|]); intros [A B _ _] O';
    (apply PW_bind, (PW_peek o base E HE); auto; intros u z1 G1 H1 _ _ _; apply PW_ret; eexists z1, _; split; [reflexivity|]; split; auto; split; [eapply acct_here; eauto|];
     split; [apply leaf_done; reflexivity|]; cbn [tz extra]; split; [rewrite (len_here _ _ H1); auto|]; rewrite Hp; intros [X|(_ & X & _)]; [discriminate|congruence]).
Qed.
Lemma prefix_unsupported_ok : prefix_of (t_kind t) = PP_PrefixUnsupportedToken -> t_kind t <> TK_EndOfFile -> goal (prefix_unsupported dbg t).
Proof.
  intros Hp N. apply strict_goal. unfold prefix_unsupported. apply PW_bind. apply PW_push_leaf; [reflexivity|].
  apply (PW_skip o base E (qtop G) z t); auto; [reflexivity|]. intros z' G' H' R' L1 L2. exists z', (Tok (tok_at TK_Error_UnsupportedToken t)). split; auto. split; auto. split.
  - eapply (acct_told (qtop G) z z' t); eauto; [reflexivity|apply looks_reads; auto|right; right; auto].
  - split; [apply leaf_done; reflexivity|]. apply L2. eapply reads_text; eauto. apply looks_reads. exact HL.
Qed.
Lemma prefix_comma_ok : prefix_of (t_kind t) = PP_PrefixComma -> (6 * len z + 3 <= k)%nat -> goal (prefix_comma dbg run t).
Proof.
  intros Hp Hk'. pose proof (solidk_prefix _ Hs) as Pf. unfold prefix_facts in Pf. rewrite Hp in Pf. unfold prefix_comma, ParserRules.PW. cbn beta.
  match goal with |- match ?m (mkp z S C G) with _ => _ end => change (goal m) end.
  apply PW_bind. destruct (top_prec (mkp z S C G) =? 0); (apply P_fake; [reflexivity|reflexivity|reflexivity|]); intros [A B _ _] O';
    (eapply PW_conseq; [apply (IH CClimb S C G); [eexists z, _; auto 10|unfold measure; cbn [tz rank]; lia]|];
     intros [] s' (z' & n' & H1 & H2 & H3 & H4 & H5 & _ & H6); exists z', n'; do 4 (split; [assumption|]); cbn [tz extra] in *; split; [assumption|];
     rewrite Hp; intros [X|(X & _ & _)]; [discriminate|]; apply (H6 X t); auto; apply looks_reads; exact HL).
Qed.
Lemma prefix_unhandled_ok : prefix_of (t_kind t) = PP_PrefixUnhandled -> (6 * len z + 1 <= k)%nat -> goal (prefix_unhandled o dbg run t).
Proof.
  intros Hp Hk'. pose proof (solidk_prefix _ Hs) as Pf. unfold prefix_facts in Pf. rewrite Hp in Pf. apply andb_true_iff in Pf as [P1 P2].
  destruct (iprec (infix_of (t_kind t))) as [p0|] eqn:Ep; [|discriminate]. clear P2.
  unfold prefix_unhandled. apply PW_bind, PW_assert; auto. apply PW_bind. apply P_fake; [reflexivity|reflexivity|reflexivity|]. intros F1 O1.
  apply PW_bind, (PW_peek o base E HE); [apply (fr_good _ _ _ _ F1)|]. intros u z1 G1 H1 LE1 _ R1. pose proof (fr_here _ _ _ _ _ F1 G1 H1) as F1'. pose proof (len_here _ _ H1) as Ln1.
  assert (Hi : implied C (Tok t) t t).
  { left. split; auto. split; [intros X; rewrite X in Ep; discriminate|]. intros X. rewrite X in Ep. discriminate. }
  destruct (prec_ok (Tok t) t t (S ++ [Tok (tok_at_start TK_Error_ExpectedOperand t)]) C G z1 (or_introl Hs) Hi) as (p & Hpr & Hcase).
  apply PW_bind. unfold ParserRules.PW at 1. rewrite Hpr.
  destruct Hcase as [(_ & _ & X)|(Hp0 & _ & Hcase)]; [congruence|].
  assert (Hacc : accepted t p).
  { destruct Hcase as [(_ & _ & X)|(_ & X & _)]; auto. exfalso. assert (W : t_kind t = TK_Fake_ImplicitTimes) by (rewrite X; reflexivity). rewrite W, solidk_fake in Hs. discriminate. }
  set (f := tok_at_start TK_Error_ExpectedOperand t) in *.
  assert (HW : forall b, b = prec_greater (cprec C) p -> PW (if b then pret tt else (push_context p ;; run (CInfix t))%parser) (mkp z1 (S ++ [Tok f]) C G)
     (post (CPrefix t) S C G (mkp z S C G))).
  2: { exact (HW _ eq_refl). }
  intros b Eb. destruct b.
  - apply PW_ret. exists z1, (Tok f). split; auto. split; auto. split; [apply (fr_acct _ _ _ _ F1')|]. split; [apply leaf_done; reflexivity|]. cbn [tz extra]. split; [lia|].
    rewrite Hp. intros [X|(X & _)]; [discriminate|]. rewrite X, zero_less in Eb by lia. discriminate.
  - apply PW_bind, PW_push_context. eapply PW_conseq; [apply (IH (CInfix t) S C G)|].
    + exists z1, [Tok f], (Tok f), p. split; auto. split; auto. split; [reflexivity|]. split; [reflexivity|]. split; auto. split; auto. split; [|apply left_tok_leaf]. left. split; [eapply looks_later; eauto|].
      split; auto. split; [congruence|auto].
    + unfold measure. cbn [tz]. rewrite rank_infix by auto. lia.
    + intros [] s' (z' & n' & H2 & H3 & H4 & H5 & H6 & H7). cbn [tz extra] in *. exists z', n'. do 4 (split; [assumption|]). cbn [tz extra]. split; [lia|]. intros _. lia.
Qed.

Lemma prefix_operator_ok : forall p op, prefix_of (t_kind t) = PP_PrefixOperator p op -> t_kind t <> TK_EndOfFile -> goal (prefix_operator o dbg run p op t).
Proof.
  intros p op Hp N. pose proof (solidk_prefix _ Hs) as Pf. unfold prefix_facts in Pf. rewrite Hp in Pf. apply Z.ltb_lt in Pf. apply strict_goal.
  unfold prefix_operator. apply PW_bind. apply P_next; auto. intros z1 F1 _ L1. apply PW_bind, PW_push_context. apply PW_bind. eapply F_eat; eauto.
  intros u z2 ch2 F2 L2 HL2 Hs2 _ _. apply PW_bind. eapply rec_prefix; eauto; [cbn; lia|pose proof (rank_prefix u); lia|].
  intros z3 b F3 L3 On Bn Sn _. pose proof (fr_parts _ _ _ _ F3) as P. cbn [app] in P.
  eapply F_reduce; eauto; [discriminate| | | |lia|lia| |].
  - eapply (ok_prefix op _ t b p); eauto. rewrite Hp. split; reflexivity.
  - apply binds_none. reflexivity.
  - cbn. rewrite orb_false_r. exact (proj1 Sn).
  - apply left_other. reflexivity.
  - eapply yields_lasts; [eapply (lasts_prefix op _ t b p); eauto; intros _; rewrite Hp; split; reflexivity|exact (proj2 Sn)].
Qed.

Lemma prefix_less_less_ok : prefix_of (t_kind t) = PP_LessLess -> t_kind t <> TK_EndOfFile -> goal (prefix_less_less o dbg run t).
Proof.
  intros Hp N. apply strict_goal. unfold prefix_less_less. apply PW_bind. apply P_next; auto. intros z1 F1 _ L1. apply PW_bind, PW_push_context. apply PW_bind. eapply F_eat_file; eauto.
  intros u z2 ch2 F2 L2 HL2 Hl2 Hn2. apply PW_bind. eapply (F_leaf_next AsFile); eauto; [exact I|].
  intros z3 F3 _ L3 _. pose proof (fr_parts _ _ _ _ F3) as P. cbn [app] in P.
  eapply F_reduce; eauto; [discriminate| | | |lia|lia| |].
  - eapply (ok_prefix PREOP_Get _ t (Tok u) PREC_HIGHEST); eauto; [rewrite Hp; split; reflexivity|apply binds_tok].
  - apply binds_none. reflexivity.
  - discriminate.
  - apply left_other. reflexivity.
  - apply yields_none. intros q b L. inversion L; subst. contradiction.
Qed.

Lemma prefix_integral_ok : forall op1 op2, prefix_of (t_kind t) = PP_Integral op1 op2 -> t_kind t <> TK_EndOfFile -> goal (prefix_integral o dbg run op1 op2 t).
Proof.
  intros op1 op2 Hp N. apply strict_goal. unfold prefix_integral. apply PW_bind. apply P_next; auto. intros z1 F1 _ L1. apply PW_bind, PW_push_context. apply PW_bind. eapply F_eat; eauto.
  intros u z2 ch2 F2 L2 HL2 Hs2 _ _.
  assert (K : forall z3 ch3 b, fr z3 S ch3 [Tok t; b] -> (len z3 <= len z2)%nat -> operand b = true -> binds PREC_CLASS_INTEGRATIONOPERATORS b ->
     (open_ended b = true -> stops G (dangling b) (here z3)) /\ tail G PREC_CLASS_INTEGRATIONOPERATORS (here z3) b ->
     PW (' (l, v) <- current_token o dbg ;; if negb (is_differential (t_kind v)) then trivia_reset l ;; reduce_op KPrefix op2 ;; run CClimb
         else push_trivia l ;; run (CPrefix v) ;; reduce_op KPrefixBinary op1 ;; run CClimb)%parser (mkp z3 (S ++ ch3) (mkctx PREC_CLASS_INTEGRATIONOPERATORS (length S) :: C) G)
       (finished S C G (fun z' _ => (len z' < len z)%nat))).
  { intros z3 ch3 b F3 L3 Ob Bb Sb. pose proof (fr_parts _ _ _ _ F3) as P. apply PW_bind. apply F_current; [apply (fr_good _ _ _ _ F3)|]. intros l v z4 G4 R4 L4 St4 HL4 Hs4 Hst4. cbv beta iota.
    destruct (is_differential (t_kind v)) eqn:Ed; cbn [negb].
    - assert (Cb : open_ended b = false).
      { destruct (open_ended b) eqn:Eb; auto. exfalso. specialize (Hst4 _ (proj1 Sb eq_refl)). unfold is_differential in Ed. apply orb_true_iff in Ed as [X|X]; apply Z.eqb_eq in X; rewrite X in Hst4;
          destruct Hst4 as [Y|[Y _]]; vm_compute in Y; discriminate Y. }
      apply PW_bind. apply (F_push_trivia isTrivia z3 z4 S ch3 [Tok t; b] (qtop G) l v); auto; [reflexivity|]. intros F4. apply PW_bind. eapply rec_prefix; eauto; [discriminate|pose proof (rank_prefix v); lia|].
      intros z5 c F5 L5 Oc Bc Sc _. pose proof (fr_parts _ _ _ _ F5) as P5. cbn [app] in P5. eapply F_reduce; eauto; [discriminate| | | |lia|lia| |].
      + eapply (ok_prefix_binary op1 _ t b c op2); eauto.
      + apply binds_none. reflexivity.
      + cbn. rewrite Cb, orb_false_r. exact (proj1 Sc).
      + apply left_other. reflexivity.
      + eapply yields_lasts; [eapply lasts_prefix_binary; eauto|exact (proj2 Sc)].
    - apply PW_bind. eapply (F_back isTrivia z3 z4); eauto. intros z5 F5 H5 L5 _. eapply F_reduce; eauto; [discriminate| | | |lia|lia| |].
      + eapply (ok_prefix op2 _ t b PREC_CLASS_INTEGRATIONOPERATORS); eauto. rewrite Hp. split; reflexivity.
      + apply binds_none. reflexivity.
      + cbn. rewrite orb_false_r, H5. exact (proj1 Sb).
      + apply left_other. reflexivity.
      + rewrite H5. eapply yields_lasts; [eapply (lasts_prefix op2 _ t b PREC_CLASS_INTEGRATIONOPERATORS); eauto; intros _; rewrite Hp; split; reflexivity|exact (proj2 Sb)]. }
  apply PW_bind. destruct (is_differential (t_kind u)) eqn:Ed.
  - eapply (F_fake (qtop G)); eauto; try reflexivity. intros F3. eapply K; [exact F3|lia|reflexivity|apply binds_tok|split; [discriminate|apply tail_dead; reflexivity]].
  - eapply rec_prefix; eauto; [discriminate|pose proof (rank_prefix u); lia|]. intros z3 b F3 L3 Ob Bb Sb _. eapply K; [exact F3|lia|auto|auto|auto].
Qed.

Lemma prefix_span_ok : prefix_of (t_kind t) = PP_SemiSemi -> goal (prefix_span o dbg run t).
Proof.
  intros Hp. pose proof (solidk_prefix _ Hs) as Pf. unfold prefix_facts in Pf. rewrite Hp in Pf. pose proof Pf as Pk. apply Z.eqb_eq in Pk.
  apply strict_goal. unfold prefix_span. apply PW_bind, PW_debug; auto. apply PW_bind. apply P_fake; [reflexivity|reflexivity|reflexivity|]. intros F1 _.
  apply PW_bind, PW_push_context. eapply infix_span_ok; eauto; [reflexivity|reflexivity|].
  intros kd op ch' r Pc. apply binds_none. cbn [root_precedence]. destruct kd; auto; rewrite Pc, Pk; reflexivity.
Qed.
End Prefix.

(** ** Blanks, patterns and slots *)
Lemma P_under : forall bop pbop t z W C G S (Q : cst -> pst -> Prop), good z -> acct z W -> looks o (qtop G) z t -> blank_entry (t_kind t) bop pbop -> solidk (t_kind t) = true ->
  leaf_kind (t_kind t) = true -> t_kind t <> TK_EndOfFile ->
  (forall z' n, good z' -> acct z' (W ++ [n]) -> (len z' < len z)%nat -> blank_of bop t n -> shaped n -> operand n = true -> open_ended n = false -> root_precedence n = None ->
     Q n (mkp z' S C G)) ->
  PW (get_under o bop t) (mkp z S C G) Q.
Proof.
  intros bop pbop t z W C G S Q Hg Ha HL Hbl Hs Hlf N HQ. unfold get_under. apply PW_bind.
  apply (PW_skip o base E (qtop G) z t); auto; [reflexivity|]. intros z1 G1 H1 R1 L1 L1'.
  assert (A1 : acct z1 (W ++ [Tok t])) by (eapply (acct_told (qtop G) z z1 t t); eauto; [reflexivity|apply looks_reads; auto|left; auto]).
  assert (L1s : (len z1 < len z)%nat) by (apply L1'; eapply reads_text; eauto; apply looks_reads; exact HL).
  apply PW_bind, (PW_peek o base E HE); auto. intros u z2 G2 H2 LE2 HL2 R2. pose proof (len_here _ _ H2) as Ln2. pose proof (acct_here _ _ _ A1 H2) as A2.
  destruct ((t_kind u =? TK_Symbol) || (t_kind u =? TK_Error_ExpectedLetterlike)) eqn:Eu.
  - assert (Ku : t_kind u = TK_Symbol \/ t_kind u = TK_Error_ExpectedLetterlike) by (apply orb_true_iff in Eu as [X|X]; apply Z.eqb_eq in X; auto).
    assert (Nu : t_kind u <> TK_EndOfFile) by (destruct Ku as [X|X]; rewrite X; discriminate).
    apply PW_bind. apply (PW_skip o base E (qtop G) z2 u); auto; [reflexivity|]. intros z3 G3 H3 R3 L3 _. apply PW_ret. apply HQ; auto.
    + apply acct_op. change (W ++ [Tok t; Tok u]) with (W ++ [Tok t] ++ [Tok u]). rewrite app_assoc.
      eapply (acct_told (qtop G) z2 z3 u u); eauto; [reflexivity|apply looks_reads; auto|left; auto].
    + lia.
    + right. exists u. auto.
    + apply shaped_node; [constructor; eapply comp_blank; eauto|apply left_other; reflexivity|]. cbn [children]. constructor; [|constructor; auto]; apply shaped_tok.
    + cbn. destruct (isTrivia (t_kind u)), (isTrivia (t_kind t)); reflexivity.
  - apply PW_ret. apply HQ; auto; [lia|left; auto|apply shaped_tok].
Qed.

Section Prefix2.
Variables (z : st) (S : list cst) (C : list ctx) (G : list Z) (t : token).
Hypothesis Hg : good z.
Hypothesis Ha : acct z S.
Hypothesis HL : looks o (qtop G) z t.
Hypothesis Hs : solidk (t_kind t) = true.
Hypothesis Hc : 0 <= cprec C.
Hypothesis Hk : (6 * len z <= k)%nat.
Hypothesis Hne : t_kind t <> TK_EndOfFile.
Hypothesis Hlf : leaf_kind (t_kind t) = true.

Local Notation goal m := (PW m (mkp z S C G) (post (CPrefix t) S C G (mkp z S C G))).

Lemma blank_entryb_ok : forall kd bop pbop, blank_entryb kd bop pbop = true -> blank_entry kd bop pbop.
Proof.
  intros kd bop pbop H. unfold blank_entryb in H. apply orb_true_iff in H as [H|H]; [apply orb_true_iff in H as [H|H]|];
    apply andb_true_iff in H as [H H3]; apply andb_true_iff in H as [H1 H2]; apply Z.eqb_eq in H1, H2, H3; [left|right; left|right; right]; auto.
Qed.

Lemma prefix_under_ok : forall bop pbop, prefix_of (t_kind t) = PP_Under bop pbop -> goal (prefix_under o run bop t).
Proof.
  intros bop pbop Hp. pose proof (solidk_prefix _ Hs) as Pf. unfold prefix_facts in Pf. rewrite Hp in Pf. apply andb_true_iff in Pf as [Pf _]. apply blank_entryb_ok in Pf.
  apply strict_goal. unfold prefix_under. apply PW_bind. eapply (P_under bop pbop t z S); eauto. intros z1 n G1 A1 L1 Bl Sn On Opn Rp.
  apply PW_bind, PW_push_node. apply rec_climb; auto; [|lia]. split; auto. split; auto. split; [apply binds_none; auto|]. split; [congruence|].
  destruct Bl as [->|(u & -> & _)]; [apply yields_tok|apply yields_op; reflexivity].
Qed.

Lemma compound_climb : forall op l z', good z' -> acct z' (S ++ l) -> compound_ok op l -> Forall shaped l -> (len z' < len z)%nat ->
  PW (push_node (Op KCompound op l) ;; run CClimb)%parser (mkp z' S C G) (finished S C G (fun z' _ => (len z' < len z)%nat)).
Proof.
  intros op l z' G' A' Hcm Hsh L'. apply PW_bind, PW_push_node. apply rec_climb; auto; [|split; [reflexivity|split; [|split; [|split; [|apply yields_op; reflexivity]]]]|lia].
  - apply acct_op. exact A'.
  - apply shaped_node; [constructor; auto|apply left_other; reflexivity|exact Hsh].
  - apply binds_none. reflexivity.
  - intros X. exfalso. clear - X Hcm. assert (K : open_ended (Op KCompound op l) = false); [|congruence].
    destruct Hcm as [| ? ? ? ? ? Hx1 Hx2 [->|(? & -> & Hx)]| | | |]; cbn; repeat match goal with |- context [if ?b then _ else _] => destruct b end; auto.
Qed.

Lemma push_and_climb_ok : forall z', good z' -> acct z' (S ++ [Tok t]) -> (len z' < len z)%nat ->
  PW (push_and_climb dbg run t) (mkp z' S C G) (finished S C G (fun z' _ => (len z' < len z)%nat)).
Proof.
  intros z' G' A' L'. unfold push_and_climb. apply PW_bind. apply PW_push_leaf; [apply solidk_trivia; auto|]. apply rec_climb; auto; [apply leaf_ok; auto|lia].
Qed.

Lemma pattern_blank_ok : forall bop pbop u z', t_kind t = TK_Symbol -> good z' -> acct z' (S ++ [Tok t]) -> (len z' < len z)%nat -> looks o (qtop G) z' u ->
  blank_entry (t_kind u) bop pbop -> PW (pattern_blank o dbg run bop pbop t u) (mkp z' S C G) (finished S C G (fun z' _ => (len z' < len z)%nat)).
Proof.
  intros bop pbop u z' Kt G' A' L' HL' Hb. unfold pattern_blank.
  assert (Fu : solidk (t_kind u) = true /\ leaf_kind (t_kind u) = true /\ t_kind u <> TK_EndOfFile).
  { destruct Hb as [(-> & _)|[(-> & _)|(-> & _)]]; (split; [vm_compute; reflexivity|split; [reflexivity|discriminate]]). }
  destruct Fu as (Fu1 & Fu2 & Fu3). apply PW_bind. eapply (P_under bop pbop u z' (S ++ [Tok t])); eauto. intros z1 n G1 A1 L1 Bl Sn On Opn Rp.
  apply PW_bind, PW_debug; [apply Z.eqb_eq; auto|]. eapply compound_climb; eauto; [|eapply comp_pattern; eauto| |lia].
  - rewrite <- app_assoc in A1. exact A1.
  - constructor; [apply shaped_tok|constructor; auto].
Qed.

Lemma prefix_symbol_ok : t_kind t = TK_Symbol -> goal (prefix_symbol o dbg run t).
Proof.
  intros Kt. apply strict_goal. unfold prefix_symbol. apply PW_bind. eapply P_skip; eauto. intros z1 G1 A1 H1 L1.
  apply PW_bind, (PW_peek o base E HE); auto. intros u z2 G2 H2 LE2 HL2 R2. pose proof (len_here _ _ H2) as Ln2. pose proof (acct_here _ _ _ A1 H2) as A2.
  destruct (Z.eqb_spec (t_kind u) TK_Under) as [E1|_]; [eapply pattern_blank_ok; eauto; [lia|left; auto]|].
  destruct (Z.eqb_spec (t_kind u) TK_UnderUnder) as [E1|_]; [eapply pattern_blank_ok; eauto; [lia|right; left; auto]|].
  destruct (Z.eqb_spec (t_kind u) TK_UnderUnderUnder) as [E1|_]; [eapply pattern_blank_ok; eauto; [lia|right; right; auto]|].
  destruct (Z.eqb_spec (t_kind u) TK_UnderDot) as [E1|_]; [|apply push_and_climb_ok; auto; lia].
  apply PW_bind. assert (Nu : t_kind u <> TK_EndOfFile) by (rewrite E1; discriminate).
  apply (PW_skip o base E (qtop G) z2 u); auto; [reflexivity|]. intros z3 G3 H3 R3 L3 _. apply PW_bind, PW_debug; [apply Z.eqb_eq; auto|].
  eapply compound_climb; eauto; [|apply comp_optional; auto| |lia].
  - change [Tok t; Tok u] with ([Tok t] ++ [Tok u]). rewrite app_assoc. eapply (acct_told (qtop G) z2 z3 u u); eauto; [reflexivity|apply looks_reads; auto|left; auto].
  - constructor; [|constructor; auto]; apply shaped_tok.
Qed.

Lemma peek_with_eq : forall pol z S C G, ppeek_with o pol (mkp z S C G) = tk (ask o (AsToken (isg G) pol)) (mkp z S C G).
Proof. intros. unfold ppeek_with, inside_group, isg. cbn [groups ask]. reflexivity. Qed.

Lemma prefix_slot_ok : forall pol args op, p_scan pol = false -> zin (t_kind t) [TK_Hash; TK_HashHash; TK_Percent] = true ->
  (forall u, zin (t_kind u) args = true -> t_kind u <> TK_EndOfFile /\ compound_ok op [Tok t; Tok u]) -> goal (prefix_slot o dbg run pol args op t).
Proof.
  intros pol args op Hpol Hkt Hargs. apply strict_goal. unfold prefix_slot. apply PW_bind. eapply P_skip; eauto. intros z1 G1 A1 H1 L1.
  apply PW_bind. unfold ParserRules.PW at 1. rewrite peek_with_eq.
  match goal with |- match tk ?m ?s with _ => _ end => change (PW (tk m) s (fun u s' => PW (if zin (t_kind u) args then
    (pskip u ;; pdebug_assert dbg (zin (t_kind t) [TK_Hash; TK_HashHash; TK_Percent]) ;; push_node (Op KCompound op [Tok t; Tok u]) ;; run CClimb)%parser
    else push_and_climb dbg run t) s' (finished S C G (fun z' _ => (len z' < len z)%nat)))) end.
  apply (PW_ask o base E HE (AsToken (isg G) pol)); auto. intros u z2 G2 H2 _ HL2 R2. pose proof (len_here _ _ H2) as Ln2. pose proof (acct_here _ _ _ A1 H2) as A2.
  destruct (zin (t_kind u) args) eqn:Eu; [|apply push_and_climb_ok; auto; lia].
  destruct (Hargs u Eu) as [Nu Cu]. apply PW_bind. apply (PW_skip o base E (AsToken (isg G) pol) z2 u); auto. intros z3 G3 H3 R3 L3 _. apply PW_bind, PW_debug; auto.
  eapply compound_climb; eauto; [| |lia].
  - change [Tok t; Tok u] with ([Tok t] ++ [Tok u]). rewrite app_assoc. eapply (acct_told (AsToken (isg G) pol) z2 z3 u u); eauto; [apply looks_reads; auto|left; auto].
  - constructor; [|constructor; auto]; apply shaped_tok.
Qed.
End Prefix2.

Lemma consuming_not_eof : forall t, solidk (t_kind t) = true -> consuming (prefix_of (t_kind t)) = true -> t_kind t <> TK_EndOfFile.
Proof. intros t Hs H X. rewrite X in H. vm_compute in H. discriminate. Qed.

Lemma parse_prefix_ok : forall t S C G s, pre (CPrefix t) S C G s -> (measure (CPrefix t) s <= Datatypes.S k)%nat ->
  PW (parse_prefix o dbg run t) s (post (CPrefix t) S C G s).
Proof.
  intros t S C G s (z & -> & Hg & Ha & HL & Hs & Hc) Hm. unfold measure in Hm. cbn [tz] in Hm.
  pose proof (solidk_prefix _ Hs) as Pf. pose proof (consuming_not_eof t Hs) as Ne. assert (Hk : (6 * len z <= k)%nat) by (unfold rank in Hm; destruct (prefix_of (t_kind t)); lia).
  unfold prefix_facts in Pf. unfold parse_prefix. destruct (prefix_of (t_kind t)) as [| | | | | | |pp0 po0|opener op| | |i1 i2| | | | |u1 u2|] eqn:Ep; cbn [rank] in Hm; try rewrite Ep in Hm.
  - eapply prefix_leaf_ok; eauto.
  - eapply prefix_eof_ok; eauto.
  - apply andb_true_iff in Pf as [P1 P2]. eapply prefix_error_ok; eauto.
  - eapply prefix_closer_ok; eauto.
  - eapply prefix_unsupported_ok; eauto.
  - eapply prefix_comma_ok; eauto. lia.
  - eapply prefix_unhandled_ok; eauto. lia.
  - eapply prefix_operator_ok; eauto.
  - apply strict_goal. eapply PW_conseq; [eapply prefix_group_ok; eauto|]. intros [] s' (z' & n' & H1 & H2 & H3 & H4 & H5 & _). exists z', n'. auto.
  - apply andb_true_iff in Pf as [P1 P2]. apply Z.eqb_eq in P1. eapply prefix_symbol_ok; eauto.
  - eapply prefix_span_ok; eauto.
  - eapply prefix_integral_ok; eauto.
  - eapply prefix_less_less_ok; eauto.
  - apply andb_true_iff in Pf as [P1 P2]. apply Z.eqb_eq in P1. unfold prefix_hash. eapply prefix_slot_ok; eauto; [rewrite P1; reflexivity|].
    intros u Hu. apply zin_In in Hu. cbn [In] in Hu. destruct Hu as [X|[X|[]]]; (split; [rewrite <- X; discriminate|apply comp_slot; auto]).
  - apply andb_true_iff in Pf as [P1 P2]. apply Z.eqb_eq in P1. unfold prefix_hash_hash. eapply prefix_slot_ok; eauto; [rewrite P1; reflexivity|].
    intros u Hu. apply zin_In in Hu. cbn [In] in Hu. destruct Hu as [X|[]]; (split; [rewrite <- X; discriminate|apply comp_slots; auto]).
  - apply andb_true_iff in Pf as [P1 P2]. apply Z.eqb_eq in P1. unfold prefix_percent. eapply prefix_slot_ok; eauto; [rewrite P1; reflexivity|].
    intros u Hu. apply zin_In in Hu. cbn [In] in Hu. destruct Hu as [X|[]]; (split; [rewrite <- X; discriminate|apply comp_out; auto]).
  - apply andb_true_iff in Pf as [P1 P2]. eapply prefix_under_ok; eauto.
  - eapply prefix_leaf_ok; eauto.
Qed.

Lemma answer_ok : forall c S C G s, pre c S C G s -> (measure c s <= Datatypes.S k)%nat -> PW (answer o dbg repair run c) s (post c S C G s).
Proof.
  intros c S C G s Hp Hm. destruct c as [t|t| |op closer|op| | | |]; cbn [answer].
  - apply parse_prefix_ok; auto.
  - apply parse_infix_ok; auto.
  - apply climb_ok; auto.
  - destruct Hp as (z & t & mid & ps & -> & F & H1 & H2 & H3 & H4 & H5 & H6 & H7 & H8). unfold measure in Hm. cbn [tz rank] in Hm.
    eapply PW_conseq; [eapply group_loop_ok; eauto; lia|]. intros [] s' H. exact H.
  - destruct Hp as [(z & ch & ps & q & -> & F & H1 & H2 & H3 & H4 & H5) Hz]. unfold measure in Hm. cbn [tz rank] in Hm.
    eapply PW_conseq; [eapply infix_loop_ok; eauto; lia|]. intros u s' H. eapply (loop_post _ op); eauto. left. auto.
  - destruct Hp as (z & ch & ps & q & -> & F & H1 & H2 & H3 & H4 & H5). unfold measure in Hm. cbn [tz rank] in Hm.
    eapply PW_conseq; [eapply times_loop_ok; eauto; lia|]. intros u s' H. eapply (loop_post _ IOP_Times); eauto. right. left. auto.
  - destruct Hp as (z & ch & ps & q & -> & F & H1 & H2 & H3 & H4 & H5). unfold measure in Hm. cbn [tz rank] in Hm.
    eapply PW_conseq; [eapply comma_loop_ok; eauto; lia|]. intros u s' H. eapply (loop_post _ IOP_CodeParser_Comma); eauto. right. right. left. auto.
  - destruct Hp as (z & ch & ps & q & -> & F & H1 & H2 & H3 & H4 & H5). unfold measure in Hm. cbn [tz rank] in Hm.
    eapply PW_conseq; [eapply semi_loop_ok; eauto; lia|]. intros u s' H. eapply (loop_post _ IOP_CompoundExpression); eauto. right. right. right. left. auto.
  - destruct Hp as (z & ch & ps & q & -> & F & H1 & H2 & H3 & H4 & H5). unfold measure in Hm. cbn [tz rank] in Hm.
    eapply PW_conseq; [eapply colon_colon_loop_ok; eauto; lia|]. intros u s' H. eapply (loop_post _ IOP_MessageName); eauto. right. right. right. right. auto.
Qed.

End Main.
