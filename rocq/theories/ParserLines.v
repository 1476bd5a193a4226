(** Ends of lines and neighbours: an invariant of the parser, by partial correctness. *)
From Coq Require Import ZArith List Bool Lia Arith.
From Verif Require Import Base Source WLChar LongNames ByteDecoder CharDecoder Decode SpecText Iter
  TextProofs Logic LongNamesProofs WlDecode SpecReader ReaderProofs GenTokenKind TokenKind Format FormatProofs Tokenizer TokLogic
  TokenizerProofs SpecTokenizer TokenLoop TokSim TokAgree TokResults GenPrec GenOps GenParselets Parselets Cst SpecCst CstProofs Parser SpecParser SpecParse
  ParserLogic ParserRules ParserProofs ParserResults ParserTheorems RepairProofs ParserGaps TokKinds SpecLines.
Import ListNotations.
Local Open Scope Z_scope.

(** ** Tables *)
Definition final (k : Z) : bool := match infix_of k with IP_InfixAssertFalse | IP_InfixToplevelNewline => true | _ => false end.
Definition line_facts (k : Z) : bool :=
  (match prefix_of k with PP_PrefixEndOfFile | PP_PrefixError | PP_PrefixCloser | PP_PrefixUnsupportedToken => true | _ => negb (final k) end) &&
  negb (k =? TK_Fake_ImplicitTimes) && (if isCloser k then final k else true) &&
  (match infix_of k with IP_BinaryOperator _ op => negb (op =? BOP_Span) | IP_InfixOperator _ op => negb (zin op [IOP_CompoundExpression; IOP_MessageName]) | _ => true end).
Lemma line_facts_all : forallb line_facts SOLID_KINDS = true.
Proof. vm_compute. reflexivity. Qed.
Lemma solid_line : forall k, solidk k = true -> line_facts k = true.
Proof. exact (solidk_forall _ line_facts_all). Qed.
Lemma solid_final : forall k, solidk k = true -> match prefix_of k with PP_PrefixEndOfFile | PP_PrefixError | PP_PrefixCloser | PP_PrefixUnsupportedToken => True | _ => final k = false end.
Proof.
  intros k H. apply solid_line in H. unfold line_facts in H. do 3 apply andb_true_iff in H as [H _].
  destruct (prefix_of k); auto; try exact I; apply negb_true_iff in H; exact H.
Qed.
Lemma solid_unfake : forall k, solidk k = true -> k <> TK_Fake_ImplicitTimes.
Proof. intros k H. apply solid_line in H. unfold line_facts in H. do 2 apply andb_true_iff in H as [H _]. apply andb_true_iff in H as [_ H]. apply negb_true_iff, Z.eqb_neq in H. exact H. Qed.
Lemma closer_final : forall k, solidk k = true -> isCloser k = true -> final k = true.
Proof. intros k H C. apply solid_line in H. unfold line_facts in H. apply andb_true_iff in H as [H _]. apply andb_true_iff in H as [_ H]. rewrite C in H. exact H. Qed.
Lemma solid_ops : forall k, solidk k = true -> match infix_of k with IP_BinaryOperator _ op => op <> BOP_Span | IP_InfixOperator _ op => op <> IOP_CompoundExpression /\ op <> IOP_MessageName | _ => True end.
Proof.
  intros k H. apply solid_line in H. unfold line_facts in H. apply andb_true_iff in H as [_ H]. destruct (infix_of k) as [| | | |p op|p op| |p op|opener op| | | | | | | | | | |]; auto; try exact I; apply negb_true_iff in H.
  - apply Z.eqb_neq in H. exact H.
  - split; intros ->; vm_compute in H; discriminate.
Qed.
Lemma nl_not : forall k, isTriviaButNotToplevelNewline k = true -> k <> TK_ToplevelNewline.
Proof. intros k H X. rewrite X in H. vm_compute in H. discriminate. Qed.

(** ** Places of ends of lines *)
Lemma line_end_trivia : forall n, line_end n -> trivia_leaf n = true.
Proof. intros n (t & -> & H). cbn [trivia_leaf]. rewrite H. reflexivity. Qed.
Lemma breaks_nil : forall i, ~ breaks [] i.
Proof. intros i (l & n & r & E & _). destruct l; discriminate E. Qed.
Lemma breaks_app : forall a b i, breaks (a ++ b) i -> breaks a i \/ (exists j, breaks b j /\ i = (length (parts a) + j)%nat).
Proof.
  intros a b i (l & n & r & E & Hn & Hi). apply app_eq_app in E as (m & [[-> E]|[-> E]]).
  - destruct m as [|x m]; cbn [app] in E.
    + right. exists 0%nat. rewrite app_nil_r. split; [exists [], n, r; auto|lia].
    + left. injection E as <- _. exists l, n, m. auto.
  - right. exists (length (parts m)). split; [exists m, n, r; auto|]. rewrite <- Hi, parts_app, app_length. reflexivity.
Qed.
Lemma breaks_one : forall n i, trivia_leaf n = false -> ~ breaks [n] i.
Proof.
  intros n i Ht (l & m & r & E & Hm & _). apply line_end_trivia in Hm. destruct l as [|x l]; [injection E as <- _; congruence|]. injection E as _ E. destruct l; discriminate E.
Qed.
Lemma breaks_toks : forall l i, breaks (map Tok l) i -> exists t, In t l /\ t_kind t = TK_ToplevelNewline.
Proof.
  intros l i (a & n & r & E & (t & -> & Hn) & _). exists t. split; auto. assert (X : In (Tok t) (map Tok l)) by (rewrite E; apply in_or_app; right; left; reflexivity).
  apply in_map_iff in X as (u & U & X). injection U as ->. exact X.
Qed.
Lemma in_breaks : forall ch m, In m ch -> line_end m -> exists i, breaks ch i.
Proof. intros ch m H Hm. apply in_split in H as (l & r & ->). exists (length (parts l)), l, m, r. auto. Qed.

(** ** Nodes *)
Definition line_ok (n : cst) : Prop := newline_ok n /\ brackets_ok n /\ neighbours_ok n.
Definition lined (n : cst) : Prop := Forall line_ok (nodes n).
Definition quiet (n : cst) : Prop := Forall no_line_end (nodes n).
Lemma node_all : forall (P : cst -> Prop) n, P n -> Forall (fun m => Forall P (nodes m)) (children n) -> Forall P (nodes n).
Proof. intros P n H1 H2. rewrite nodes_eq. constructor; auto. apply Forall_flat_map. exact H2. Qed.
Lemma all_node : forall (P : cst -> Prop) n, Forall P (nodes n) -> P n /\ Forall (fun m => Forall P (nodes m)) (children n).
Proof. intros P n H. rewrite nodes_eq in H. apply Forall_cons_iff in H as [H1 H2]. split; auto. apply Forall_flat_map in H2. exact H2. Qed.
Lemma line_ok_tok : forall t, line_ok (Tok t).
Proof. intros t. split; [exact I|]. split; [intros m []|exact I]. Qed.
Lemma lined_tok : forall t, lined (Tok t).
Proof. intros t. apply node_all; [apply line_ok_tok|constructor]. Qed.
Lemma quiet_tok : forall t, quiet (Tok t).
Proof. intros t. apply node_all; [right; intros m []|constructor]. Qed.
Lemma lined_toks : forall l, Forall lined (map Tok l).
Proof. induction l; cbn; constructor; auto using lined_tok. Qed.
Lemma quiet_toks : forall l, Forall quiet (map Tok l).
Proof. induction l; cbn; constructor; auto using quiet_tok. Qed.

(** ** Chains *)
Lemma fake_times_app : forall ps x i, (i < length ps)%nat -> fake_times (ps ++ [x]) i <-> fake_times ps i.
Proof. intros ps x i H. unfold fake_times. rewrite nth_error_app1 by exact H. reflexivity. Qed.
Lemma operator_at_le : forall i, (operator_at i <= i)%nat.
Proof. intros i. unfold operator_at. destruct (Nat.odd i); lia. Qed.
Lemma mb_app : forall op ps x i, may_break KInfix op ps i -> may_break KInfix op (ps ++ [x]) i.
Proof.
  intros op ps x i (H1 & H2 & H3 & H4). split; [rewrite app_length; lia|]. split; auto. split; auto. rewrite fake_times_app; auto. pose proof (operator_at_le i). lia.
Qed.
Lemma mb_operator : forall op ps t, Nat.odd (length ps) = true -> (2 <= length ps)%nat -> t_kind t <> TK_Fake_ImplicitTimes -> may_break KInfix op (ps ++ [Tok t]) (length ps).
Proof.
  intros op ps t H1 H2 H3. split; [rewrite app_length; cbn; lia|]. split; auto. split; auto. unfold operator_at. rewrite H1. intros (u & X & Y). rewrite nth_error_app2, Nat.sub_diag in X by lia. injection X as <-. contradiction.
Qed.
Lemma mb_operand : forall op ps t b, Nat.odd (length ps) = true -> t_kind t <> TK_Fake_ImplicitTimes -> op <> IOP_CompoundExpression -> op <> IOP_MessageName -> may_break KInfix op ((ps ++ [Tok t]) ++ [b]) (length (ps ++ [Tok t])).
Proof.
  intros op ps t b H1 H2 H3 H4. rewrite !app_length. cbn [length]. assert (L : (length ps <> 0)%nat) by (intros X; rewrite X in H1; discriminate H1). split; [rewrite !app_length; cbn; lia|]. split; [lia|].
  split; [intros [X|X]; contradiction|]. unfold operator_at. rewrite Nat.add_1_r, Nat.odd_succ, <- Nat.negb_odd, H1. cbn [negb]. replace (Datatypes.S (length ps) - 1)%nat with (length ps) by lia.
  intros (u & X & Y). rewrite <- app_assoc, nth_error_app2, Nat.sub_diag in X by lia. injection X as <-. contradiction.
Qed.

(** neighbours *)
Lemma apart_snoc : forall mid b, apart mid -> (forall l a, mid = l ++ [a] -> beside a b) -> apart (mid ++ [b]).
Proof.
  intros mid b H K l1 x y l2 E. destruct l2 as [|w l3 _] using rev_ind.
  - change (l1 ++ x :: y :: []) with (l1 ++ [x] ++ [y]) in E. rewrite app_assoc in E. apply app_inj_tail in E as [-> ->]. eapply K; reflexivity.
  - change (l1 ++ x :: y :: l3 ++ [w]) with (l1 ++ (x :: y :: l3) ++ [w]) in E. rewrite app_assoc in E. apply app_inj_tail in E as [-> _]. eapply H; reflexivity.
Qed.

Section Lines.
Variable o : opts.
Variable dbg : bool.
Variable base : st.
Local Notation good := (good o base).
Local Notation follows := (follows o).
Variable run : call -> P unit.

Lemma group_reads : forall G p t, G <> [] -> reads o (qtop G) p t -> t_kind t <> TK_ToplevelNewline.
Proof. intros G p t H (z & z' & _ & _ & A). destruct G as [|c G]; [contradiction|]. exact (grouped_newline _ _ _ _ _ A). Qed.
Lemma strip_reads : forall q triv p l t p', strip o q triv p l t p' -> Forall (fun u => exists x, reads o q x u) l.
Proof. intros q triv p l t p' H. induction H as [|p t l u p' H1 H2 H IH]; constructor; eauto. Qed.
Lemma group_strip : forall G triv p l t p', G <> [] -> strip o (qtop G) triv p l t p' -> Forall (fun u => t_kind u <> TK_ToplevelNewline) l.
Proof. intros G triv p l t p' H St. apply strip_reads in St. eapply Forall_impl; [|exact St]. intros u (x & X). eapply group_reads; eauto. Qed.
Lemma nl_strip : forall q p l t p', strip o q isTriviaButNotToplevelNewline p l t p' -> Forall (fun u => t_kind u <> TK_ToplevelNewline) l.
Proof. intros q p l t p' St. destruct (strip_place _ _ _ _ _ _ _ St) as (_ & _ & H). eapply Forall_impl; [|exact H]. intros u. apply nl_not. Qed.
Lemma strip_same : forall g p l t p', strip o (AsToken g TOPLEVEL) isTrivia p l t p' -> Forall (fun u => t_kind u <> TK_ToplevelNewline) l -> strip o (AsToken g TOPLEVEL) isTriviaButNotToplevelNewline p l t p'.
Proof.
  intros g p l t p' H. induction H as [p t Hr Ht|p t l u p' Hr Ht H IH]; intros HF.
  - apply strip_nil; auto. destruct (isTriviaButNotToplevelNewline (t_kind t)) eqn:E; auto. apply triv_newline in E. congruence.
  - inversion HF as [|? ? X Y]; subst. eapply strip_cons; eauto. destruct (isTriviaButNotToplevelNewline (t_kind t)) eqn:E; auto.
    destruct (reads_newline _ _ _ _ Hr E) as [K|K]; [|contradiction]. apply solidk_trivia in K. congruence.
Qed.
Lemma no_breaks : forall l i, Forall (fun u => t_kind u <> TK_ToplevelNewline) l -> ~ breaks (map Tok l) i.
Proof. intros l i H X. apply breaks_toks in X as (t & X & Y). rewrite Forall_forall in H. exact (H t X Y). Qed.

(** ** Frames *)
Definition none (i : nat) : Prop := False.
Definition plus (B : nat -> Prop) (k : nat) (i : nat) : Prop := B i \/ i = k.
Record fl (f : bool) (G : list Z) (B : nat -> Prop) (z : st) (ch ps : list cst) : Prop := mkfl {
  fl_good : good z; fl_parts : parts ch = ps; fl_br : forall i, breaks ch i -> B i; fl_lined : Forall lined ch;
  fl_quiet : G <> [] -> Forall quiet ch; fl_in : G <> [] -> f = false -> forall i, ~ breaks ch i }.
Definition nd (G : list Z) (n : cst) : Prop := lined n /\ trivia_leaf n = false /\ (G <> [] -> quiet n).
Lemma nd_tok : forall G t, isTrivia (t_kind t) = false -> nd G (Tok t).
Proof. intros G t H. split; [apply lined_tok|]. split; [exact H|]. intros _. apply quiet_tok. Qed.

Lemma fl_move : forall f G B z z' ch ps, fl f G B z ch ps -> good z' -> fl f G B z' ch ps.
Proof. intros f G B z z' ch ps [A1 A2 A3 A4 A5 A6] H. constructor; auto. Qed.
Lemma fl_weaken : forall f G (B B' : nat -> Prop) z ch ps, fl f G B z ch ps -> (forall i, B i -> B' i) -> fl f G B' z ch ps.
Proof. intros f G B B' z ch ps [A1 A2 A3 A4 A5 A6] H. constructor; auto. Qed.
Lemma fl_file : forall f G B z ch ps, fl f G B z ch ps -> fl true G B z ch ps.
Proof. intros f G B z ch ps [A1 A2 A3 A4 A5 A6]. constructor; auto. discriminate. Qed.
Lemma fl_nil : forall f G z, good z -> fl f G none z [] [].
Proof. intros f G z H. constructor; auto; try constructor. - intros i X. destruct (breaks_nil _ X). - intros _ _ i. apply breaks_nil. Qed.
Lemma parts_toks : forall ch ps l triv, (forall kd, triv kd = true -> isTrivia kd = true) -> parts ch = ps -> Forall (fun t => triv (t_kind t) = true) l -> parts (ch ++ map Tok l) = ps.
Proof. intros ch ps l triv Ht B HT. rewrite parts_app, B, parts_trivia, app_nil_r; auto. eapply Forall_impl; [|exact HT]. auto. Qed.
Lemma fl_trivia_nl : forall f G B z z' ch ps q l t p p', fl f G B z ch ps -> good z' -> strip o q isTriviaButNotToplevelNewline p l t p' -> fl f G B z' (ch ++ map Tok l) ps.
Proof.
  intros f G B z z' ch ps q l t p p' [A1 A2 A3 A4 A5 A6] H St. destruct (strip_place _ _ _ _ _ _ _ St) as (_ & _ & HT). pose proof (nl_strip _ _ _ _ _ St) as HN.
  assert (K : forall i, breaks (ch ++ map Tok l) i -> breaks ch i).
  { intros i X. apply breaks_app in X as [X|(j & X & _)]; auto. destruct (no_breaks _ _ HN X). }
  constructor; auto.
  - apply (parts_toks _ _ _ isTriviaButNotToplevelNewline triv_newline); auto.
  - apply Forall_app. auto using lined_toks.
  - intros X. apply Forall_app. auto using quiet_toks.
  - intros X Y i Z. eapply A6; eauto.
Qed.
Lemma fl_trivia_any : forall G B z z' ch ps q l t p p', fl true G B z ch ps -> good z' -> strip o q isTrivia p l t p' -> fl true G (plus B (length ps)) z' (ch ++ map Tok l) ps.
Proof.
  intros G B z z' ch ps q l t p p' [A1 A2 A3 A4 A5 A6] H St. destruct (strip_place _ _ _ _ _ _ _ St) as (_ & _ & HT).
  constructor; auto.
  - apply (parts_toks _ _ _ isTrivia (fun _ X => X)); auto.
  - intros i X. apply breaks_app in X as [X|(j & X & ->)]; [left; auto|]. right. rewrite A2. destruct X as (a & n & r & E & _ & <-).
    assert (Z : parts a = []); [|rewrite Z; cbn; lia]. assert (Y : parts (map Tok l) = []) by (apply parts_trivia; exact HT). rewrite E, parts_app in Y. apply app_eq_nil in Y as [Y _]. exact Y.
  - apply Forall_app. auto using lined_toks.
  - intros X. apply Forall_app. auto using quiet_toks.
  - discriminate.
Qed.
Lemma fl_trivia : forall f G B z z' ch ps l t p p', fl f G B z ch ps -> good z' -> strip o (qtop G) isTrivia p l t p' -> fl f G (plus B (length ps)) z' (ch ++ map Tok l) ps.
Proof.
  intros f G B z z' ch ps l t p p' HF H St. pose proof (fl_trivia_any _ _ _ _ _ _ _ _ _ _ _ (fl_file _ _ _ _ _ _ HF) H St) as [A1 A2 A3 A4 A5 _]. constructor; auto.
  intros X Y i Z. apply breaks_app in Z as [Z|(j & Z & _)]; [exact (fl_in _ _ _ _ _ _ HF X Y i Z)|]. exact (no_breaks _ _ (group_strip _ _ _ _ _ _ X St) Z).
Qed.
Lemma fl_snoc : forall f G B z z' ch ps n, fl f G B z ch ps -> good z' -> nd G n -> fl f G B z' (ch ++ [n]) (ps ++ [n]).
Proof.
  intros f G B z z' ch ps n [A1 A2 A3 A4 A5 A6] H (N1 & N2 & N3).
  assert (K : forall i, breaks (ch ++ [n]) i -> breaks ch i).
  { intros i X. apply breaks_app in X as [X|(j & X & _)]; auto. destruct (breaks_one _ _ N2 X). }
  constructor; auto.
  - rewrite parts_app, A2, parts_solid; auto.
  - apply Forall_app; auto.
  - intros X. apply Forall_app; auto.
  - intros X Y i Z. eapply A6; eauto.
Qed.
Lemma fl_tok : forall f G B z z' ch ps t, fl f G B z ch ps -> good z' -> isTrivia (t_kind t) = false -> fl f G B z' (ch ++ [Tok t]) (ps ++ [Tok t]).
Proof. intros. eapply fl_snoc; eauto using nd_tok. Qed.
Lemma fl_one : forall f G z n, good z -> nd G n -> fl f G none z [n] [n].
Proof. intros. apply (fl_snoc f G none z z [] [] n); auto. apply fl_nil; auto. Qed.

Lemma L_next : forall q f D B z S ch ps t C G (Q : unit -> pst -> Prop), plain_request q -> fl f D B z ch ps -> looks o q z t -> t_kind t <> TK_EndOfFile -> isTrivia (t_kind t) = false ->
  (forall z', fl f D B z' (ch ++ [Tok t]) (ps ++ [Tok t]) -> here z' = past t -> R o z z' -> Q tt (mkp z' (S ++ (ch ++ [Tok t])) C G)) ->
  LW (push_syntax_and_next dbg t) (mkp z (S ++ ch) C G) Q.
Proof.
  intros q f D B z S ch ps t C G Q Hq HF HL N Ht HQ. unfold push_syntax_and_next. apply LW_bind, L_syntax. apply (L_skip o base q); auto; [apply (fl_good _ _ _ _ _ _ HF)|].
  intros z' G' H' R'. rewrite <- app_assoc. apply HQ; auto. eapply fl_tok; eauto.
Qed.
Lemma L_next_top : forall f D B z S ch ps t C G G' (Q : unit -> pst -> Prop), fl f D B z ch ps -> looks o (qtop G) z t -> t_kind t <> TK_EndOfFile -> solidk (t_kind t) = true ->
  (forall z', fl f D B z' (ch ++ [Tok t]) (ps ++ [Tok t]) -> here z' = past t -> R o z z' -> Q tt (mkp z' (S ++ (ch ++ [Tok t])) C G')) ->
  LW (push_syntax_and_next dbg t) (mkp z (S ++ ch) C G') Q.
Proof. intros. eapply (L_next (qtop G)); eauto; [reflexivity|apply solidk_trivia; auto]. Qed.
Lemma L_eat : forall f B z S ch ps C G (Q : token -> pst -> Prop), fl f G B z ch ps ->
  (forall t z' ch' l, fl f G (plus B (length ps)) z' ch' ps -> looks o (qtop G) z' t -> solidk (t_kind t) = true -> ch' = ch ++ map Tok l -> strip o (qtop G) isTrivia (here z) l t (here z') -> Q t (mkp z' (S ++ ch') C G)) ->
  LW (eat_trivia o dbg) (mkp z (S ++ ch) C G) Q.
Proof.
  intros f B z S ch ps C G Q HF HQ. unfold eat_trivia. apply LW_bind. apply (L_current o dbg base); [apply (fl_good _ _ _ _ _ _ HF)|]. intros l t z' G' R' St HL Hs.
  apply LW_bind, L_trivia, LW_ret. rewrite <- app_assoc. eapply HQ; eauto. eapply fl_trivia; eauto.
Qed.
Lemma L_eat_nl : forall f B z S ch ps C G (Q : token -> pst -> Prop), fl f G B z ch ps ->
  (forall t z' ch', fl f G B z' ch' ps -> looks o (qtop G) z' t -> solidk (t_kind t) = true \/ t_kind t = TK_ToplevelNewline -> Q t (mkp z' (S ++ ch') C G)) ->
  LW (eat_trivia_not_newline o) (mkp z (S ++ ch) C G) Q.
Proof.
  intros f B z S ch ps C G Q HF HQ. unfold eat_trivia_not_newline. apply LW_bind. apply (L_current_nl o base); [apply (fl_good _ _ _ _ _ _ HF)|]. intros l t z' G' R' St HL Hs.
  apply LW_bind, L_trivia, LW_ret. rewrite <- app_assoc. eapply HQ; eauto. eapply fl_trivia_nl; eauto.
Qed.
Lemma L_eat_file : forall f B z S ch ps C G (Q : token -> pst -> Prop), fl f G B z ch ps ->
  (forall t z' ch', fl true G (plus B (length ps)) z' ch' ps -> looks o AsFile z' t -> isTrivia (t_kind t) = false -> t_kind t <> TK_EndOfFile -> Q t (mkp z' (S ++ ch') C G)) ->
  LW (eat_trivia_as_file o dbg) (mkp z (S ++ ch) C G) Q.
Proof.
  intros f B z S ch ps C G Q HF HQ. unfold eat_trivia_as_file. apply LW_bind. apply LW_PW. apply (PW_current_file o base True (fun _ => I)); [apply (fl_good _ _ _ _ _ _ HF)|].
  intros l t z' G' R' St HL. destruct (strip_place _ _ _ _ _ _ _ St) as (Hr & Ht & _). apply LW_bind, LW_debug, LW_bind, L_trivia, LW_ret. rewrite <- app_assoc.
  eapply HQ; eauto.
  - eapply fl_trivia_any; eauto. eapply fl_file; eauto.
  - apply (file_solid o _ _ Hr Ht).
Qed.
Lemma L_commit : forall f B z0 z1 W c ps l v C0 G0 (Q : unit -> pst -> Prop), fl f G0 B z0 c ps -> good z1 -> strip o (qtop G0) isTrivia (here z0) l v (here z1) ->
  looks o (qtop G0) z1 v -> solidk (t_kind v) = true -> t_kind v <> TK_EndOfFile ->
  (forall z2 c2, fl f G0 (plus B (length ps)) z2 (c2 ++ [Tok v]) (ps ++ [Tok v]) -> Q tt (mkp z2 (W ++ (c2 ++ [Tok v])) C0 G0)) ->
  LW (commit_syntax_and_next dbg l v) (mkp z1 (W ++ c) C0 G0) Q.
Proof.
  intros f B z0 z1 W c ps l v C0 G0 Q HF0 Hg St HL0 Hs0 N HQ. unfold commit_syntax_and_next. apply LW_bind, L_trivia. rewrite <- app_assoc.
  eapply (L_next_top f G0 _ z1); eauto. eapply fl_trivia; eauto.
Qed.
Lemma L_next_fake : forall f D B z S ch ps t0 C G (Q : unit -> pst -> Prop), fl f D B z ch ps -> looks o (qtop G) z t0 ->
  (forall z', fl f D B z' (ch ++ [Tok (tok_at_start TK_Fake_ImplicitTimes t0)]) (ps ++ [Tok (tok_at_start TK_Fake_ImplicitTimes t0)]) -> here z' = here z ->
     Q tt (mkp z' (S ++ (ch ++ [Tok (tok_at_start TK_Fake_ImplicitTimes t0)])) C G)) ->
  LW (push_syntax_and_next dbg (tok_at_start TK_Fake_ImplicitTimes t0)) (mkp z (S ++ ch) C G) Q.
Proof.
  intros f D B z S ch ps t0 C G Q HF HL HQ. unfold push_syntax_and_next. apply LW_bind, L_syntax. rewrite <- app_assoc. apply LW_PW.
  apply (PW_skip_fake o base True (qtop G)); [apply (fl_good _ _ _ _ _ _ HF)|reflexivity|exact HL|reflexivity|discriminate|]. intros z' G' H' L'. apply HQ; auto. eapply fl_tok; eauto.
Qed.

(** ** Requests *)
Local Notation nn C := (0 <= cprec C).
Definition stop (G : list Z) (p : place) (n : cst) : Prop := broken n \/ forall k, follows G p k -> final k = true.
Definition halts (C : list ctx) (G : list Z) (p : place) (n : cst) : Prop :=
  (cprec C = 0 -> stop G p n) /\ (cprec C = PREC_COMMA -> broken n \/ forall k, follows G p k -> final k = true \/ is_comma k = true).
Lemma halts_stop : forall C G p n, stop G p n -> halts C G p n.
Proof. intros C G p n H. split; auto. intros _. destruct H as [H|H]; auto. Qed.
Lemma halts_error : forall C G p n, error_leaf n -> halts C G p n.
Proof. intros C G p n H. apply halts_stop. left. apply broken_leaf. exact H. Qed.
Definition done (S : list cst) (C : list ctx) (G : list Z) (X : cst -> Prop) : unit -> pst -> Prop :=
  fun _ s' => exists z n, s' = mkp z (S ++ [n]) C G /\ good z /\ nd G n /\ halts C G (here z) n /\ X n.
Definition itok (G : list Z) (z : st) (t : token) (q : Z) : Prop :=
  (looks o (qtop G) z t /\ solidk (t_kind t) = true /\ iprec (infix_of (t_kind t)) <> None /\ (infix_of (t_kind t) = IP_Comma -> q = PREC_COMMA)) \/
  (exists t0, t = tok_at_start TK_Fake_ImplicitTimes t0 /\ looks o (qtop G) z t0 /\ solidk (t_kind t0) = true).
Definition odd_long (ps : list cst) : Prop := Nat.odd (length ps) = true /\ (2 <= length ps)%nat.
Definition chain (op : Z) (S : list cst) (C : list ctx) (G : list Z) (s : pst) : Prop :=
  exists z ch ps q, s = mkp z (S ++ ch) (mkctx q (length S) :: C) G /\ fl false G (may_break KInfix op ps) z ch ps /\ odd_long ps /\ 0 <= q /\ nn C /\
    (op = IOP_CodeParser_Comma -> exists l b, ps = l ++ [b] /\ halts (mkctx q (length S) :: C) G (here z) b).
Definition free_op (op : Z) : Prop := op <> IOP_CodeParser_Comma /\ op <> IOP_CompoundExpression /\ op <> IOP_MessageName.
Definition pre (c : call) (S : list cst) (C : list ctx) (G : list Z) (s : pst) : Prop :=
  match c with
  | CPrefix t => exists z, s = mkp z S C G /\ good z /\ looks o (qtop G) z t /\ solidk (t_kind t) = true /\ nn C
  | CInfix t => exists z ch n q, s = mkp z (S ++ ch) (mkctx q (length S) :: C) G /\ fl false G none z ch [n] /\ nn C /\ 0 <= q /\ itok G z t q
  | CClimb => exists z n, s = mkp z (S ++ [n]) C G /\ good z /\ nd G n /\ nn C
  | CGroupLoop op closer => exists z ch t mid, s = mkp z (S ++ ch) (mkctx 0 (length S) :: C) (closer :: G) /\ fl false (closer :: G) none z ch (Tok t :: mid) /\ apart mid /\
      (forall l a, mid = l ++ [a] -> stop (closer :: G) (here z) a) /\ nn C /\ isCloser closer = true
  | CInfixLoop op => chain op S C G s /\ free_op op /\ zin op [IOP_Times; IOP_CodeParser_InternalInvalid] = false
  | CTimesLoop => chain IOP_Times S C G s
  | CCommaLoop => chain IOP_CodeParser_Comma S C G s /\ cprec (ctxs s) = PREC_COMMA
  | CSemiLoop => chain IOP_CompoundExpression S C G s
  | CColonColonLoop => chain IOP_MessageName S C G s
  end.
Definition extra (c : call) (n : cst) : Prop := match c with CPrefix t => final (t_kind t) = true -> error_leaf n | _ => True end.
Definition post (c : call) (S : list cst) (C : list ctx) (G : list Z) : unit -> pst -> Prop := done S C G (extra c).

Hypothesis IH : forall c S C G s, pre c S C G s -> LW (run c) s (post c S C G).
Local Notation whole S C G := (done S C G (fun _ => True)).

Lemma rec_climb : forall z S n C G, good z -> nd G n -> nn C -> LW (run CClimb) (mkp z (S ++ [n]) C G) (whole S C G).
Proof. intros z S n C G Hg Hn Hc. apply (IH CClimb S C G). exists z, n. auto. Qed.
Lemma line_ok_op : forall kd op ch, (match kd with KGroup | KGroupMissingCloser => False | _ => True end) -> (forall i, breaks ch i -> may_break kd op (parts ch) i) -> line_ok (Op kd op ch).
Proof. intros kd op ch H1 H2. split; [exact H2|]. split; destruct kd; try contradiction H1; try exact I; intros m []. Qed.
Lemma nd_node : forall f G B z ch ps n, fl f G B z ch ps -> children n = ch -> trivia_leaf n = false -> line_ok n -> (f = true -> file_node n) -> nd G n.
Proof.
  intros f G B z ch ps n [A1 A2 A3 A4 A5 A6] Hc Ht Hn Hf. split; [|split; [exact Ht|]].
  - apply node_all; auto. rewrite Hc. exact A4.
  - intros X. apply node_all; [|rewrite Hc; exact (A5 X)]. destruct f; [left; auto|right]. rewrite Hc. intros m Hm Hl. destruct (in_breaks _ _ Hm Hl) as [i Hi]. exact (A6 X eq_refl i Hi).
Qed.
(** make a node of the frame and go on *)
Lemma L_red : forall kd op f B z S ch ps q C G, fl f G B z ch ps -> (match kd with KGroup | KGroupMissingCloser => False | _ => True end) -> (forall i, B i -> may_break kd op ps i) ->
  (f = true -> file_node (Op kd op ch)) -> nn C ->
  LW (pbind (reduce_op kd op) (fun _ => run CClimb)) (mkp z (S ++ ch) (mkctx q (length S) :: C) G) (whole S C G).
Proof.
  intros kd op f B z S ch ps q C G HF Hk HB Hf Hc. apply LW_bind, L_reduce, rec_climb; auto; [apply (fl_good _ _ _ _ _ _ HF)|]. eapply nd_node; eauto.
  apply line_ok_op; auto. intros i X. rewrite (fl_parts _ _ _ _ _ _ HF). apply HB. exact (fl_br _ _ _ _ _ _ HF i X).
Qed.
Lemma L_red_error : forall e B z S ch ps q C G, fl false G B z ch ps -> (forall i, B i -> i = 2%nat) -> nn C ->
  LW (pbind (reduce_syntax_error e) (fun _ => run CClimb)) (mkp z (S ++ ch) (mkctx q (length S) :: C) G) (whole S C G).
Proof.
  intros e B z S ch ps q C G HF HB Hc. apply LW_bind, L_reduce_error, rec_climb; auto; [apply (fl_good _ _ _ _ _ _ HF)|]. eapply nd_node; eauto; [|discriminate].
  split; [|split; [intros m []|exact I]]. intros i X. apply HB. exact (fl_br _ _ _ _ _ _ HF i X).
Qed.

(** the next operand *)
Lemma L_operand : forall u f B z S ch ps q C G (Q : unit -> pst -> Prop), fl f G B z ch ps -> looks o (qtop G) z u -> solidk (t_kind u) = true -> 0 <= q ->
  (forall z' b, fl f G B z' (ch ++ [b]) (ps ++ [b]) -> halts (mkctx q (length S) :: C) G (here z') b -> Q tt (mkp z' (S ++ (ch ++ [b])) (mkctx q (length S) :: C) G)) ->
  LW (run (CPrefix u)) (mkp z (S ++ ch) (mkctx q (length S) :: C) G) Q.
Proof.
  intros u f B z S ch ps q C G Q HF HL Hs Hq HQ. eapply LW_conseq; [apply (IH (CPrefix u) (S ++ ch) (mkctx q (length S) :: C) G)|].
  - exists z. split; auto. split; [apply (fl_good _ _ _ _ _ _ HF)|]. auto.
  - intros [] s' (z' & b & -> & G' & N1 & N2 & _). rewrite <- app_assoc. apply HQ; auto. eapply fl_snoc; eauto.
Qed.

(** the operands of a chain *)
Lemma chain_more : forall op q S C G B z ch ps t b, fl false G B z (ch ++ [b]) ((ps ++ [Tok t]) ++ [b]) -> Nat.odd (length ps) = true -> 0 <= q -> nn C ->
  (forall i, B i -> may_break KInfix op ((ps ++ [Tok t]) ++ [b]) i) -> (op = IOP_CodeParser_Comma -> halts (mkctx q (length S) :: C) G (here z) b) ->
  chain op S C G (mkp z (S ++ (ch ++ [b])) (mkctx q (length S) :: C) G).
Proof.
  intros op q S C G B z ch ps t b HF Ho Hq Hc HB Hh. exists z, (ch ++ [b]), ((ps ++ [Tok t]) ++ [b]), q. split; auto. split; [eapply fl_weaken; eauto|]. split.
  - split; [rewrite !app_length; cbn [length]; rewrite !Nat.add_1_r, Nat.odd_succ, Nat.even_succ; exact Ho|]. rewrite !app_length. cbn [length]. lia.
  - split; auto. split; auto. intros X. exists (ps ++ [Tok t]), b. auto.
Qed.
Definition seen (op : Z) (ps : list cst) (t : token) (B : nat -> Prop) : Prop := forall i, B i -> may_break KInfix op (ps ++ [Tok t]) i.
Lemma seen_nl : forall op ps t b B i, seen op ps t B -> B i -> may_break KInfix op ((ps ++ [Tok t]) ++ [b]) i.
Proof. intros op ps t b B i H X. apply mb_app. apply H. exact X. Qed.
Lemma seen_any : forall op ps t b B i, seen op ps t B -> Nat.odd (length ps) = true -> t_kind t <> TK_Fake_ImplicitTimes -> op <> IOP_CompoundExpression -> op <> IOP_MessageName ->
  plus B (length (ps ++ [Tok t])) i -> may_break KInfix op ((ps ++ [Tok t]) ++ [b]) i.
Proof. intros op ps t b B i H Ho Ht N1 N2 [X| ->]; [apply mb_app, H; exact X|apply mb_operand; auto]. Qed.
Lemma seen_first : forall op ps t, seen op ps t none.
Proof. intros op ps t i []. Qed.
Lemma seen_later : forall op ps t, odd_long ps -> t_kind t <> TK_Fake_ImplicitTimes -> seen op ps t (plus (may_break KInfix op ps) (length ps)).
Proof. intros op ps t [H1 H2] Ht i [X| ->]; [apply mb_app; exact X|apply mb_operator; auto]. Qed.
Lemma seen_same : forall op ps t, seen op ps t (may_break KInfix op ps).
Proof. intros op ps t i X. apply mb_app. exact X. Qed.
Lemma fake_fl : forall f G B z ch ps k t, fl f G B z ch ps -> isTrivia k = false -> fl f G B z (ch ++ [Tok (tok_at_start k t)]) (ps ++ [Tok (tok_at_start k t)]).
Proof. intros f G B z ch ps k t HF H. eapply fl_tok; eauto. apply (fl_good _ _ _ _ _ _ HF). Qed.
Lemma beginning_solid : forall u, isPossibleBeginning (t_kind u) = true -> solidk (t_kind u) = true \/ t_kind u = TK_ToplevelNewline -> solidk (t_kind u) = true.
Proof. intros u H Hs. destruct Hs as [X|X]; auto; rewrite X in H; vm_compute in H; discriminate. Qed.

Lemma semi_operand_ok : forall B z S ch ps t q C G, fl false G B z ch (ps ++ [Tok t]) -> Nat.odd (length ps) = true -> seen IOP_CompoundExpression ps t B -> 0 <= q -> nn C ->
  LW (semi_operand o dbg run) (mkp z (S ++ ch) (mkctx q (length S) :: C) G) (whole S C G).
Proof.
  intros B z S ch ps t q C G HF Ho HS Hq Hc. unfold semi_operand. apply LW_bind. eapply L_eat_nl; eauto. intros u z1 ch1 F1 HL1 Hs1.
  destruct (t_kind u =? TK_Semi) eqn:Eu; [|destruct (isPossibleBeginning (t_kind u)) eqn:Ep].
  - apply LW_bind, L_leaf. rewrite <- app_assoc. apply (IH CSemiLoop). eapply (chain_more IOP_CompoundExpression); [apply fake_fl; [exact F1|reflexivity]|auto|auto|auto|intros i X; eapply seen_nl; eauto|discriminate].
  - pose proof (beginning_solid _ Ep Hs1) as Hs2. apply LW_bind. eapply L_operand; eauto. intros z2 b F2 Hb. apply (IH CSemiLoop).
    eapply (chain_more IOP_CompoundExpression); eauto. intros i X; eapply seen_nl; eauto.
  - apply LW_bind, L_leaf. rewrite <- app_assoc. assert (F2 := fake_fl _ _ _ z1 ch1 _ TK_Fake_ImplicitNull u F1 eq_refl). eapply L_red; eauto; [intros i X; eapply seen_nl; eauto|discriminate].
Qed.
Lemma comma_operand_ok : forall B z S ch ps t C G, fl false G B z ch (ps ++ [Tok t]) -> Nat.odd (length ps) = true -> seen IOP_CodeParser_Comma ps t B -> t_kind t <> TK_Fake_ImplicitTimes -> nn C ->
  LW (pbind (comma_operand o dbg run) (fun _ => run CCommaLoop)) (mkp z (S ++ ch) (mkctx PREC_COMMA (length S) :: C) G) (whole S C G).
Proof.
  intros B z S ch ps t C G HF Ho HS Ht Hc. unfold comma_operand. apply LW_bind, LW_bind. eapply L_eat; eauto. intros u z1 ch1 l1 F1 HL1 Hs1 _ _.
  assert (HB : forall b i, plus B (length (ps ++ [Tok t])) i -> may_break KInfix IOP_CodeParser_Comma ((ps ++ [Tok t]) ++ [b]) i) by (intros b i; apply seen_any; auto; discriminate).
  destruct (is_comma (t_kind u)) eqn:Eu.
  - apply L_leaf. rewrite <- app_assoc. apply (IH CCommaLoop). split; [|reflexivity]. eapply (chain_more IOP_CodeParser_Comma); [apply fake_fl; [exact F1|reflexivity]|auto|discriminate|auto|apply HB|].
    intros _. apply halts_error. eexists. split; [reflexivity|]. reflexivity.
  - eapply L_operand; eauto; [discriminate|]. intros z2 b F2 Hb. apply (IH CCommaLoop). split; [|reflexivity]. eapply (chain_more IOP_CodeParser_Comma); eauto. discriminate.
Qed.
Lemma tag_operand_ok : forall B z S ch ps t q C G, fl false G B z ch (ps ++ [Tok t]) -> Nat.odd (length ps) = true -> seen IOP_MessageName ps t B -> 0 <= q -> nn C ->
  LW (pbind (ppeek_as_tag o) (fun u => pbind (push_leaf_and_next dbg u) (fun _ => run CColonColonLoop))) (mkp z (S ++ ch) (mkctx q (length S) :: C) G) (whole S C G).
Proof.
  intros B z S ch ps t q C G HF Ho HS Hq Hc.
  apply LW_bind. apply (L_ask o base AsTag); [apply (fl_good _ _ _ _ _ _ HF)|reflexivity|]. intros u z1 G1 H1 HL1 _.
  destruct (tag_solid o _ _ (looks_reads _ _ _ _ HL1)) as [Hl Ne]. apply leaf_not_trivia in Hl as Ht.
  apply LW_bind. eapply (L_next AsTag false G B z1 S ch); eauto; [reflexivity|eapply fl_move; eauto|]. intros z2 F2 _ _. apply (IH CColonColonLoop).
  eapply (chain_more IOP_MessageName); eauto; [intros i X; eapply seen_nl; eauto|discriminate].
Qed.
Lemma chain_operand_ok : forall lc op u B z S ch ps t q C G, (forall s, chain op S C G s -> pre lc S C G s) -> extra lc = (fun _ => True) -> free_op op ->
  fl false G (plus B (length (ps ++ [Tok t]))) z ch (ps ++ [Tok t]) -> Nat.odd (length ps) = true -> seen op ps t B -> t_kind t <> TK_Fake_ImplicitTimes -> looks o (qtop G) z u -> solidk (t_kind u) = true -> 0 <= q -> nn C ->
  LW (pbind (run (CPrefix u)) (fun _ => run lc)) (mkp z (S ++ ch) (mkctx q (length S) :: C) G) (whole S C G).
Proof.
  intros lc op u B z S ch ps t q C G Hpre Hex (N1 & N2 & N3) HF Ho HS Ht HL1 Hs1 Hq Hc. apply LW_bind. eapply L_operand; eauto. intros z2 b F2 Hb. eapply LW_conseq; [apply (IH lc), Hpre|].
  - eapply (chain_more op); eauto. intros i. apply seen_any; auto.
  - intros a s' X. unfold post in X. rewrite Hex in X. exact X.
Qed.

(** groups *)
Lemma prefix_group_ok : forall opener op t z S C G, good z -> looks o (qtop G) z t -> solidk (t_kind t) = true -> prefix_of (t_kind t) = PP_Group opener op -> nn C ->
  LW (prefix_group dbg run opener op t) (mkp z S C G) (whole S C G).
Proof.
  intros opener op t z S C G Hg HL Hs Hp Hc. destruct (group_facts t opener op Hs Hp) as (c & Hc1 & Hc2 & Hc3 & Nt).
  unfold prefix_group. apply LW_bind, LW_lift. intros c' E. rewrite Hc1 in E. injection E as <-. apply LW_bind, LW_lift. intros c' E. rewrite Hc2 in E. injection E as <-. apply LW_bind.
  intros [] s1 E. injection E as <-. cbn [tz stack ctxs groups]. replace S with (S ++ []) at 1 by apply app_nil_r. apply LW_bind. eapply (L_next_top false (c :: G) none z S [] [] t C G); eauto; [apply fl_nil; auto|].
  intros z1 F1 _ _. cbn [app] in *. apply LW_bind, L_context. apply (IH (CGroupLoop op c)). exists z1, [Tok t], t, []. split; auto. split; auto. split; [intros l1 a b l2 E; destruct l1; discriminate E|].
  split; auto. intros l a E. destruct l; discriminate E.
Qed.

Ltac br := repeat match goal with H : plus _ _ _ |- _ => destruct H as [H|H] | H : none _ |- _ => destruct H end; subst; cbn [length app] in *.
Section Infix.
Variables (z : st) (S ch : list cst) (n : cst) (q : Z) (C : list ctx) (G : list Z) (t : token).
Hypothesis HF : fl false G none z ch [n].
Hypothesis Hc : nn C.
Hypothesis Hq : 0 <= q.
Hypothesis HL : looks o (qtop G) z t.
Hypothesis Hs : solidk (t_kind t) = true.
Hypothesis Hp : iprec (infix_of (t_kind t)) <> None.
Local Notation goal m := (LW m (mkp z (S ++ ch) (mkctx q (length S) :: C) G) (whole S C G)).
Lemma t_eof : t_kind t <> TK_EndOfFile.
Proof. apply not_eof. exact Hp. Qed.
Lemma t_unfake : t_kind t <> TK_Fake_ImplicitTimes.
Proof. apply solid_unfake. exact Hs. Qed.

Lemma infix_binary_ok : forall op, op <> BOP_Span -> goal (infix_binary o dbg run op t).
Proof.
  intros op N. unfold infix_binary. apply LW_bind. eapply L_next_top; eauto; [apply t_eof|]. intros z1 F1 _ _. apply LW_bind. eapply L_eat; eauto.
  intros u z2 ch2 l F2 HL2 Hs2 _ _. apply LW_bind. eapply L_operand; eauto. intros z3 b F3 Hb.
  eapply L_red; eauto; [|discriminate]. intros i X. br. split; [cbn; lia|]. auto.
Qed.
Lemma next_operand_loop : forall lc op, (forall s, chain op S C G s -> pre lc S C G s) -> extra lc = (fun _ => True) -> free_op op ->
  goal (pbind (push_syntax_and_next dbg t) (fun _ => pbind (eat_trivia o dbg) (fun u => pbind (run (CPrefix u)) (fun _ => run lc)))).
Proof.
  intros lc op Hpre Hex Hop. apply LW_bind. eapply L_next_top; eauto; [apply t_eof|]. intros z1 F1 _ _. apply LW_bind. eapply L_eat; eauto.
  intros u z2 ch2 l F2 HL2 Hs2 _ _. eapply (chain_operand_ok lc op u none z2 S ch2 [n] t); eauto; [apply seen_first|apply t_unfake].
Qed.
Lemma infix_infix_ok : forall prec op, infix_of (t_kind t) = IP_InfixOperator prec op -> zin op [IOP_Times; IOP_CodeParser_InternalInvalid] = false -> goal (infix_infix o dbg run op t).
Proof.
  intros prec op Hi Hz. pose proof (solid_op _ Hs) as Hop. rewrite Hi in Hop.
  assert (Hf : free_op op) by (split; [|split]; intros ->; apply Hop; cbn; auto). apply (next_operand_loop (CInfixLoop op) op); auto. intros s Hch. split; auto.
Qed.
Lemma infix_times_ok : goal (infix_times o dbg run t).
Proof. apply (next_operand_loop CTimesLoop IOP_Times); auto. split; [|split]; discriminate. Qed.
Lemma infix_postfix_ok : forall op, goal (infix_postfix dbg run op t).
Proof. intros op. unfold infix_postfix. apply LW_bind. eapply L_next_top; eauto; [apply t_eof|]. intros z1 F1 _ _. eapply L_red; eauto; [intros i []|discriminate]. Qed.

Lemma infix_tilde_ok : goal (infix_tilde o dbg run t).
Proof.
  unfold infix_tilde. apply LW_bind, LW_debug, LW_bind. eapply L_next_top; eauto; [apply t_eof|]. intros z1 F1 _ _. apply LW_bind. eapply L_eat; eauto.
  intros u z2 ch2 l F2 HL2 Hs2 _ _. apply LW_bind. eapply L_operand; eauto. intros z3 b F3 Hb.
  apply LW_bind, (L_current o dbg base); [apply (fl_good _ _ _ _ _ _ F3)|]. intros l4 v z4 G4 R4 St4 HL4 Hs4. destruct (Z.eqb_spec (t_kind v) TK_Tilde) as [Ev|Nv]; cbn [negb].
  - apply LW_bind. eapply L_commit; eauto; [rewrite Ev; discriminate|]. intros z5 ch5 F5. apply LW_bind. eapply L_eat; eauto.
    intros w z6 ch6 l6 F6 HL6 Hs6 _ _. apply LW_bind. eapply L_operand; eauto. intros z7 c F7 Hb7.
    eapply L_red; eauto; [|discriminate]. intros i X. br; (split; [cbn; lia|split; [lia|discriminate]]).
  - apply LW_bind. eapply (L_back o base (qtop G) isTrivia z3 z4); eauto; [reflexivity|apply (fl_good _ _ _ _ _ _ F3)|]. intros z5 G5 H5 _. eapply L_red_error; [eapply fl_move; eauto| |exact Hc].
    intros i X. br; auto.
Qed.
Lemma infix_slash_colon_ok : goal (infix_slash_colon o dbg run t).
Proof.
  unfold infix_slash_colon. apply LW_bind. eapply L_next_top; eauto; [apply t_eof|]. intros z1 F1 _ _. apply LW_bind. eapply L_eat; eauto.
  intros u z2 ch2 l F2 HL2 Hs2 _ _. apply LW_bind. eapply L_operand; eauto. intros z3 b F3 Hb.
  apply LW_bind, (L_current o dbg base); [apply (fl_good _ _ _ _ _ _ F3)|]. intros l4 v z4 G4 R4 St4 HL4 Hs4.
  pose proof (fl_trivia _ _ _ _ z4 _ _ _ _ _ _ F3 G4 St4) as F4.
  destruct (Z.eqb_spec (t_kind v) TK_Equal) as [Ev|Nv]; [|destruct (Z.eqb_spec (t_kind v) TK_ColonEqual) as [Ev|Nv2]].
  - apply LW_bind, L_set. cbn [c_start]. apply LW_bind, L_trivia. rewrite <- app_assoc. apply LW_bind. eapply L_next_top; eauto; [rewrite Ev; discriminate|]. intros z5 F5 _ _.
    apply LW_bind. eapply L_eat; eauto. intros w z6 ch6 l6 F6 HL6 Hs6 _ _. destruct (Z.eqb_spec (t_kind w) TK_Dot) as [Ew|Nw].
    + apply LW_bind. eapply L_next_top; eauto; [rewrite Ew; discriminate|]. intros z7 F7 _ _. eapply L_red; eauto; [|discriminate]. intros i X. br; (split; [cbn; lia|split; [lia|discriminate]]).
    + apply LW_bind. eapply L_operand; eauto; [discriminate|]. intros z7 c F7 Hb7. eapply L_red; eauto; [|discriminate]. intros i X. br; (split; [cbn; lia|split; [lia|discriminate]]).
  - apply LW_bind, L_set. cbn [c_start]. apply LW_bind, L_trivia. rewrite <- app_assoc. apply LW_bind. eapply L_next_top; eauto; [rewrite Ev; discriminate|]. intros z5 F5 _ _.
    apply LW_bind. eapply L_eat; eauto. intros w z6 ch6 l6 F6 HL6 Hs6 _ _.
    apply LW_bind. eapply L_operand; eauto; [discriminate|]. intros z7 c F7 Hb7. eapply L_red; eauto; [|discriminate]. intros i X. br; (split; [cbn; lia|split; [lia|discriminate]]).
  - apply LW_bind. eapply (L_back o base (qtop G) isTrivia z3 z4); eauto; [reflexivity|apply (fl_good _ _ _ _ _ _ F3)|]. intros z5 G5 H5 _. eapply L_red_error; [eapply fl_move; eauto| |exact Hc].
    intros i X. br; auto.
Qed.
Lemma infix_equal_ok : goal (infix_equal o dbg run t).
Proof.
  unfold infix_equal. apply LW_bind. eapply L_next_top; eauto; [apply t_eof|]. intros z1 F1 _ _. apply LW_bind. eapply L_eat; eauto.
  intros u z2 ch2 l F2 HL2 Hs2 _ _. destruct (Z.eqb_spec (t_kind u) TK_Dot) as [Eu|Nu].
  - apply LW_bind. eapply L_next_top; eauto; [rewrite Eu; discriminate|]. intros z3 F3 _ _. eapply L_red; eauto; [|discriminate]. intros i X. br. split; [cbn; lia|]. split; [auto|discriminate].
  - apply LW_bind. eapply L_operand; eauto. intros z3 b F3 Hb. eapply L_red; eauto; [|discriminate]. intros i X. br. split; [cbn; lia|]. split; [auto|discriminate].
Qed.
Lemma infix_semi_ok : goal (infix_semi o dbg run t).
Proof. unfold infix_semi. apply LW_bind. eapply L_next_top; eauto; [apply t_eof|]. intros z1 F1 _ _. eapply (semi_operand_ok none z1 S _ [n] t); eauto. apply seen_first. Qed.
Lemma infix_comma_ok : q = PREC_COMMA -> goal (infix_comma o dbg run t).
Proof.
  intros Eq. unfold infix_comma. apply LW_bind, LW_debug, LW_bind. eapply L_next_top; eauto; [apply t_eof|]. intros z1 F1 _ _.
  rewrite Eq. eapply (comma_operand_ok none z1 S _ [n] t); eauto; [apply seen_first|apply t_unfake].
Qed.
Lemma infix_colon_colon_ok : goal (infix_colon_colon o dbg run t).
Proof. unfold infix_colon_colon. apply LW_bind. eapply L_next_top; eauto; [apply t_eof|]. intros z1 F1 _ _. eapply (tag_operand_ok none z1 S _ [n] t); eauto. apply seen_first. Qed.
Lemma infix_file_ok : forall op, op = BOP_Put \/ op = BOP_PutAppend -> goal (infix_file o dbg run op t).
Proof.
  intros op Hop. unfold infix_file. apply LW_bind. eapply L_next_top; eauto; [apply t_eof|]. intros z1 F1 _ _. apply LW_bind. eapply L_eat_file; eauto. intros u z2 ch2 F2 HL2 Ht2 N2.
  apply LW_bind. eapply (L_next AsFile true G _ z2 S ch2 _ u); eauto; [reflexivity|]. intros z3 F3 _ _. eapply L_red; eauto; [|].
  - intros i X. br. split; [cbn; lia|]. split; auto. destruct Hop as [-> | ->]; discriminate.
  - intros _. eexists. destruct Hop as [-> | ->]; auto.
Qed.
Lemma reduce_call_ok : forall z0 b q0, fl false G none z0 ch [n] -> nd G b -> good z0 ->
  LW (pbind reduce_call (fun _ => run CClimb)) (mkp z0 ((S ++ ch) ++ [b]) (mkctx q0 (length S) :: C) G) (whole S C G).
Proof.
  intros z0 b q0 F0 Hb Hg0. apply LW_bind. intros [] s' E. unfold reduce_call, pbind, pop_context, pop_node in E. cbn [ctxs tz stack groups c_start] in E.
  rewrite rev_app_distr in E. cbn [rev app tz stack ctxs groups] in E. rewrite rev_involutive in E. rewrite not_short, skipn_len, firstn_len in E. pose proof (fl_parts _ _ _ _ _ _ F0) as P.
  assert (Hgo : forall (mi : bool) op ch' op', b = Op (if mi then KGroupMissingCloser else KGroup) op ch' -> LW (run CClimb) (mkp z0 (S ++ [Call (Concrete ch) mi op' ch']) C G) (whole S C G)).
  { intros mi op ch' op' ->. destruct Hb as (N1 & _ & _). apply all_node in N1 as [(L1 & L2 & L3) N1]. cbn [children] in N1. cbn [newline_ok] in L1.
    assert (Nb : forall i, ~ breaks ch' i) by (intros i X; apply L1 in X; destruct X as [_ X]; destruct mi; exact X).
    assert (Nc : forall i, ~ breaks ch i) by (intros i X; exact (fl_br _ _ _ _ _ _ F0 i X)).
    assert (In2 : forall m, In m ch' -> ~ line_end m /\ everywhere no_line_end m) by (intros m X; apply L2; destruct mi; exact X).
    apply rec_climb; auto. split; [|split; [reflexivity|]].
    - apply node_all; [|cbn [children]; apply Forall_app; split; auto; apply (fl_lined _ _ _ _ _ _ F0)]. split; [|split].
      + cbn [newline_ok]. intros i. split; auto.
      + exact In2.
      + cbn [neighbours_ok] in *. destruct mi; exact L3.
    - intros X. apply node_all; cbn [children].
      + right. cbn [children]. intros m Hm Hl. apply in_app_or in Hm as [Hm|Hm]; [|apply In2 in Hm as [Y _]; exact (Y Hl)]. destruct (in_breaks _ _ Hm Hl) as [i Hi]. exact (Nc i Hi).
      + apply Forall_app. split; [exact (fl_quiet _ _ _ _ _ _ F0 X)|]. apply Forall_forall. intros m Hm. apply everywhere_nodes. apply In2. exact Hm. }
  destruct b as [f|h m op body|e l|kd op l|bx l src|a b' src]; try discriminate E. destruct kd; try discriminate E.
  - unfold plift in E. destruct (try_to_call_operator op) as [op'| |]; try discriminate E. cbn in E. injection E as <-. apply (Hgo false op l op'). reflexivity.
  - unfold plift in E. destruct (try_to_call_operator op) as [op'| |]; try discriminate E. cbn in E. injection E as <-. apply (Hgo true op l op'). reflexivity.
Qed.
Lemma infix_call_ok : forall opener op, infix_of (t_kind t) = IP_Call opener op -> goal (infix_call dbg run opener op t).
Proof.
  intros opener op Hi. unfold infix_call. apply LW_bind, L_set. cbn [c_start]. apply LW_bind. eapply LW_conseq; [apply (prefix_group_ok opener op t z (S ++ ch) (mkctx PREC_HIGHEST (length S) :: C) G)|].
  - apply (fl_good _ _ _ _ _ _ HF).
  - exact HL.
  - exact Hs.
  - pose proof (solidk_infix _ Hs) as If. unfold infix_facts in If. rewrite Hi in If.
    apply andb_true_iff in If as [If _]. apply andb_true_iff in If as [If1 If2]. destruct (prefix_of (t_kind t)) as [| | | | | | |pp0 po0|opener' op'| | |i1 i2| | | | |u1 u2|] eqn:Ep; try discriminate.
    apply andb_true_iff in If1 as [E1 E2]. apply Z.eqb_eq in E1, E2. subst opener' op'. reflexivity.
  - cbn [cprec c_prec]. vm_compute. discriminate.
  - intros [] s' (z' & n' & -> & G' & N1 & _). apply reduce_call_ok; auto. eapply fl_move; eauto.
Qed.
End Infix.

(** ** Spans *)
Section Span.
Variables (S : list cst) (n : cst) (q : Z) (C : list ctx) (G : list Z) (t : token).
Hypothesis Hkd : t_kind t = TK_SemiSemi.
Hypothesis Hc : nn C.
Hypothesis Hq : 0 <= q.
Local Notation goal z ch m := (LW m (mkp z (S ++ ch) (mkctx q (length S) :: C) G) (whole S C G)).
Lemma span_binary_ok : forall z ch b, fl false G none z ch [n; Tok t; b] -> goal z ch (span_binary run).
Proof. intros z ch b F. unfold span_binary. eapply L_red; eauto; [intros i []|discriminate]. Qed.
Lemma span_ternary_ok : forall z ch b u c, fl false G none z ch [n; Tok t; b; Tok u; c] -> goal z ch (span_ternary run).
Proof. intros z ch b u c F. unfold span_ternary. eapply L_red; eauto; [intros i []|discriminate]. Qed.
Lemma span_parse2_ok : forall z ch b, fl false G none z ch [n; Tok t; b] -> goal z ch (span_parse2 o dbg run).
Proof.
  intros z ch b F. pose proof (fl_good _ _ _ _ _ _ F) as Hg. unfold span_parse2. apply LW_bind, (L_current_nl o base); auto. intros l3 t3 z1 G1 R1 St1 HL1 Hs1. cbv beta iota.
  destruct (negb (isPossibleBeginning (t_kind t3)) || negb (t_kind t3 =? TK_SemiSemi)) eqn:E3.
  - apply LW_bind. eapply (L_back o base (qtop G) isTriviaButNotToplevelNewline z z1); eauto; [reflexivity|]. intros z2 G2 H2 _. eapply span_binary_ok; eauto. eapply fl_move; eauto.
  - apply orb_false_iff in E3 as [E3 E4]. rewrite negb_false_iff in E3, E4. apply Z.eqb_eq in E4.
    assert (N3 : t_kind t3 <> TK_EndOfFile) by (rewrite E4; discriminate).
    apply LW_bind. apply (L_skip o base (qtop G) z1 t3); auto; [reflexivity|]. intros z2 G2 H2 R2.
    apply LW_bind, (L_current_nl o base); auto. intros l4 t4 z3 G3 R3 St3 HL3 Hs4. cbv beta iota.
    destruct (negb (isPossibleBeginning (t_kind t4)) || (t_kind t4 =? TK_SemiSemi)) eqn:E5.
    + apply LW_bind. apply (L_back o base (qtop G) isTriviaButNotToplevelNewline z2 z3 l4 t4); auto; [reflexivity|]. intros z4 G4 H4 R4.
      apply LW_bind. apply (L_reset o base z1 z4 t3); auto; [eapply R_trans; eauto|]. intros z5 G5 H5 R5.
      apply LW_bind. apply (L_back o base (qtop G) isTriviaButNotToplevelNewline z z5 l3 t3); auto; [reflexivity|eapply R_trans; eauto|rewrite H5; exact St1|]. intros z6 G6 H6 _.
      eapply span_binary_ok; eauto. eapply fl_move; eauto.
    + apply orb_false_iff in E5 as [E5 _]. rewrite negb_false_iff in E5. pose proof (beginning_solid _ E5 Hs4) as Hs5. pose proof (beginning_solid _ E3 Hs1) as Hs3.
      pose proof (fl_trivia_nl _ _ _ _ z1 _ _ _ _ _ _ _ F G1 St1) as F1. pose proof (fl_tok _ _ _ _ z2 _ _ t3 F1 G2 (solidk_trivia _ Hs3)) as F2.
      pose proof (fl_trivia_nl _ _ _ _ z3 _ _ _ _ _ _ _ F2 G3 St3) as F3.
      apply LW_bind, L_trivia, LW_bind, L_syntax, LW_bind, L_trivia. rewrite <- !app_assoc in *.
      apply LW_bind. eapply L_operand; eauto. intros z4 c F4 _. eapply (span_ternary_ok z4 _ b t3 c); eauto.
Qed.
Lemma span_parse1_ok : forall z ch, fl false G none z ch [n; Tok t] -> goal z ch (span_parse1 o dbg run).
Proof.
  intros z ch F. unfold span_parse1. apply LW_bind. eapply L_eat_nl; eauto. intros t2 z2 ch2 F2 HL2 Hs2.
  destruct (negb (isPossibleBeginning (t_kind t2))) eqn:E2; [|destruct (negb (t_kind t2 =? TK_SemiSemi)) eqn:E3].
  - apply LW_bind, L_leaf. rewrite <- app_assoc. eapply span_binary_ok. apply (fake_fl _ _ _ _ _ _ _ t2 F2); reflexivity.
  - rewrite negb_false_iff in E2. pose proof (beginning_solid _ E2 Hs2) as Hs3. apply LW_bind. eapply L_operand; eauto.
    intros z3 b F3 Hb. eapply (span_parse2_ok z3 _ b F3).
  - rewrite negb_false_iff in E2, E3. pose proof (beginning_solid _ E2 Hs2) as Hs3. apply Z.eqb_eq in E3.
    assert (N2 : t_kind t2 <> TK_EndOfFile) by (rewrite E3; discriminate).
    apply LW_bind, L_leaf. rewrite <- app_assoc. pose proof (fake_fl _ _ _ z2 ch2 [n; Tok t] TK_Fake_ImplicitAll t2 F2 eq_refl) as F3. pose proof (fl_good _ _ _ _ _ _ F3) as G3.
    apply LW_bind. apply (L_skip o base (qtop G) z2 t2); auto; [reflexivity|]. intros z4 G4 H4 R4.
    apply LW_bind, (L_current_nl o base); auto. intros l4 t3 z5 G5 R5 St5 HL5 Hs5. cbv beta iota.
    destruct (negb (isPossibleBeginning (t_kind t3)) || (t_kind t3 =? TK_SemiSemi)) eqn:E5.
    + apply LW_bind. apply (L_back o base (qtop G) isTriviaButNotToplevelNewline z4 z5 l4 t3); auto; [reflexivity|]. intros z6 G6 H6 R6.
      apply LW_bind. apply (L_reset o base z2 z6 t2); auto; [eapply R_trans; eauto|]. intros z7 G7 H7 R7.
      eapply span_binary_ok. eapply fl_move; [exact F3|exact G7].
    + apply orb_false_iff in E5 as [E5 _]. rewrite negb_false_iff in E5. pose proof (beginning_solid _ E5 Hs5) as Hs6.
      pose proof (fl_tok _ _ _ _ z4 _ _ t2 F3 G4 (solidk_trivia _ Hs3)) as F4. pose proof (fl_trivia_nl _ _ _ _ z5 _ _ _ _ _ _ _ F4 G5 St5) as F5.
      apply LW_bind, L_syntax, LW_bind, L_trivia. rewrite <- !app_assoc in *.
      apply LW_bind. eapply L_operand; eauto. intros z6 c F6 _.
      eapply (span_ternary_ok z6 _ (Tok (tok_at_start TK_Fake_ImplicitAll t2)) t2 c F6).
Qed.
Lemma infix_span_ok : forall z ch, fl false G none z ch [n] -> looks o (qtop G) z t -> goal z ch (infix_span o dbg run t).
Proof.
  intros z ch F HL. unfold infix_span. apply LW_bind. eapply L_next_top; eauto; [rewrite Hkd; discriminate|rewrite Hkd; reflexivity|]. intros z1 F1 _ _. apply span_parse1_ok. exact F1.
Qed.
End Span.

Lemma infix_colon_ok : forall z S ch n q C G t, fl false G none z ch [n] -> nn C -> looks o (qtop G) z t -> solidk (t_kind t) = true -> t_kind t <> TK_EndOfFile ->
  LW (infix_colon o dbg run t) (mkp z (S ++ ch) (mkctx q (length S) :: C) G) (whole S C G).
Proof.
  intros z S ch n q C G t HF Hc HL Hs Nt. unfold infix_colon. apply LW_bind. eapply check_colon_ok; [apply (fl_parts _ _ _ _ _ _ HF)|]. intros lhs _. apply LW_bind. eapply L_next_top; eauto. intros z1 F1 _ _.
  apply LW_bind. eapply L_eat; eauto. intros u z2 ch2 l F2 HL2 Hs2 _ _. destruct lhs; apply LW_bind, L_set; cbn [c_start]; apply LW_bind;
    (eapply L_operand; eauto; [vm_compute; discriminate|]); intros z3 b F3 Hb.
  - eapply L_red; eauto; [|discriminate]. intros i X. br. split; [cbn; lia|]. split; [auto|discriminate].
  - eapply L_red; eauto; [|discriminate]. intros i X. br. split; [cbn; lia|]. split; [auto|discriminate].
  - eapply L_red_error; [exact F3| |exact Hc]. intros i X. br; auto.
Qed.

(** ** Implicit multiplication *)
Definition times_token (G : list Z) (z : st) (t : token) : Prop :=
  (looks o (qtop G) z t /\ solidk (t_kind t) = true /\ t_kind t <> TK_EndOfFile) \/ (exists t0, t = tok_at_start TK_Fake_ImplicitTimes t0 /\ looks o (qtop G) z t0 /\ solidk (t_kind t0) = true).
Lemma looks_none : forall z G u l v p', looks o (qtop G) z u -> solidk (t_kind u) = true -> strip o (qtop G) isTrivia (here z) l v p' -> l = [].
Proof.
  intros z0 G0 u l v p' H1 H2 St. pose proof (strip_nil o (qtop G0) isTrivia _ u (looks_reads _ _ _ _ H1) (solidk_trivia _ H2)) as St'.
  destruct (strip_det o (qtop G0) isTrivia _ _ _ _ eq_refl St _ _ _ St') as (-> & _). reflexivity.
Qed.
Lemma times_operand : forall B z S ch ps t q C G, fl false G B z ch ps -> Nat.odd (length ps) = true -> seen IOP_Times ps t B -> times_token G z t -> 0 <= q -> nn C ->
  LW (pbind (push_syntax_and_next dbg t) (fun _ => pbind (eat_trivia o dbg) (fun u => pbind (run (CPrefix u)) (fun _ => run CTimesLoop)))) (mkp z (S ++ ch) (mkctx q (length S) :: C) G) (whole S C G).
Proof.
  intros B z S ch ps t q C G HF Ho HS Ht Hq Hc. apply LW_bind. destruct Ht as [(HL & Hs & Ne)|(t0 & -> & HL & Hs)].
  - eapply L_next_top; eauto. intros z1 F1 _ _. apply LW_bind. eapply L_eat; eauto. intros u z2 ch2 l F2 HL2 Hs2 _ _.
    eapply (chain_operand_ok CTimesLoop IOP_Times u B z2 S ch2 ps t); eauto; [split; [|split]; discriminate|apply solid_unfake; auto].
  - eapply L_next_fake; eauto. intros z1 F1 H1. apply LW_bind. eapply L_eat; eauto. intros u z2 ch2 l F2 HL2 Hs2 Ec St2.
    assert (El : l = []) by (eapply (looks_none z G t0); eauto; rewrite <- H1; eauto). subst l. cbn [map] in Ec. rewrite app_nil_r in Ec. subst ch2.
    pose proof (fl_move _ _ _ _ z2 _ _ F1 (fl_good _ _ _ _ _ _ F2)) as F3. apply LW_bind. eapply L_operand; eauto. intros z3 b F4 Hb. apply (IH CTimesLoop).
    eapply (chain_more IOP_Times); eauto. intros i X. eapply seen_nl; eauto.
Qed.

Lemma parse_infix_ok : forall t S C G s, pre (CInfix t) S C G s -> LW (parse_infix o dbg run t) s (post (CInfix t) S C G).
Proof.
  intros t S C G s (z & ch & n & q & -> & F & Hc & Hq & Ht). change (post (CInfix t) S C G) with (whole S C G).
  destruct Ht as [(HL & Hs & Hp & Hcm)|(t0 & -> & HL & Hs)].
  - pose proof (solidk_infix _ Hs) as If. unfold infix_facts in If. pose proof (solid_ops _ Hs) as Hop. pose proof (not_eof _ Hp) as Ne.
    unfold parse_infix. destruct (infix_of (t_kind t)) as [| | | |p op|p op| |p op|opener op| | | | | | | | | | |] eqn:Ei;
      cbn [iprec] in Hp; try (exfalso; apply Hp; reflexivity); apply andb_true_iff in If as [If _].
    + eapply infix_binary_ok; eauto; rewrite Ei; discriminate.
    + apply negb_true_iff in If. eapply infix_infix_ok; eauto; rewrite Ei; discriminate.
    + eapply infix_times_ok; eauto; rewrite Ei; discriminate.
    + eapply infix_postfix_ok; eauto; rewrite Ei; discriminate.
    + eapply infix_call_ok; eauto.
    + eapply infix_comma_ok; eauto; rewrite Ei; discriminate.
    + eapply infix_semi_ok; eauto; rewrite Ei; discriminate.
    + apply andb_true_iff in If as [If _]. apply Z.eqb_eq in If. eapply infix_span_ok; eauto.
    + eapply infix_tilde_ok; eauto; rewrite Ei; discriminate.
    + eapply infix_colon_ok; eauto.
    + eapply infix_slash_colon_ok; eauto; rewrite Ei; discriminate.
    + eapply infix_equal_ok; eauto; rewrite Ei; discriminate.
    + eapply infix_binary_ok; eauto; [rewrite Ei|]; discriminate.
    + eapply infix_colon_colon_ok; eauto; rewrite Ei; discriminate.
    + eapply infix_file_ok; eauto; rewrite Ei; discriminate.
    + eapply infix_file_ok; eauto; rewrite Ei; discriminate.
  - unfold parse_infix. change (t_kind (tok_at_start TK_Fake_ImplicitTimes t0)) with TK_Fake_ImplicitTimes in *. rewrite infix_fake. unfold infix_times.
    eapply (times_operand none z S ch [n]); eauto; [apply seen_first|right; eauto].
Qed.

(** ** Loops *)
Lemma chain_red : forall op z z2 S ch ps q C G, fl false G (may_break KInfix op ps) z ch ps -> good z2 -> nn C ->
  LW (pbind (reduce_op KInfix op) (fun _ => run CClimb)) (mkp z2 (S ++ ch) (mkctx q (length S) :: C) G) (whole S C G).
Proof. intros op z z2 S ch ps q C G F G2 Hc. eapply L_red; [eapply fl_move; eauto|exact I|auto|discriminate|exact Hc]. Qed.
Lemma infix_loop_ok : forall op S C G s, pre (CInfixLoop op) S C G s -> LW (infix_loop o dbg run op) s (post (CInfixLoop op) S C G).
Proof.
  intros op S C G s ((z & ch & ps & q & -> & F & HO & Hq & Hc & _) & Hop & Hz). change (post (CInfixLoop op) S C G) with (whole S C G).
  unfold infix_loop. apply LW_bind. apply (L_current o dbg base); [apply (fl_good _ _ _ _ _ _ F)|]. intros l t z1 G1 R1 St1 HL1 Hs1. cbv beta iota. destruct (is_infix_op op (infix_of (t_kind t))) eqn:Ei; cbn [negb].
  - destruct (infix_op_entry _ _ Hz Ei) as (q' & He). pose proof (infix_entry_some _ _ _ He) as Hi.
    apply LW_bind. eapply L_commit; eauto; [apply not_eof; auto|]. intros z2 ch2 F2. apply LW_bind. eapply L_eat; eauto. intros u z3 ch3 l3 F3 HL3 Hs3 _ _.
    eapply (chain_operand_ok (CInfixLoop op) op); eauto.
    + intros s Hs'. split; auto.
    + apply HO.
    + apply seen_later; auto. apply solid_unfake; auto.
    + apply solid_unfake; auto.
  - apply LW_bind. eapply (L_back o base (qtop G) isTrivia z z1); eauto; [reflexivity|apply (fl_good _ _ _ _ _ _ F)|]. intros z2 G2 H2 _. eapply chain_red; eauto.
Qed.
Lemma times_rest : forall triv B1 z z1 S ch ps q C G l n t t', fl false G (may_break KInfix IOP_Times ps) z ch ps -> odd_long ps -> 0 <= q -> nn C ->
  good z1 -> R o z z1 -> strip o (qtop G) triv (here z) l t (here z1) -> looks o (qtop G) z1 t ->
  solidk (t_kind t) = true \/ t_kind t = TK_ToplevelNewline -> implied (mkctx q (length S) :: C) n t t' ->
  fl false G B1 z1 (ch ++ map Tok l) ps -> seen IOP_Times ps t' B1 ->
  LW (if negb (is_infix_op IOP_Times (infix_of (t_kind t'))) then (trivia_reset l ;; reduce_op KInfix IOP_Times ;; run CClimb)%parser
      else (commit_syntax_and_next dbg l t' ;; u <- eat_trivia o dbg ;; run (CPrefix u) ;; run CTimesLoop)%parser)
     (mkp z1 (S ++ ch) (mkctx q (length S) :: C) G) (whole S C G).
Proof.
  intros triv B1 z z1 S ch ps q C G l n t t' F HO Hq Hc G1 R1 St1 HL1 Hs1 Hi F1 HS. destruct (is_infix_op IOP_Times (infix_of (t_kind t'))) eqn:Ei; cbn [negb].
  - assert (Tt : times_token G z1 t').
    { destruct Hi as [(-> & N1 & N2)|(-> & Hs' & _)].
      - left. split; auto. assert (Hs' : solidk (t_kind t) = true).
        { destruct Hs1 as [Hs1|Hs1]; auto. rewrite Hs1 in Ei. vm_compute in Ei. discriminate. }
        split; auto. intros X. rewrite X in Ei. vm_compute in Ei. discriminate.
      - right. exists t; auto. }
    apply LW_bind. unfold commit_syntax_and_next. apply LW_bind, L_trivia. rewrite <- app_assoc.
    pose proof (times_operand B1 z1 S _ ps t' q C G F1 (proj1 HO) HS Tt Hq Hc) as K.
    intros a s' E1 a2 s2 E2. apply (K a2 s2). unfold pbind at 1. rewrite E1. exact E2.
  - apply LW_bind. eapply (L_back o base (qtop G) triv z z1); eauto; [reflexivity|apply (fl_good _ _ _ _ _ _ F)|]. intros z2 G2 H2 _. eapply chain_red; eauto.
Qed.
Lemma odd_last : forall (ps : list cst), Nat.odd (length ps) = true -> exists r b, ps = r ++ [b].
Proof. intros ps H. destruct ps as [|b r _] using rev_ind; [discriminate H|eauto]. Qed.
Lemma times_loop_ok : forall S C G s, pre CTimesLoop S C G s -> LW (times_loop o dbg run) s (post CTimesLoop S C G).
Proof.
  intros S C G s (z & ch & ps & q & -> & F & HO & Hq & Hc & _). change (post CTimesLoop S C G) with (whole S C G).
  destruct (odd_last _ (proj1 HO)) as (r & b & Er). pose proof (fl_parts _ _ _ _ _ _ F) as P. rewrite Er in P. pose proof (fl_good _ _ _ _ _ _ F) as Hg.
  unfold times_loop. apply LW_bind. apply (L_current o dbg base); auto. intros l t z1 G1 R1 St1 HL1 Hs1. cbv beta iota.
  apply LW_bind. apply LW_PW. eapply (implicit_ok True); eauto. intros t' Hi. apply LW_bind. destruct (Z.eqb_spec (t_kind t') TK_Fake_ImplicitTimes) as [Ef|Nf].
  - apply LW_bind. eapply (L_back o base (qtop G) isTrivia z z1); eauto; [reflexivity|]. intros z2 G2 H2 R2. apply LW_bind. apply (L_current_nl o base); auto.
    intros l3 t3 z3 G3 R3 St3 HL3 Hs3. cbv beta iota. apply LW_bind. apply LW_PW. eapply (implicit_ok True); eauto. intros t4 Hi4. apply LW_ret. cbv beta iota.
    pose proof (fl_move _ _ _ _ z2 _ _ F G2) as F2. eapply (times_rest isTriviaButNotToplevelNewline (may_break KInfix IOP_Times ps) z2 z3); eauto; [eapply fl_trivia_nl; eauto|apply seen_same].
  - apply LW_ret. cbv beta iota. eapply (times_rest isTrivia _ z z1); eauto; [eapply fl_trivia; eauto|apply seen_later; auto].
Qed.
Lemma semi_loop_ok : forall S C G s, pre CSemiLoop S C G s -> LW (semi_loop o dbg run) s (post CSemiLoop S C G).
Proof.
  intros S C G s (z & ch & ps & q & -> & F & HO & Hq & Hc & _). change (post CSemiLoop S C G) with (whole S C G).
  pose proof (fl_good _ _ _ _ _ _ F) as Hg. unfold semi_loop. apply LW_bind. apply (L_current o dbg base); auto. intros l t z1 G1 R1 St1 HL1 Hs1. cbv beta iota. destruct (t_kind t =? TK_Semi) eqn:Et; cbn [negb].
  - apply Z.eqb_eq in Et. apply LW_bind. eapply L_commit; eauto; [rewrite Et; discriminate|]. intros z2 ch2 F2. eapply semi_operand_ok; eauto; [apply HO|apply seen_later; auto; apply solid_unfake; auto].
  - apply LW_bind. eapply (L_back o base (qtop G) isTrivia z z1); eauto; [reflexivity|]. intros z2 G2 H2 _. unfold reduce_compound. eapply chain_red; eauto.
Qed.
Lemma colon_colon_loop_ok : forall S C G s, pre CColonColonLoop S C G s -> LW (colon_colon_loop o dbg run) s (post CColonColonLoop S C G).
Proof.
  intros S C G s (z & ch & ps & q & -> & F & HO & Hq & Hc & _). change (post CColonColonLoop S C G) with (whole S C G).
  pose proof (fl_good _ _ _ _ _ _ F) as Hg. unfold colon_colon_loop. apply LW_bind. apply (L_current o dbg base); auto. intros l t z1 G1 R1 St1 HL1 Hs1. cbv beta iota. destruct (t_kind t =? TK_ColonColon) eqn:Et; cbn [negb].
  - apply Z.eqb_eq in Et. apply LW_bind. eapply L_commit; eauto; [rewrite Et; discriminate|]. intros z2 ch2 F2. eapply tag_operand_ok; eauto; [apply HO|apply seen_later; auto; apply solid_unfake; auto].
  - apply LW_bind. eapply (L_back o base (qtop G) isTrivia z z1); eauto; [reflexivity|]. intros z2 G2 H2 _. eapply chain_red; eauto.
Qed.
(** what follows, with or without ends of lines *)
Lemma follows_strip : forall G p l t p' k, strip o (qtop G) isTrivia p l t p' -> follows G p k -> k = t_kind t \/ k = TK_ToplevelNewline.
Proof.
  intros G p l t p' k St (l2 & t2 & p2 & St2 & <-). destruct (strip_newline _ _ _ _ _ _ St2) as [St3|X]; [|auto].
  destruct (strip_det o (qtop G) isTrivia _ _ _ _ eq_refl St _ _ _ St3) as (_ & <- & _). auto.
Qed.
Lemma newline_final : final TK_ToplevelNewline = true. Proof. reflexivity. Qed.
Lemma comma_loop_ok : forall S C G s, pre CCommaLoop S C G s -> LW (comma_loop o dbg run) s (post CCommaLoop S C G).
Proof.
  intros S C G s ((z & ch & ps & q & -> & F & HO & Hq & Hc & Hla) & Hcm). cbn [ctxs cprec c_prec] in Hcm. subst q. change (post CCommaLoop S C G) with (whole S C G).
  pose proof (fl_good _ _ _ _ _ _ F) as Hg. unfold comma_loop. apply LW_bind. apply (L_current o dbg base); auto. intros l t z1 G1 R1 St1 HL1 Hs1. cbv beta iota. destruct (is_comma (t_kind t)) eqn:Et; cbn [negb].
  - apply LW_bind. eapply L_commit; eauto; [intros X; rewrite X in Et; discriminate|]. intros z2 ch2 F2. eapply comma_operand_ok; eauto; [apply HO|apply seen_later; auto; apply solid_unfake; auto|apply solid_unfake; auto].
  - apply LW_bind. eapply (L_back o base (qtop G) isTrivia z z1); eauto; [reflexivity|]. intros z2 G2 H2 _. destruct (Hla eq_refl) as (r & b & Er & _ & Hh). specialize (Hh eq_refl).
    apply L_reduce. exists z2, (Op KInfix IOP_CodeParser_Comma ch). split; auto. split; auto. split; [|split; [|exact I]].
    + eapply nd_node; eauto; [|discriminate]. apply line_ok_op; [exact I|]. intros i X. rewrite (fl_parts _ _ _ _ _ _ F). exact (fl_br _ _ _ _ _ _ F i X).
    + apply halts_stop. rewrite H2. destruct Hh as [Hh|Hh]; [left; eapply broken_comma; eauto; rewrite (fl_parts _ _ _ _ _ _ F); exact Er|right].
      intros k Fo. destruct (Hh k Fo) as [X|X]; auto. destruct (follows_strip _ _ _ _ _ _ St1 Fo) as [ -> | -> ]; [congruence|discriminate X].
Qed.

(** ** Groups *)
Lemma fl_group : forall c G B z ch ps, fl false (c :: G) B z ch ps -> fl false (c :: G) none z ch ps.
Proof. intros c G B z ch ps [A1 A2 A3 A4 A5 A6]. constructor; auto. intros i X. apply (A6 ltac:(discriminate) eq_refl i X). Qed.
Lemma group_nd : forall kd op c G B z ch t mid, fl false (c :: G) B z ch (Tok t :: mid) -> (kd = KGroup /\ exists l u, mid = l ++ [u] /\ apart l) \/ (kd = KGroupMissingCloser /\ apart mid) -> nd G (Op kd op ch).
Proof.
  intros kd op c G B z ch t mid F Hk. pose proof (fl_group _ _ _ _ _ _ F) as [A1 A2 A3 A4 A5 A6].
  assert (X : c :: G <> []) by discriminate. specialize (A5 X). specialize (A6 X eq_refl).
  assert (L : line_ok (Op kd op ch)).
  { split; [|split].
    - intros i Y. destruct (A6 i Y).
    - intros m Hm. assert (Hm' : In m ch) by (destruct Hk as [[-> _]|[-> _]]; exact Hm). split; [intros Y; destruct (in_breaks _ _ Hm' Y) as [i Hi]; exact (A6 i Hi)|].
      apply everywhere_nodes. rewrite Forall_forall in A5. exact (A5 m Hm').
    - destruct Hk as [(-> & l & u & -> & Hap)|(-> & Hap)]; cbn [neighbours_ok].
      + intros t0 mid0 u0 E. rewrite A2 in E. injection E as _ E. apply app_inj_tail in E as [<- _]. exact Hap.
      + intros t0 mid0 E. rewrite A2 in E. injection E as _ <-. exact Hap. }
  split; [|split; [reflexivity|]].
  - apply node_all; auto.
  - intros _. apply node_all; [|exact A5]. right. intros m Hm Y. destruct (in_breaks _ _ Hm Y) as [i Hi]. exact (A6 i Hi).
Qed.
Lemma group_loop_ok : forall op closer S C G s, pre (CGroupLoop op closer) S C G s -> LW (group_loop o dbg keep run op closer) s (post (CGroupLoop op closer) S C G).
Proof.
  intros op closer S C G s (z & ch & t & mid & -> & F & Hap & Hst & Hc & Hcl). change (post (CGroupLoop op closer) S C G) with (whole S C G).
  pose proof (fl_good _ _ _ _ _ _ F) as Hg. unfold group_loop. apply LW_bind. apply (L_current o dbg base); auto. intros l u z1 G1 R1 St1 HL1 Hs1. cbv beta iota.
  assert (Nl : forall k, follows (closer :: G) (here z) k -> k = t_kind u).
  { intros k Fo. destruct (follows_strip _ _ _ _ _ _ St1 Fo) as [X|X]; auto. exfalso. destruct Fo as (l2 & t2 & p2 & St2 & X2). destruct (strip_place _ _ _ _ _ _ _ St2) as (Hr & _).
    apply (group_reads (closer :: G) _ _ ltac:(discriminate) Hr). congruence. }
  destruct (TokenToCloser (t_kind u) =? closer) eqn:Ecl; [|destruct (isCloser (t_kind u)) eqn:Ecu].
  - apply Z.eqb_eq in Ecl. assert (Nu : t_kind u <> TK_EndOfFile).
    { intros X. rewrite X in Ecl. assert (Y : closer = -1) by (rewrite <- Ecl; reflexivity). rewrite Y in Hcl. vm_compute in Hcl. discriminate. }
    apply LW_bind. eapply L_commit; eauto. intros z2 ch2 F2. apply LW_bind. unfold reduce_group. apply L_reduce_group.
    apply rec_climb; auto; [apply (fl_good _ _ _ _ _ _ F2)|]. cbn [app] in F2. eapply group_nd; eauto. left. split; auto. exists mid, (Tok u). auto.
  - intros a s' E. revert a s' E. match goal with |- forall a s', ?m ?s = Ok (a, s') -> _ => change (LW m s (whole S C G)) end.
    destruct (check_group (TokenToCloser (t_kind u)) (mkp z1 (S ++ ch) (mkctx 0 (length S) :: C) (closer :: G))) eqn:Ech.
    + apply LW_bind. eapply (L_back o base (qtop (closer :: G)) isTrivia z z1); eauto; [reflexivity|]. intros z2 G2 H2 _. unfold reduce_group_missing_closer. apply L_reduce_group.
      exists z2, (Op KGroupMissingCloser op ch). split; auto. split; auto. split; [eapply group_nd; eauto|]. split; [|exact I]. apply halts_stop. right. rewrite H2. intros k Fo.
      unfold check_group in Ech. cbn [groups existsb] in Ech. rewrite Ecl in Ech. cbn [orb] in Ech. apply existsb_exists in Ech as (c & Hin & _).
      assert (Q : qtop G = qtop (closer :: G)) by (destruct G; [contradiction|reflexivity]). unfold ParserProofs.follows in Fo, Nl. rewrite Q in Fo. rewrite (Nl k Fo). apply closer_final; auto.
    + assert (Nu : t_kind u <> TK_EndOfFile) by (intros X; rewrite X in Ecu; vm_compute in Ecu; discriminate).
      apply LW_bind, L_trivia. rewrite <- app_assoc. apply LW_bind. unfold prefix_toplevel_closer. apply LW_bind, LW_assert. intros _. apply LW_bind, L_leaf. rewrite <- app_assoc.
      apply (L_skip o base (qtop (closer :: G)) z1 u); auto; [reflexivity|]. intros z2 G2 H2 R2. apply (IH (CGroupLoop op closer)).
      assert (Er : error_leaf (Tok (tok_at TK_Error_UnexpectedCloser u))) by (eexists; split; reflexivity).
      exists z2, ((ch ++ map Tok l) ++ [Tok (tok_at TK_Error_UnexpectedCloser u)]), t, (mid ++ [Tok (tok_at TK_Error_UnexpectedCloser u)]). split; auto. split.
      * eapply fl_group. change (Tok t :: mid ++ [Tok (tok_at TK_Error_UnexpectedCloser u)]) with ((Tok t :: mid) ++ [Tok (tok_at TK_Error_UnexpectedCloser u)]). eapply fl_tok; [eapply fl_trivia; eauto|exact G2|reflexivity].
      * split; [apply apart_snoc; auto; intros l0 a0 _; right; exact Er|]. split; auto. intros l0 a0 E. apply app_inj_tail in E as [_ <-]. left. apply broken_leaf. exact Er.
  - apply LW_bind, L_trivia. rewrite <- app_assoc. pose proof (fl_group _ _ _ _ _ _ (fl_trivia _ _ _ _ z1 _ _ _ _ _ _ F G1 St1)) as F1. destruct (Z.eqb_spec (t_kind u) TK_EndOfFile) as [Eu|Nu].
    + apply L_reduce_open. exists z1, (Op KGroupMissingCloser op (ch ++ map Tok l)). split; auto. split; auto. split; [eapply group_nd; eauto|]. split; [|exact I]. apply halts_stop. right.
      intros k (l' & t' & p' & St' & <-). destruct (strip_newline _ _ _ _ _ _ St') as [St2|X]; [|rewrite X; reflexivity].
      pose proof (strip_place _ _ _ _ _ _ _ St2) as (Hr2 & Ht2 & _). pose proof (reads_solid _ _ _ _ Hr2 Ht2) as Hs2.
      pose proof (stops_eof o G [] z1 u (isg (closer :: G)) HL1 Eu _ _ _ St2) as [Y|[Y _]]; [rewrite Y; reflexivity|]. apply closer_final; auto.
    + apply LW_bind. eapply LW_conseq; [apply (IH (CPrefix u) (S ++ (ch ++ map Tok l)) (mkctx 0 (length S) :: C) (closer :: G))|].
      * exists z1. split; auto. split; auto. split; auto. split; auto. cbn. lia.
      * intros [] s' (z2 & n & -> & G2 & Hn & (Hh & _) & Hx). rewrite <- app_assoc. apply (IH (CGroupLoop op closer)). exists z2, ((ch ++ map Tok l) ++ [n]), t, (mid ++ [n]). split; auto.
        split; [change (Tok t :: mid ++ [n]) with ((Tok t :: mid) ++ [n]); eapply fl_snoc; eauto|]. split; [|split; auto].
        -- apply apart_snoc; auto. intros l0 a0 E. destruct (Hst _ _ E) as [X|X]; [left; exact X|right]. apply Hx. apply X. exists l, u, (here z1). split; auto.
           apply strip_same; auto. eapply group_strip; [|exact St1]. discriminate.
        -- intros l0 a0 E. apply app_inj_tail in E as [_ <-]. apply Hh. reflexivity.
Qed.

(** ** Climbing *)
Lemma small_prec : forall a p, prec_greater a p = true -> p < a + 2.
Proof. intros a p H. unfold prec_greater in H. apply Z.ltb_lt in H. rewrite lor_one in H. destruct (Z.odd a); lia. Qed.
Lemma lor_zero : forall p, prec_greater 0 p = true -> p < 1.
Proof. intros p H. unfold prec_greater in H. apply Z.ltb_lt in H. exact H. Qed.
Lemma lor_comma : forall p, prec_greater PREC_COMMA p = true -> p < 3.
Proof. intros p H. unfold prec_greater in H. apply Z.ltb_lt in H. exact H. Qed.
Lemma climb_ok : forall S C G s, pre CClimb S C G s -> LW (climb o run) s (post CClimb S C G).
Proof.
  intros S C G s (z & n & -> & Hg & Hn & Hc). change (post CClimb S C G) with (whole S C G). assert (F : fl false G none z [n] [n]) by (eapply fl_one; eauto).
  unfold climb. apply LW_bind. apply (L_current_nl o base); auto. intros l t z1 G1 R1 St1 HL1 Hs1. cbv beta iota.
  apply LW_bind, LW_PW. eapply (implicit_ok True t z1 S [n] []); [apply (fl_parts _ _ _ _ _ _ F)|exact Hs1|]. intros t' Hi. apply LW_bind.
  destruct (prec_ok n t t' (S ++ [n]) C G z1 Hs1 Hi) as (p & Hp & Hcase). intros p' s1 E1. rewrite Hp in E1. injection E1 as <- <-.
  assert (HW : forall b, b = prec_greater (cprec C) p -> LW (if b then trivia_reset l else (push_context p ;; push_trivia l ;; run (CInfix t'))%parser) (mkp z1 (S ++ [n]) C G) (whole S C G)).
  2: { exact (HW _ eq_refl). }
  intros b Eb. destruct b.
  - eapply (L_back o base (qtop G) isTriviaButNotToplevelNewline z z1); eauto; [reflexivity|]. intros z2 G2 H2 _. exists z2, n. split; auto. split; auto. split; [exact Hn|]. split; [|exact I].
    rewrite H2. assert (Fd : forall k, follows G (here z) k -> k = t_kind t) by (intros k Fo; symmetry; eapply (follows_det o); eauto).
    assert (K0 : p = 0 -> cprec C = 0 \/ cprec C = PREC_COMMA -> final (t_kind t) = true).
    { intros -> HC. destruct Hcase as [(_ & -> & X)|(X & _)]; [|lia]. destruct Hi as [(_ & N1 & N2)|(X1 & X2 & _)].
      - unfold final. destruct (infix_of (t_kind t)); try discriminate X; try reflexivity; [contradiction N1; reflexivity|]. specialize (N2 eq_refl). rewrite N2 in HC. destruct HC as [HC|HC]; discriminate HC.
      - exfalso. apply (solid_unfake _ X2). rewrite X1. reflexivity. }
    symmetry in Eb. split; intros X; rewrite X in Eb; right; intros k Fo; rewrite (Fd k Fo).
    + apply lor_zero in Eb. apply K0; auto. destruct Hcase as [(Y & _)|(Y & _)]; [exact Y|lia].
    + apply lor_comma in Eb. destruct Hcase as [(Y & _)|(Hp0 & Hs & Hcase)]; [left; auto|right]. destruct Hcase as [(-> & Y & [Z|Z])|(Y & _)].
      * exfalso. rewrite Z in Hp. cbn [get_precedence ctxs] in Hp. injection Hp as Hp. unfold PREC_FAKE_OPTIONALCOLON, PREC_HIGHEST in Hp. match type of Hp with (if ?b then _ else _) = _ => destruct b; lia end.
      * destruct (solid_iprec _ _ Hs Z) as (Y1 & Y2 & _). apply Y2. lia.
      * unfold PREC_STAR in Y. lia.
  - destruct Hcase as [(-> & _)|(Hp0 & Hs & Hcase)]; [rewrite greater_zero in Eb by auto; discriminate|].
    apply LW_bind, L_context. apply LW_bind, L_trivia. rewrite <- app_assoc.
    apply (IH (CInfix t') S C G). exists z1, ([n] ++ map Tok l), n, p. split; auto. split; [eapply fl_trivia_nl; eauto|]. split; [exact Hc|]. split; [lia|].
    destruct Hcase as [(-> & X & Y)|(-> & -> & X)].
    + left. split; auto. split; auto. split; auto. intros Hic. rewrite Hic in Hp. cbn [get_precedence] in Hp. injection Hp as <-. reflexivity.
    + right. exists t. auto.
Qed.

(** ** Prefix requests *)
Section Prefix.
Variables (z : st) (S : list cst) (C : list ctx) (G : list Z) (t : token).
Hypothesis Hg : good z.
Hypothesis HL : looks o (qtop G) z t.
Hypothesis Hs : solidk (t_kind t) = true.
Hypothesis Hc : nn C.
Local Notation goal m := (LW m (mkp z S C G) (post (CPrefix t) S C G)).
Local Notation sgoal m := (LW m (mkp z S C G) (whole S C G)).
Lemma whole_goal : forall m, final (t_kind t) = false -> sgoal m -> goal m.
Proof.
  clear Hg HL Hs Hc. intros m Hf H. eapply LW_conseq; [exact H|]. intros [] s' (z' & n' & -> & A1 & A2 & A3 & A4). exists z', n'. do 4 (split; [auto|]). intros X. congruence.
Qed.
Lemma fl0 : fl false G none z [] []. Proof. apply fl_nil; auto. Qed.
Lemma error_done : forall z' u, good z' -> isTrivia (t_kind u) = false -> isError (t_kind u) = true -> post (CPrefix t) S C G tt (mkp z' (S ++ [Tok u]) C G).
Proof.
  intros z' u G' Ht He. assert (Er : error_leaf (Tok u)) by (exists u; auto). exists z', (Tok u). split; auto. split; auto. split; [apply nd_tok; auto|]. split; [apply halts_error; auto|]. intros _. exact Er.
Qed.
Lemma P_next : forall (Q : unit -> pst -> Prop), t_kind t <> TK_EndOfFile -> (forall z', fl false G none z' [Tok t] [Tok t] -> Q tt (mkp z' (S ++ [Tok t]) C G)) -> LW (push_syntax_and_next dbg t) (mkp z S C G) Q.
Proof. intros Q N HQ. replace S with (S ++ []) by apply app_nil_r. eapply (L_next_top false G none); [apply fl0|exact HL|exact N|exact Hs|]. intros z' F' _ _. apply HQ. exact F'. Qed.
Lemma prefix_leaf_ok : final (t_kind t) = false -> t_kind t <> TK_EndOfFile -> goal (push_leaf_and_next dbg t ;; run CClimb)%parser.
Proof.
  intros Hf N. apply whole_goal; auto. apply LW_bind. apply P_next; auto. intros z1 F1. apply rec_climb; auto; [apply (fl_good _ _ _ _ _ _ F1)|apply nd_tok, solidk_trivia; auto].
Qed.
Lemma prefix_error_ok : t_kind t <> TK_EndOfFile -> goal (passert (isError (t_kind t)) ;; push_leaf_and_next dbg t)%parser.
Proof.
  intros N. apply LW_bind, LW_assert. intros He. apply P_next; auto. intros z1 F1. apply error_done; auto; [apply (fl_good _ _ _ _ _ _ F1)|apply solidk_trivia; auto].
Qed.
Lemma prefix_eof_ok : goal (prefix_end_of_file dbg t).
Proof.
  unfold prefix_end_of_file. intros a s' E. cbn beta in E. revert a s' E. match goal with |- forall a s', ?m ?s = Ok (a, s') -> _ => change (goal m) end.
  apply L_leaf. match goal with |- context [if ?b then _ else _] => destruct b end; apply error_done; auto.
Qed.
Lemma prefix_closer_ok : goal (prefix_closer o dbg t).
Proof.
  unfold prefix_closer. apply LW_bind, LW_assert. intros Hcl. intros a s' E. cbn beta in E. revert a s' E. match goal with |- forall a s', ?m ?s = Ok (a, s') -> _ => change (goal m) end.
  apply LW_bind, L_leaf. apply LW_bind, (L_peek o base); auto. intros u z1 G1 H1 _ _. apply LW_ret. match goal with |- context [if ?b then _ else _] => destruct b end; apply error_done; auto.
Qed.
Lemma prefix_unsupported_ok : t_kind t <> TK_EndOfFile -> goal (prefix_unsupported dbg t).
Proof.
  intros N. unfold prefix_unsupported. apply LW_bind, L_leaf. apply (L_skip o base (qtop G) z t); auto; [reflexivity|]. intros z' G' H' R'. apply error_done; auto.
Qed.
Lemma prefix_comma_ok : final (t_kind t) = false -> goal (prefix_comma dbg run t).
Proof.
  intros Hf. apply whole_goal; auto. unfold prefix_comma. intros a s' E. cbn beta in E. revert a s' E. match goal with |- forall a s', ?m ?s = Ok (a, s') -> _ => change (sgoal m) end.
  apply LW_bind, L_leaf. apply rec_climb; auto. apply nd_tok. match goal with |- context [if ?b then _ else _] => destruct b end; reflexivity.
Qed.
Lemma prefix_unhandled_ok : prefix_of (t_kind t) = PP_PrefixUnhandled -> final (t_kind t) = false -> goal (prefix_unhandled o dbg run t).
Proof.
  intros Hp Hf. pose proof (solidk_prefix _ Hs) as Pf. unfold prefix_facts in Pf. rewrite Hp in Pf. apply andb_true_iff in Pf as [P1 P2].
  destruct (iprec (infix_of (t_kind t))) as [p0|] eqn:Ep; [|discriminate]. clear P2.
  unfold prefix_unhandled. apply LW_bind, LW_assert. intros _. apply LW_bind, L_leaf. apply LW_bind, (L_peek o base); auto. intros u z1 G1 H1 HL1 R1.
  assert (Hi : implied C (Tok t) t t).
  { left. split; auto. split; [intros X; rewrite X in Ep; discriminate|]. intros X. rewrite X in Ep. discriminate. }
  destruct (prec_ok (Tok t) t t (S ++ [Tok (tok_at_start TK_Error_ExpectedOperand t)]) C G z1 (or_introl Hs) Hi) as (p & Hpr & Hcase).
  apply LW_bind. intros p' s1 E1. rewrite Hpr in E1. injection E1 as <- <-.
  set (f := tok_at_start TK_Error_ExpectedOperand t) in *.
  assert (HW : forall b, b = prec_greater (cprec C) p -> LW (if b then pret tt else (push_context p ;; run (CInfix t))%parser) (mkp z1 (S ++ [Tok f]) C G) (post (CPrefix t) S C G)).
  2: { exact (HW _ eq_refl). }
  intros b Eb. destruct b.
  - apply LW_ret. apply error_done; auto.
  - destruct Hcase as [(_ & _ & X)|(Hp0 & _ & _)]; [congruence|].
    apply LW_bind, L_context. eapply LW_conseq; [apply (IH (CInfix t) S C G)|].
    + exists z1, [Tok f], (Tok f), p. split; auto. split; [apply fl_one; auto; apply nd_tok; reflexivity|]. split; auto. split; [lia|].
      left. assert (Eu : u = t) by (eapply (reads_det o (qtop G) (here z)); [reflexivity|rewrite <- H1; apply looks_reads; exact HL1|apply looks_reads; exact HL]).
      split; [rewrite <- Eu; exact HL1|]. split; [exact Hs|]. split; [congruence|]. intros Hic. rewrite Hic in Hpr. cbn [get_precedence] in Hpr. injection Hpr as <-. reflexivity.
    + intros [] s' (z' & n' & -> & A1 & A2 & A3 & A4). exists z', n'. do 4 (split; [auto|]). intros X. congruence.
Qed.
Lemma prefix_operator_ok : forall p op, prefix_of (t_kind t) = PP_PrefixOperator p op -> final (t_kind t) = false -> t_kind t <> TK_EndOfFile -> goal (prefix_operator o dbg run p op t).
Proof.
  intros p op Hp Hf N. apply whole_goal; auto. assert (Np : 0 <= p). { pose proof (solid_prefix _ Hs) as Sp. rewrite Hp in Sp. destruct Sp as ([Hp1 Hp2] & Hop). unfold PREC_FAKE_PATTERNCOLON in Hp1. lia. }
  unfold prefix_operator. apply LW_bind. apply P_next; auto. intros z1 F1. apply LW_bind, L_context. apply LW_bind. eapply L_eat; eauto. intros u z2 ch2 l F2 HL2 Hs2 _ _.
  apply LW_bind. eapply L_operand; eauto. intros z3 b F3 Hb. eapply L_red; eauto; [|discriminate]. intros i [[]| ->]. split; cbn; lia.
Qed.
Lemma prefix_less_less_ok : final (t_kind t) = false -> t_kind t <> TK_EndOfFile -> goal (prefix_less_less o dbg run t).
Proof.
  intros Hf N. apply whole_goal; auto. unfold prefix_less_less. apply LW_bind. apply P_next; auto. intros z1 F1. apply LW_bind, L_context. apply LW_bind. eapply L_eat_file; eauto.
  intros u z2 ch2 F2 HL2 Ht2 Hn2. apply LW_bind. eapply (L_next AsFile true G); eauto; [exact I|]. intros z3 F3 _ _. eapply L_red; eauto.
  - intros i [[]| ->]. split; cbn; lia.
  - intros _. eexists. left. reflexivity.
Qed.
Lemma prefix_integral_ok : forall op1 op2, final (t_kind t) = false -> t_kind t <> TK_EndOfFile -> goal (prefix_integral o dbg run op1 op2 t).
Proof.
  intros op1 op2 Hf N. apply whole_goal; auto. unfold prefix_integral. apply LW_bind. apply P_next; auto. intros z1 F1. apply LW_bind, L_context. apply LW_bind. eapply L_eat; eauto.
  intros u z2 ch2 l2 F2 HL2 Hs2 _ _. cbn [length] in F2.
  assert (K : forall z3 ch3 b, fl false G (plus none 1) z3 ch3 [Tok t; b] ->
     LW (' (l, v) <- current_token o dbg ;; if negb (is_differential (t_kind v)) then trivia_reset l ;; reduce_op KPrefix op2 ;; run CClimb
         else push_trivia l ;; run (CPrefix v) ;; reduce_op KPrefixBinary op1 ;; run CClimb)%parser (mkp z3 (S ++ ch3) (mkctx PREC_CLASS_INTEGRATIONOPERATORS (length S) :: C) G) (whole S C G)).
  { intros z3 ch3 b F3. apply LW_bind. apply (L_current o dbg base); [apply (fl_good _ _ _ _ _ _ F3)|]. intros l v z4 G4 R4 St4 HL4 Hs4. cbv beta iota.
    destruct (is_differential (t_kind v)) eqn:Ed; cbn [negb].
    - apply LW_bind, L_trivia. rewrite <- app_assoc. pose proof (fl_trivia _ _ _ _ z4 _ _ _ _ _ _ F3 G4 St4) as F4. cbn [length] in F4.
      apply LW_bind. eapply L_operand; eauto; [discriminate|]. intros z5 c F5 Hc5. eapply L_red; eauto; [|discriminate]. intros i [[[]| ->]| ->]; split; cbn; lia.
    - apply LW_bind. eapply (L_back o base (qtop G) isTrivia z3 z4); eauto; [reflexivity|apply (fl_good _ _ _ _ _ _ F3)|]. intros z5 G5 H5 _. eapply L_red; [eapply fl_move; [exact F3|exact G5]|exact I| |discriminate|auto].
      intros i [[]| ->]; split; cbn; lia. }
  apply LW_bind. destruct (is_differential (t_kind u)) eqn:Ed.
  - apply L_leaf. rewrite <- app_assoc. eapply K. apply (fake_fl false G _ z2 ch2 [Tok t] TK_Fake_ImplicitOne u F2 eq_refl).
  - eapply L_operand; eauto; [discriminate|]. intros z3 b F3 Hb. eapply K; exact F3.
Qed.
Lemma prefix_span_ok : prefix_of (t_kind t) = PP_SemiSemi -> final (t_kind t) = false -> goal (prefix_span o dbg run t).
Proof.
  intros Hp Hf. apply whole_goal; auto. pose proof (solidk_prefix _ Hs) as Pf. unfold prefix_facts in Pf. rewrite Hp in Pf. apply Z.eqb_eq in Pf.
  unfold prefix_span. apply LW_bind, LW_debug. apply LW_bind, L_leaf. apply LW_bind, L_context. eapply (infix_span_ok S (Tok (tok_at_start TK_Fake_ImplicitOne t))); eauto.
  - vm_compute. discriminate.
  - apply (fake_fl false G none z [] [] TK_Fake_ImplicitOne t fl0 eq_refl).
Qed.

Definition flat (n : cst) : Prop := lined n /\ quiet n /\ trivia_leaf n = false.
Lemma flat_tok : forall u, isTrivia (t_kind u) = false -> flat (Tok u).
Proof. intros u H. split; [apply lined_tok|]. split; [apply quiet_tok|exact H]. Qed.
Lemma flat_kind : forall u k, t_kind u = k -> isTrivia k = false -> flat (Tok u).
Proof. intros u k <- H. apply flat_tok; auto. Qed.
Lemma flat_compound : forall op l, Forall flat l -> flat (Op KCompound op l).
Proof.
  intros op l H. assert (N : forall m, In m l -> ~ line_end m).
  { intros m Hm X. apply line_end_trivia in X. rewrite Forall_forall in H. destruct (H m Hm) as (_ & _ & Y). congruence. }
  split; [|split; [|reflexivity]].
  - apply node_all; [|eapply Forall_impl; [|exact H]; intros a X; apply X]. apply line_ok_op; [exact I|]. intros i (a & m & r & E & Hm & _). exfalso. apply (N m); auto. rewrite E. apply in_or_app. right. left. reflexivity.
  - apply node_all; [right; exact N|eapply Forall_impl; [|exact H]; intros a X; apply X].
Qed.
Lemma flat_climb : forall z' n, good z' -> flat n -> LW (push_node n ;; run CClimb)%parser (mkp z' S C G) (whole S C G).
Proof. intros z' n G' (H1 & H2 & H3). apply LW_bind, L_push. apply rec_climb; auto. split; auto. Qed.
Lemma L_under : forall bop u z0 (Q : cst -> pst -> Prop), good z0 -> looks o (qtop G) z0 u -> t_kind u <> TK_EndOfFile -> isTrivia (t_kind u) = false ->
  (forall z' n, good z' -> flat n -> Q n (mkp z' S C G)) -> LW (get_under o bop u) (mkp z0 S C G) Q.
Proof.
  intros bop u z0 Q G0 HL0 N Htr HQ. unfold get_under. apply LW_bind. apply (L_skip o base (qtop G) z0 u); auto; [reflexivity|]. intros z1 G1 H1 R1. apply LW_bind, (L_peek o base); auto. intros v z2 G2 H2 HL2 R2.
  destruct ((t_kind v =? TK_Symbol) || (t_kind v =? TK_Error_ExpectedLetterlike)) eqn:Ev.
  - assert (Kv : t_kind v = TK_Symbol \/ t_kind v = TK_Error_ExpectedLetterlike) by (apply orb_true_iff in Ev as [X|X]; apply Z.eqb_eq in X; auto).
    assert (Nv : t_kind v <> TK_EndOfFile) by (destruct Kv as [X|X]; rewrite X; discriminate).
    apply LW_bind. apply (L_skip o base (qtop G) z2 v); auto; [reflexivity|]. intros z3 G3 H3 R3. apply LW_ret. apply HQ; auto. apply flat_compound. constructor; [apply flat_tok; auto|constructor; [|constructor]].
    destruct Kv as [X|X]; eapply flat_kind; eauto.
  - apply LW_ret. apply HQ; auto using flat_tok.
Qed.
Lemma prefix_under_ok : forall bop, final (t_kind t) = false -> t_kind t <> TK_EndOfFile -> goal (prefix_under o run bop t).
Proof.
  intros bop Hf N. apply whole_goal; auto. unfold prefix_under. apply LW_bind. apply L_under; auto; [apply solidk_trivia; auto|]. intros z1 n G1 Hp. apply flat_climb; auto.
Qed.
Lemma push_and_climb_ok : forall z', good z' -> LW (push_and_climb dbg run t) (mkp z' S C G) (whole S C G).
Proof.
  intros z' G'. unfold push_and_climb. apply LW_bind, L_leaf. apply rec_climb; auto. apply nd_tok, solidk_trivia; auto.
Qed.
Lemma pattern_blank_ok : forall bop pbop u z', good z' -> looks o (qtop G) z' u -> In (t_kind u) [TK_Under; TK_UnderUnder; TK_UnderUnderUnder] ->
  LW (pattern_blank o dbg run bop pbop t u) (mkp z' S C G) (whole S C G).
Proof.
  intros bop pbop u z' G' HL' Hu. unfold pattern_blank. apply LW_bind. cbn [In] in Hu. apply L_under; auto.
  - destruct Hu as [X|[X|[X|[]]]]; rewrite <- X; discriminate.
  - destruct Hu as [X|[X|[X|[]]]]; rewrite <- X; reflexivity.
  - intros z1 n G1 Hp. apply LW_bind, LW_debug. apply flat_climb; auto. apply flat_compound. constructor; [apply flat_tok, solidk_trivia; auto|constructor; auto].
Qed.
Lemma prefix_symbol_ok : final (t_kind t) = false -> t_kind t <> TK_EndOfFile -> goal (prefix_symbol o dbg run t).
Proof.
  intros Hf N. apply whole_goal; auto. unfold prefix_symbol. apply LW_bind. apply (L_skip o base (qtop G) z t); auto; [reflexivity|]. intros z1 G1 H1 R1. apply LW_bind, (L_peek o base); auto. intros u z2 G2 H2 HL2 R2.
  destruct (Z.eqb_spec (t_kind u) TK_Under) as [E1|_]; [eapply pattern_blank_ok; eauto; rewrite E1; cbn; auto|].
  destruct (Z.eqb_spec (t_kind u) TK_UnderUnder) as [E1|_]; [eapply pattern_blank_ok; eauto; rewrite E1; cbn; auto|].
  destruct (Z.eqb_spec (t_kind u) TK_UnderUnderUnder) as [E1|_]; [eapply pattern_blank_ok; eauto; rewrite E1; cbn; auto|].
  destruct (Z.eqb_spec (t_kind u) TK_UnderDot) as [E1|_]; [|apply push_and_climb_ok; auto].
  apply LW_bind. apply (L_skip o base (qtop G) z2 u); auto; [reflexivity|rewrite E1; discriminate|]. intros z3 G3 H3 R3. apply LW_bind, LW_debug. apply flat_climb; auto.
  apply flat_compound. constructor; [apply flat_tok, solidk_trivia; auto|constructor; [eapply flat_kind; eauto|constructor]].
Qed.
Lemma prefix_slot_ok : forall pol args op, final (t_kind t) = false -> t_kind t <> TK_EndOfFile -> p_scan pol = false -> (forall k, zin k args = true -> k = TK_Integer \/ k = TK_String) -> goal (prefix_slot o dbg run pol args op t).
Proof.
  intros pol args op Hf N Hpol Hargs. apply whole_goal; auto. unfold prefix_slot. apply LW_bind. apply (L_skip o base (qtop G) z t); auto; [reflexivity|]. intros z1 G1 H1 R1.
  apply LW_bind. intros u s1 E1. rewrite peek_with_eq in E1. revert u s1 E1.
  match goal with |- forall u s1, tk ?m ?s = Ok (u, s1) -> LW (@?f u) s1 ?Q => change (LW (tk m) s (fun u s' => LW (f u) s' Q)) end.
  apply (L_ask o base (AsToken (isg G) pol)); auto. intros u z2 G2 H2 HL2 R2. destruct (zin (t_kind u) args) eqn:Eu; [|apply push_and_climb_ok; auto].
  assert (Ku := Hargs _ Eu). assert (Nu : t_kind u <> TK_EndOfFile) by (destruct Ku as [X|X]; rewrite X; discriminate).
  apply LW_bind. apply (L_skip o base (AsToken (isg G) pol) z2 u); auto. intros z3 G3 H3 R3. apply LW_bind, LW_debug. apply flat_climb; auto.
  apply flat_compound. constructor; [apply flat_tok, solidk_trivia; auto|constructor; [destruct Ku as [X|X]; eapply flat_kind; eauto|constructor]].
Qed.
End Prefix.

Lemma parse_prefix_ok : forall t S C G s, pre (CPrefix t) S C G s -> LW (parse_prefix o dbg run t) s (post (CPrefix t) S C G).
Proof.
  intros t S C G s (z & -> & Hg & HL & Hs & Hc). pose proof (consuming_not_eof t Hs) as Ne. pose proof (solid_final _ Hs) as Hf.
  unfold parse_prefix. destruct (prefix_of (t_kind t)) as [| | | | | | |pp0 po0|opener op| | |i1 i2| | | | |u1 u2|] eqn:Ep.
  - eapply prefix_leaf_ok; eauto.
  - eapply prefix_eof_ok; eauto.
  - eapply prefix_error_ok; eauto.
  - eapply prefix_closer_ok; eauto.
  - eapply prefix_unsupported_ok; eauto.
  - eapply prefix_comma_ok; eauto.
  - eapply prefix_unhandled_ok; eauto.
  - eapply prefix_operator_ok; eauto.
  - apply whole_goal; auto. eapply prefix_group_ok; eauto.
  - eapply prefix_symbol_ok; eauto.
  - eapply prefix_span_ok; eauto.
  - eapply prefix_integral_ok; eauto.
  - eapply prefix_less_less_ok; eauto.
  - unfold prefix_hash. eapply prefix_slot_ok; eauto. intros k Hk. apply zin_In in Hk. cbn [In] in Hk. destruct Hk as [X|[X|[]]]; auto.
  - unfold prefix_hash_hash. eapply prefix_slot_ok; eauto. intros k Hk. apply zin_In in Hk. cbn [In] in Hk. destruct Hk as [X|[]]; auto.
  - unfold prefix_percent. eapply prefix_slot_ok; eauto. intros k Hk. apply zin_In in Hk. cbn [In] in Hk. destruct Hk as [X|[]]; auto.
  - eapply prefix_under_ok; eauto.
  - eapply prefix_leaf_ok; eauto.
Qed.
Lemma answer_ok : forall c S C G s, pre c S C G s -> LW (answer o dbg keep run c) s (post c S C G).
Proof.
  intros c S C G s Hp. destruct c as [t|t| |op closer|op| | | |]; cbn [answer].
  - apply parse_prefix_ok; auto.
  - apply parse_infix_ok; auto.
  - apply climb_ok; auto.
  - apply group_loop_ok; auto.
  - apply infix_loop_ok; auto.
  - apply times_loop_ok; auto.
  - apply comma_loop_ok; auto.
  - apply semi_loop_ok; auto.
  - apply colon_colon_loop_ok; auto.
Qed.
End Lines.

(** ** Whole inputs *)
Section Whole.
Variable o : opts.
Variable dbg : bool.
Variable base : st.
Local Notation good := (good o base).
Lemma run_lines : forall fuel c S C G s, pre o base c S C G s -> LW (run o dbg keep fuel c) s (post o base c S C G).
Proof.
  induction fuel as [|k IH]; intros c S C G s Hp; [intros a s' E; discriminate E|]. cbn [run]. apply answer_ok; auto.
Qed.
(** the first expression of the list, when nothing can go on here *)
Definition starts (p : place) (l : list cst) : Prop := (forall k, follows o [] p k -> final k = true) ->
  forall mid b l2, l = mid ++ b :: l2 -> trivia_leaf b = false -> Forall (fun m => trivia_leaf m = true /\ ~ line_end m) mid -> error_leaf b.
Definition top_ok (p : place) (l : list cst) : Prop := Forall lined l /\ separate l /\ starts p l.
Lemma separate_trivia : forall t l, trivia_leaf t = true -> separate l -> separate (t :: l).
Proof. intros t l Ht H l1 a mid b l2 E Ha. destruct l1 as [|x l1]; [injection E as <- _; congruence|]. injection E as _ E. eapply H; eauto. Qed.
Lemma separate_node : forall n l p, stop o [] p n -> starts p l -> separate l -> separate (n :: l).
Proof.
  intros n l p Hs Hl H l1 a mid b l2 E Ha Hb Hm. destruct l1 as [|x l1]; [|injection E as _ E; eapply H; eauto]. injection E as <- E. destruct Hs as [Hs|Hs]; [left; exact Hs|right]. exact (Hl Hs _ _ _ E Hb Hm).
Qed.
Lemma starts_node : forall n l p, trivia_leaf n = false -> ((forall k, follows o [] p k -> final k = true) -> error_leaf n) -> starts p (n :: l).
Proof.
  intros n l p Hn He Hf mid b l2 E Hb Hm. destruct mid as [|x mid]; [injection E as <- _; auto|]. injection E as <- _. inversion Hm as [|? ? [X _] _]; subst. congruence.
Qed.
Lemma loop_lines : forall k z l s', good z -> parse_loop o dbg keep k (mkp z [] [] []) = Ok (l, s') -> top_ok (here z) l.
Proof.
  induction k as [|k IH]; intros z l s' Hg E; [discriminate E|]. set (Q := fun (l : list cst) (_ : pst) => top_ok (here z) l).
  assert (T : forall z2 m, good z2 -> (forall l0, top_ok (here z2) l0 -> top_ok (here z) (m :: l0)) -> LW (l0 <- parse_loop o dbg keep k ;; pret (m :: l0))%parser (mkp z2 [] [] []) Q).
  { intros z2 m G2 Hm. apply LW_bind. intros l0 s0 E0. apply LW_ret. apply Hm. exact (IH _ _ _ G2 E0). }
  revert l s' E. change (LW (parse_loop o dbg keep (Datatypes.S k)) (mkp z [] [] []) Q). cbn [parse_loop].
  apply LW_bind, (L_peek o base); auto. intros t z1 G1 H1 HL R1. pose proof (looks_reads _ _ _ _ HL) as Hr. rewrite H1 in Hr.
  destruct (Z.eqb_spec (t_kind t) TK_EndOfFile) as [Ee|Ne].
  { apply LW_ret. split; [constructor|]. split; [intros l1 a mid b l2 E; destruct l1; discriminate E|intros _ mid b l2 E; destruct mid; discriminate E]. }
  destruct (isTrivia (t_kind t)) eqn:Et.
  - apply LW_bind. apply (L_skip o base (qtop []) z1 t); auto; [reflexivity|]. intros z2 G2 H2 R2. apply T; auto. intros l0 (A1 & A2 & A3). split; [constructor; [apply lined_tok|exact A1]|].
    split; [apply separate_trivia; auto|]. intros Hf mid b l2 E Hb Hm. destruct mid as [|x mid]; [injection E as <- _; cbn [trivia_leaf] in Hb; congruence|]. injection E as <- E. inversion Hm as [|? ? [_ X] Y]; subst.
    eapply A3; eauto. intros k0 (l3 & u & p' & St & <-). apply Hf. exists (t :: l3), u, p'. split; auto. eapply strip_cons; eauto; [|rewrite <- H2; exact St].
    destruct (isTriviaButNotToplevelNewline (t_kind t)) eqn:En; auto. destruct (reads_newline _ _ _ _ Hr En) as [K|K]; [apply solidk_trivia in K; congruence|]. exfalso. apply X. exists t. auto.
  - assert (Hs : solidk (t_kind t) = true) by (eapply reads_solid; eauto).
    assert (Fo : follows o [] (here z) (t_kind t)).
    { exists [], t, (here z). split; auto. apply strip_nil; auto. destruct (isTriviaButNotToplevelNewline (t_kind t)) eqn:En; auto. apply triv_newline in En. congruence. }
    apply LW_bind. destruct (isCloser (t_kind t)) eqn:Ec.
    + unfold prefix_toplevel_closer. apply LW_bind, LW_assert. intros _. apply LW_bind, L_leaf. cbn [app]. apply (L_skip o base (qtop []) z1 t); auto; [reflexivity|]. intros z2 G2 H2 R2.
      assert (Er : error_leaf (Tok (tok_at TK_Error_UnexpectedCloser t))) by (eexists; split; reflexivity).
      apply LW_bind. intros n s1 E1. injection E1 as <- <-. apply LW_bind. intros u s2 E2. injection E2 as _ <-. apply T; auto. intros l0 (A1 & A2 & A3).
      split; [constructor; [apply lined_tok|exact A1]|]. split; [eapply separate_node; eauto; left; apply broken_leaf; exact Er|]. apply starts_node; auto.
    + intros u s1 E1. cbn beta in E1. pose proof (run_lines (depth_bound (mkp z1 [] [] [])) (CPrefix t) [] [] [] (mkp z1 [] [] [])) as K. destruct (fun H => K H _ _ E1) as (z2 & n & -> & G2 & (N1 & N2 & _) & (N3 & _) & N4).
      { exists z1. split; auto. split; auto. split; auto. split; auto. discriminate. }
      apply LW_bind. intros m s2 E2. injection E2 as <- <-. apply LW_bind. intros v s3 E3. injection E3 as _ <-. cbn [tz app]. apply T; auto. intros l0 (A1 & A2 & A3).
      split; [constructor; auto|]. split; [eapply separate_node; eauto; apply N3; reflexivity|]. apply starts_node; auto.
Qed.
End Whole.

Lemma parse_lines : forall o dbg b input l s', 0 < o_tab_width o -> parse_cst_raw o dbg keep b input = Ok (l, s') -> Forall lined l /\ separate l.
Proof.
  intros o dbg b input l s' Ht E. unfold parse_cst_raw, do_parse, pbind, tk, session_new in E. cbn [tz stack ctxs groups] in E.
  pose proof (handle_first_line_ok o b _ _ (reader_new_Inv o input Ht) (R_refl _ _)) as H. unfold wpr in H.
  destruct (handle_first_line o b (reader_new o input)) as [[[] s0]| |] eqn:EF; [|discriminate E|discriminate E]. destruct H as (I0 & R0 & _).
  assert (G0 : good o (reader_new o input) s0).
  { split; [exact I0|]. split; [exact R0|]. eapply first_line_weof; [|exact EF]. reflexivity. }
  unfold pwith_fuel in E. cbn [tz] in E.
  match type of E with match ?x with _ => _ end = _ => destruct x as [[a t1]| |] eqn:P1; [|discriminate E|discriminate E] end.
  destruct (dbg && _); [discriminate E|]. injection E as <- <-. destruct (loop_lines o dbg _ _ _ _ _ G0 P1) as (A1 & A2 & _). auto.
Qed.
