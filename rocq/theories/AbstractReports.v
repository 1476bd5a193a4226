(** [report], the issues as the code computes them, are the issues of [SpecIssues]. *)
From Coq Require Import ZArith List Bool Lia Permutation.
From Verif Require Import Base Source WLChar LongNames SpecText Iter GenTokenKind TokenKind Tokenizer GenPrec GenOps GenParselets Parselets Cst SpecCst CstProofs Parser SpecParser SpecParse TokenizerProofs ParserTheorems
  Ast Abstract SpecAbstract SpecItems AbstractProofs AbstractShape AbstractTotal AbstractTheorems AbstractKeep SpecIssues AbstractIssues.
Import ListNotations.
Local Open Scope list_scope.
Local Open Scope Z_scope.

Lemma zin_In : forall x l, zin x l = true <-> In x l.
Proof.
  intros x l. unfold zin. rewrite existsb_exists. split; [intros (y & H & E); apply Z.eqb_eq in E; subst; exact H|intros H; exists x; split; [exact H|apply Z.eqb_refl]].
Qed.

(** ** Heads *)
Definition head_issue (part : bool) (h : cst) := if part then part_issue h else call_issue h.
Lemma slot_sequence_iff : forall h, slot_sequence_head h = true <-> slot_sequence h.
Proof.
  intros h. split.
  - intros H. destruct h as [t| | |k op ch| |]; try discriminate H; [|destruct k; try discriminate H]; cbn [slot_sequence_head] in H; apply Z.eqb_eq in H; [constructor; exact H|subst; constructor].
  - intros H. destruct H; cbn [slot_sequence_head]; [rewrite H|]; reflexivity.
Qed.
Definition usualb (part : bool) (h : cst) : bool :=
  match h with
  | Op KBinary op _ => negb part && (op =? BOP_PatternTest)
  | Op KPostfix op _ => zin op (if part then [POSTOP_Transpose] else [POSTOP_Function; POSTOP_Derivative])
  | BoxN _ _ _ => false
  | _ => fine_head (if part then [] else [TK_String]) h
  end.
Lemma usual_iff : forall part h, usualb part h = true <-> usual part h.
Proof.
  intros part h. split.
  - intros H. destruct h as [t|h m op ch|e ch|k op ch| |]; try discriminate H; [|constructor|destruct k; try discriminate H]; cbn [usualb fine_head] in H.
    + apply zin_In in H. destruct part; [constructor; exact H|]. destruct H as [H|H]; [apply usual_string; auto|constructor; exact H].
    + apply zin_In in H. apply usual_postfix. exact H.
    + apply andb_prop in H as [H1 H2]. apply Z.eqb_eq in H2. subst. destruct part; [discriminate H1|]. apply usual_pattern_test. reflexivity.
    + apply zin_In in H. apply usual_compound. exact H.
    + apply zin_In in H. apply usual_group. exact H.
  - intros H. destruct H as [t H|t -> H|h m op ch|op ch H|op ch H|ch ->|op ch H]; cbn [usualb fine_head]; try reflexivity; try (apply zin_In; exact H).
    + apply zin_In. destruct part; [exact H|right; exact H].
    + apply zin_In. left. symmetry. exact H.
Qed.
Definition toleratedb (part : bool) (h : cst) : option asev :=
  match h with
  | Op KGroup _ _ => Some SevWarning
  | Op KInfix op _ => if op =? IOP_CompoundExpression then Some (if part then SevRemark else SevWarning) else None
  | Tok t => if part && (t_kind t =? TK_LinearSyntaxBlob) then Some SevRemark else None
  | Op KPrefix op _ => if part && (op =? PREOP_CodeParser_PrefixLinearSyntaxBang) then Some SevRemark else None
  | _ => None
  end.
Lemma tolerated_iff : forall part h v, toleratedb part h = Some v <-> tolerated part h v.
Proof.
  intros part h v. split.
  - intros H. destruct h as [t|h m op ch|e ch|k op ch| |]; try discriminate H; [|destruct k; try discriminate H]; cbn [toleratedb] in H.
    + destruct part; [|discriminate H]. destruct (Z.eqb_spec (t_kind t) TK_LinearSyntaxBlob); [|discriminate H]. injection H as <-. constructor; auto.
    + destruct part; [|discriminate H]. cbn [andb] in H. destruct (Z.eqb_spec op PREOP_CodeParser_PrefixLinearSyntaxBang); [|discriminate H]. subst. injection H as <-. constructor; auto.
    + destruct (Z.eqb_spec op IOP_CompoundExpression); [|discriminate H]. subst. injection H as <-. constructor.
    + injection H as <-. constructor.
  - intros H. destruct H as [| |t -> H|ch ->]; cbn [toleratedb]; try reflexivity. rewrite H. reflexivity.
Qed.
Lemma head_issue_eq : forall part h, (forall b ch s, h <> BoxN b ch s) ->
  head_issue part h = if slot_sequence_head h then Some (StrangeCallSlotSequence, SevError, 100) else if usualb part h then None
    else Some (StrangeCall, match toleratedb part h with Some v => v | None => SevError end, 95).
Proof.
  intros part h B. unfold head_issue. destruct part; unfold part_issue, call_issue; (destruct (slot_sequence_head h); [reflexivity|]).
  - destruct h as [t|h m op ch|e ch|k op ch| |]; [| | |destruct k| |]; try (exfalso; eapply B; reflexivity); cbn [usualb toleratedb fine_head negb andb]; try reflexivity.
    + destruct (zin _ _); [reflexivity|]. destruct (t_kind t =? TK_LinearSyntaxBlob); reflexivity.
    + destruct (op =? _); reflexivity.
    + destruct (op =? _); reflexivity.
    + unfold zin. cbn [existsb]. rewrite orb_false_r, (Z.eqb_sym op). reflexivity || (destruct (Z.eqb_spec op POSTOP_Transpose); [subst; reflexivity|]; destruct (Z.eqb_spec POSTOP_Transpose op); [subst; congruence|reflexivity]).
  - destruct h as [t|h m op ch|e ch|k op ch| |]; [| | |destruct k| |]; try (exfalso; eapply B; reflexivity); cbn [usualb toleratedb fine_head negb andb]; try reflexivity.
    destruct (op =? _); reflexivity.
Qed.
Lemma head_issue_iff : forall part h tag v c, (forall b ch s, h <> BoxN b ch s) -> (head_issue part h = Some (tag, v, c) <-> complaint part h tag v c).
Proof.
  intros part h tag v c B. rewrite (head_issue_eq part h B). split.
  - intros H. destruct (slot_sequence_head h) eqn:Es; [injection H as <- <- <-; apply complaint_slots; apply slot_sequence_iff; exact Es|].
    destruct (usualb part h) eqn:Eu; [discriminate H|].
    assert (Ns : ~ slot_sequence h) by (rewrite <- slot_sequence_iff, Es; discriminate). assert (Nu : ~ usual part h) by (rewrite <- usual_iff, Eu; discriminate).
    destruct (toleratedb part h) as [w|] eqn:Et; injection H as <- <- <-; [apply complaint_tolerated; auto; apply tolerated_iff; exact Et|].
    apply complaint_error; auto. intros w. rewrite <- tolerated_iff, Et. discriminate.
  - intros H. destruct H as [Hs|w Ns Nu Ht|Ns Nu Ht].
    + apply slot_sequence_iff in Hs. rewrite Hs. reflexivity.
    + rewrite <- slot_sequence_iff in Ns. rewrite <- usual_iff in Nu. rewrite <- tolerated_iff in Ht. rewrite Ht. destruct (slot_sequence_head h); [congruence|]. destruct (usualb part h); [congruence|reflexivity].
    + rewrite <- slot_sequence_iff in Ns. rewrite <- usual_iff in Nu. destruct (slot_sequence_head h); [congruence|]. destruct (usualb part h); [congruence|].
      destruct (toleratedb part h) as [w|] eqn:Et; [exfalso; apply (Ht w), tolerated_iff; exact Et|reflexivity].
Qed.

(** ** Places *)
Lemma spans_iff : forall n s, good n -> (spans n s <-> src_of n = Known s).
Proof.
  intros n s G. destruct (good_source n G) as (s0 & E & t & r & u & T & L & ->). unfold src_of. rewrite E. split.
  - intros (t' & ts & H & ->). apply tokens_of_det in H. rewrite T in H. injection H as -> ->. f_equal. f_equal. rewrite T in L. subst u. destruct r; reflexivity.
  - intros [= <-]. exists t, r. split; [rewrite <- T; apply tokens_of_toks|]. rewrite T in L. subst u. destruct r; reflexivity.
Qed.
Lemma src_tok : forall t, src_of (Tok t) = Known (t_src t).  Proof. reflexivity. Qed.

(** ** Nodes *)
Lemma between_iff : forall part h t mid u i, (forall b ch s, h <> BoxN b ch s) ->
  (between_ (head_issue part h) (Tok t :: mid ++ [Tok u]) = [i] <-> exists tag v c, complaint part h tag v c /\ i = mk_aissue tag v (Known (t_src t)) c [Known (t_src u)]).
Proof.
  intros part h t mid u i B. unfold between_.
  assert (L : last (Tok t :: mid ++ [Tok u]) (Tok t) = Tok u) by (change (Tok t :: mid ++ [Tok u]) with ((Tok t :: mid) ++ [Tok u]); apply last_last).
  destruct (head_issue part h) as [[[tag v] c]|] eqn:E.
  - rewrite L, !src_tok. split; [intros [= <-]; exists tag, v, c; split; [apply head_issue_iff; auto|reflexivity]|].
    intros (tag' & v' & c' & H & ->). apply head_issue_iff in H; [|exact B]. rewrite E in H. injection H as -> -> ->. reflexivity.
  - split; [discriminate|]. intros (tag' & v' & c' & H & _). apply head_issue_iff in H; [|exact B]. congruence.
Qed.
Lemma between_short : forall i ch, (length (between_ i ch) <= 1)%nat.
Proof. intros i ch. unfold between_. destruct i as [[[? ?] ?]|]; [destruct ch|]; cbn; lia. Qed.
Lemma report_short : forall n, (length (report n) <= 1)%nat.
Proof.
  intros n. destruct n as [t|h m op ch|e ch|k op ch| |]; cbn [report length]; try lia.
  - destruct h as [h|h]; cbn [length]; try lia. destruct m; cbn [length]; try lia. destruct (op =? _).
    + destruct (twice ch); [|apply between_short]. destruct ch as [|? [|? [|? [|]]]]; cbn [length]; try lia. apply between_short.
    + destruct (op =? _); [|apply between_short]. destruct (match h with Tok t => t_kind t =? TK_String | _ => false end); cbn; lia.
  - destruct k; cbn [length]; try lia.
    + destruct ch as [|? [|? [|]]]; cbn [length]; try lia. destruct (op =? _); cbn; lia.
    + destruct (op =? _); [|cbn; lia]. destruct (_ <? _); cbn; lia.
Qed.
Lemma good_fits : forall n, good n -> fits n.
Proof. intros n (H & _). rewrite nodes_subnodes in H. apply Forall_cons_iff in H as [H _]. exact H. Qed.
Lemma good_head : forall h m op ch, good (Call (Aggregate h) m op ch) -> good h.
Proof.
  intros h m op ch G. apply (good_down _ h G). rewrite nodes_subnodes. right. unfold subnodes. rewrite children_call. cbn [app flat_map]. apply in_or_app. left. rewrite nodes_subnodes. left. reflexivity.
Qed.
Lemma no_box : forall n, good n -> forall b ch s, n <> BoxN b ch s.
Proof. intros n G b ch s ->. apply good_fits in G. inversion G. Qed.
Lemma message_long : forall ch, joined IOP_MessageName ch -> ((2 <? zlen (tl (evens ch))) = true <-> exists a t b u c v d r, ch = a :: t :: b :: u :: c :: v :: d :: r).
Proof.
  intros ch J. rewrite Z.ltb_lt. unfold zlen.
  assert (O : Nat.even (length ch) = false) by (eapply joined_even; exact J).
  destruct ch as [|a [|t [|b [|u [|c [|v [|d r]]]]]]]; cbn [evens tl length] in *; try discriminate O; split; try lia;
    try (intros (? & ? & ? & ? & ? & ? & ? & ? & H); discriminate H).
  - intros _. repeat eexists.
  - intros _. destruct r; cbn [length]; lia.
Qed.
Lemma report_gives : forall n i, good n -> (report n = [i] <-> gives n i).
Proof.
  intros n i G. pose proof (good_fits _ G) as F. split.
  - intros H. destruct n as [t|h m op ch|e ch|k op ch| |]; try discriminate H.
    + destruct h as [h|h]; [discriminate H|]. destruct m; [discriminate H|]. pose proof (good_head _ _ _ _ G) as Gh. pose proof (no_box _ Gh) as B. cbn [report] in H.
      inversion F as [| | | | | | | | | | | |? gop ? t mid u Et Ho Hcl| |]; subst. destruct (Z.eqb_spec op CALLOP_CodeParser_GroupSquare) as [->|N1].
      * destruct (twice (Tok t :: mid ++ [Tok u])) eqn:Et2.
        -- destruct mid as [|x mid]; [discriminate Et2|]. destruct x as [x|h2 m2 op2 body|e ch|k gop2 ch2|bb ch src|x y src]; try discriminate Et2. destruct k; try discriminate Et2. cbn [app twice] in Et2. apply Z.eqb_eq in Et2. subst gop2.
           destruct mid as [|x mid]; [|destruct mid; discriminate H]. cbn [app] in H. apply (between_iff true h t [Op KGroup GOP_CodeParser_GroupSquare ch2] u) in H as (tag & v & c & Hc & ->); [|exact B].
           change ([Tok t; Op KGroup GOP_CodeParser_GroupSquare ch2; Tok u]) with (Tok t :: [Op KGroup GOP_CodeParser_GroupSquare ch2] ++ [Tok u]). eapply gives_call; [apply brackets_twice|exact Hc].
        -- apply (between_iff false) in H as (tag & v & c & Hc & ->); [|exact B]. eapply gives_call; [apply brackets_call|exact Hc]. intros ch r ->. cbn [app twice] in Et2. rewrite Z.eqb_refl in Et2. discriminate Et2.
      * destruct (Z.eqb_spec op CALLOP_CodeParser_GroupTypeSpecifier) as [->|N2].
        -- destruct (match h with Tok t => t_kind t =? TK_String | _ => false end) eqn:Eh; [discriminate H|]. injection H as <-. destruct (good_source h Gh) as (s & Es & _).
           replace (src_of h) with (Known s) by (unfold src_of; rewrite Es; reflexivity). apply gives_type_specifier; [|apply spans_iff; [exact Gh|unfold src_of; rewrite Es; reflexivity]].
           intros x -> C. cbn in Eh. rewrite C in Eh. discriminate Eh.
        -- apply (between_iff true) in H as (tag & v & c & Hc & ->); [|exact B]. eapply gives_call; [|exact Hc].
           assert (op = CALLOP_CodeParser_GroupDoubleBracket) as ->; [|apply brackets_double].
           unfold try_to_call_operator, switch in Et. repeat (destruct (gop =? _); [injection Et as <-; try congruence|]). discriminate Et.
    + destruct k; try discriminate H.
      * inversion F as [|? t a prec Hp| | | | | | | | | | | | |]; subst. cbn [report] in H. destruct (Z.eqb_spec op PREOP_CodeParser_PrefixNot2) as [->|]; [|discriminate H]. injection H as <-. rewrite src_tok. apply gives_not_not.
      * cbn [report] in H. destruct (Z.eqb_spec op IOP_MessageName) as [->|]; [|discriminate H]. inversion F as [| | | | | | | |? ? J| | | | | |]; subst. destruct (_ <? _) eqn:El; [|discriminate H].
        apply (message_long _ J) in El as (a & t & b & u & c & v & d & r & ->). injection H as <-. destruct (good_source _ G) as (s & Es & _).
        assert (Ss : src_of (Op KInfix IOP_MessageName (a :: t :: b :: u :: c :: v :: d :: r)) = Known s) by (unfold src_of; rewrite Es; reflexivity). rewrite Ss. apply gives_message. apply spans_iff; assumption.
  - intros H. destruct H as [t n|a t b u c v d r s Hs|h op t mid u part tag v conf Hb Hc|h ch s Hh Hs].
    + cbn [report]. rewrite Z.eqb_refl, src_tok. reflexivity.
    + cbn [report]. rewrite Z.eqb_refl. inversion F as [| | | | | | | |? ? J| | | | | |]; subst. rewrite (proj2 (message_long _ J)) by (repeat eexists). apply spans_iff in Hs; [|exact G]. rewrite Hs. reflexivity.
    + pose proof (no_box _ (good_head _ _ _ _ G)) as B.
      assert (X : between_ (head_issue part h) (Tok t :: mid ++ [Tok u]) = [mk_aissue tag v (Known (t_src t)) conf [Known (t_src u)]]) by (apply between_iff; eauto).
      clear G F. cbn [report]. inversion Hb as [t0 mid0 u0 Hm E0 E1|t0 ch u0 E0 E1|ch E0]; subst.
      * rewrite Z.eqb_refl. match goal with H : _ ++ [_] = _ ++ [_] |- _ => apply app_inj_tail in H as [-> ->] end. destruct (twice (Tok t :: mid ++ [Tok u])) eqn:Et2; [|exact X]. exfalso.
        destruct mid as [|x mid]; [discriminate Et2|]. destruct x as [x|h2 m2 op2 body|e ch|k gop2 ch2|bb ch src|x y src]; try discriminate Et2. destruct k; try discriminate Et2. cbn [app twice] in Et2. apply Z.eqb_eq in Et2. subst gop2. eapply Hm. reflexivity.
      * rewrite Z.eqb_refl. destruct mid as [|x mid]; [discriminate|]. destruct mid as [|y mid]; [|destruct mid; discriminate]. cbn [app] in *. match goal with H : [_; _] = [_; _] |- _ => injection H as <- -> end. cbn [twice]. rewrite Z.eqb_refl. exact X.
      * exact X.
    + cbn [report]. change (CALLOP_CodeParser_GroupTypeSpecifier =? CALLOP_CodeParser_GroupSquare) with false. rewrite Z.eqb_refl. cbv iota. apply spans_iff in Hs; [|exact (good_head _ _ _ _ G)]. rewrite Hs.
      replace (match h with Tok t => t_kind t =? TK_String | _ => false end) with false; [reflexivity|]. destruct h as [x| | | | |]; try reflexivity. symmetry. apply Z.eqb_neq. exact (Hh x eq_refl).
Qed.
Lemma report_none : forall n, good n -> (report n = [] <-> forall i, ~ gives n i).
Proof.
  intros n G. split.
  - intros H i Hi. apply report_gives in Hi; [congruence|exact G].
  - intros H. pose proof (report_short n) as L. destruct (report n) as [|i [|j r]] eqn:E; [reflexivity| |cbn in L; lia]. exfalso. apply (H i), report_gives; assumption.
Qed.
Lemma given_report : forall ns, Forall good ns -> given ns (flat_map report ns).
Proof.
  intros ns H. induction H as [|n ns G H IH]; [constructor|]. cbn [flat_map]. pose proof (report_short n) as L. destruct (report n) as [|i [|j r]] eqn:E; [| |cbn in L; lia].
  - apply given_none; [apply report_none; assumption|exact IH].
  - apply given_issue; [apply report_gives; assumption|exact IH].
Qed.
Lemma given_det : forall ns l, Forall good ns -> given ns l -> l = flat_map report ns.
Proof.
  intros ns l H D. induction D as [|n i ns l Hg D IH|n ns l Hn D IH]; [reflexivity| |]; apply Forall_cons_iff in H as [G H]; cbn [flat_map]; rewrite (IH H).
  - apply report_gives in Hg; [|exact G]. rewrite Hg. reflexivity.
  - apply report_none in Hn; [|exact G]. rewrite Hn. reflexivity.
Qed.
Lemma good_nodes : forall n, good n -> Forall good (nodes n).
Proof. intros n G. apply Forall_forall. intros m Hm. exact (good_down _ _ G Hm). Qed.

(** ** Parsed inputs *)
Theorem issues_reported : forall o dbg b input l s' l' a asts,
  0 < o_tab_width o -> well_formed_no_bom input -> parse_cst_raw o dbg keep b input = Ok (l, s') -> aggregate_cst_seq l = Ok l' ->
  (forall n, In n l' -> forall ns m, preorder n ns -> In m ns -> ~ hidden m) -> to_ast a l = Ok asts ->
  Forall2 (fun n t => (exists ns is, preorder n ns /\ given ns is) /\ forall ns is, preorder n ns -> given ns is -> Permutation is (ast_issues t)) l' asts.
Proof.
  intros o dbg b input l s' l' a asts T W E A K Et. unfold to_ast in Et. rewrite A in Et. cbn [rbind] in Et. apply mapr_Ok in Et.
  assert (G : forall n, In n l' -> good n) by (intros n Hn; exact (parse_good _ _ _ _ _ _ _ _ T W E A Hn)). clear - Et K G. induction Et as [|n t l asts E F IH]; [constructor|].
  constructor; [|apply IH; intros; [eapply K; try right; eauto|apply G; right; auto]]. assert (Gn : good n) by (apply G; left; reflexivity). split.
  - exists (nodes n), (flat_map report (nodes n)). split; [apply preorder_nodes|apply given_report, good_nodes; exact Gn].
  - intros ns is Hp Hg. apply preorder_det in Hp. subst ns. apply given_det in Hg; [|apply good_nodes; exact Gn]. subst is. apply (abstract_reports a n t Gn); [|exact E].
    apply Forall_forall. intros m Hm. exact (K n (or_introl eq_refl) _ m (preorder_nodes n) Hm).
Qed.
