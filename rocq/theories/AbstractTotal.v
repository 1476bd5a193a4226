(** Sources, and when abstraction succeeds. *)
From Coq Require Import String.
From Coq Require Import ZArith List Bool Lia.
From Verif Require Import Base Source WLChar LongNames SpecText Iter GenTokenKind TokenKind Tokenizer GenPrec GenOps GenParselets Parselets Cst SpecCst CstProofs Parser SpecParser SpecParse
  TokenizerProofs ParserTheorems Ast Abstract SpecAbstract AbstractProofs AbstractShape.
Import ListNotations.
Local Open Scope list_scope.
Local Open Scope Z_scope.

(** ** Where the result comes from *)

Definition srcd (data : span) (r : res ast) : Prop := forall a, r = Ok a -> m_src (metadata a) = Known data.
Lemma srcd_bind : forall A data (e : res A) k, (forall x, e = Ok x -> srcd data (k x)) -> srcd data (rbind e k).
Proof. intros A data e k H a E. apply rbind_Ok in E as (x & E1 & E2). eapply H; eauto. Qed.
Lemma srcd_Ok : forall data a, m_src (metadata a) = Known data -> srcd data (Ok a).
Proof. intros data a H b [= <-]. exact H. Qed.
Lemma srcd_Panic : forall data, srcd data Panic.
Proof. intros data a H. discriminate H. Qed.
Lemma srcd_fuel : forall data, srcd data OutOfFuel.
Proof. intros data a H. discriminate H. Qed.

Ltac srcs := repeat first
  [ apply srcd_Panic | apply srcd_fuel | (apply srcd_Ok; reflexivity)
  | (apply srcd_Ok; match goal with |- m_src (metadata (match ?x with _ => _ end)) = _ => destruct x; reflexivity end)
  | apply srcd_bind; intros ? ?
  | match goal with |- srcd _ (match ?x with _ => _ end) => destruct x end
  | match goal with |- srcd _ (let _ := _ in _) => cbv zeta end ].

Definition derivative_node (n : cst) : bool := match n with Op KPostfix op _ => op =? POSTOP_Derivative | _ => false end.
Definition paren_node (n : cst) : bool := match n with Op KGroup op _ => op =? GOP_CodeParser_GroupParen | _ => false end.

Lemma srcd_prefix_plus : forall rec data n, srcd data (abstractPrefixPlus rec n data).
Proof.
  intros rec data. apply cst_ind'. intros n IH. rewrite Forall_forall in IH. destruct n as [t|h m op body|e ch|k op ch|b ch src|a b src]; cbn [abstractPrefixPlus]; srcs. apply IH. right. left. reflexivity.
Qed.
Lemma srcd_negated : forall o rec g data, srcd data (negated_into_ast o rec g data).
Proof.
  intros o rec g data. unfold negated_into_ast, negated_number. destruct g as [|t|t|l]; srcs.
  match goal with H : abstractTimes_InfixNode _ _ _ _ = Ok _ |- _ => unfold abstractTimes_InfixNode in H; apply rbind_Ok in H as (fl & _ & H); apply rbind_Ok in H as (args2 & _ & H); unfold call in H; injection H as E1 E2 E3; rewrite <- E3 end.
  apply srcd_Ok. reflexivity.
Qed.
Lemma srcd_inequality : forall rec data pairs first r aff, srcd data (inequality_loop rec pairs first r aff data).
Proof.
  intros rec data pairs. induction pairs as [|[t c] pairs IH]; intros first r aff; cbn [inequality_loop].
  - apply srcd_Ok. unfold simplifyInfixInequality. destruct (find _ SIMPLE_CHAINS); [reflexivity|]. destruct (find _ VECTOR_CHAINS); [reflexivity|]. destruct aff as [[]|]; reflexivity.
  - srcs; apply IH.
Qed.
Lemma srcd_tilde_rest : forall rec r lhs data, srcd data (abstractInfixTilde_rest rec lhs r (from_src data)).
Proof.
  intros rec r. induction r as [|a|a b l IH] using pair_ind; intros lhs data; cbn [abstractInfixTilde_rest]; srcs. apply IH.
Qed.
Lemma srcd_paren_free : forall o rec n data, get_source n = Ok data -> derivative_node n = false -> paren_node n = false -> srcd data (abstract_node o rec n data).
Proof.
  intros o rec n data Es D P. destruct n as [t|h m op body|e ch|k op ch|b ch src|a b src]; cbn [abstract_node].
  - cbn in Es. injection Es as <-. unfold abstract_replace_token. srcs.
  - unfold abstract_call_node. srcs.
  - srcs.
  - destruct k; cbn [derivative_node paren_node] in D, P.
    + unfold abstract_prefix, abstractNot2. destruct ch as [|x [|y [|? ?]]]; srcs; first [apply srcd_negated|apply srcd_prefix_plus].
    + unfold abstract_infix, abstractPlus, abstractTimes_InfixNode, abstractMessageName, abstractInfixInequality, abstractInfixTilde.
      destruct (op =? _); [srcs; apply srcd_inequality|]. destruct (op =? _); [srcs|]. destruct (op =? _); [srcs|]. destruct (op =? _); [srcs|]. destruct (op =? _); [srcs|]. destruct (op =? _); [srcs|].
      destruct (op =? _); [|srcs]. apply srcd_bind. intros l _. destruct l as [|x [|y [|z [|w l]]]]; srcs. apply srcd_tilde_rest.
    + unfold abstract_postfix. rewrite D. srcs.
    + unfold abstract_binary, abstractTimes_BinaryNode_Divide. srcs.
    + unfold abstract_ternary. destruct ch as [|x [|y [|z [|v [|w [|? ?]]]]]]; srcs.
    + unfold abstract_prefix_binary. srcs.
    + unfold abstract_compound. srcs.
    + unfold abstract_group. rewrite P. unfold abstract_naked. srcs.
    + srcs.
    + srcs.
  - cbn in Es. injection Es as <-. unfold abstract_box_node, try_subscript, try_superscript. srcs.
    all: match goal with H : ?e = Ok (Some ?a) |- srcd _ (Ok ?a) => revert H end.
    all: match goal with |- ?e = Ok (Some ?a) -> srcd ?d (Ok ?a) => let K := fresh in intros K; apply srcd_Ok; revert K end.
    all: repeat first [ discriminate | (intros [= <-]; reflexivity) | match goal with |- rbind _ _ = Ok _ -> _ => let H := fresh in intros H; apply rbind_Ok in H as (? & _ & H); revert H end
      | match goal with |- (match ?x with _ => _ end) = Ok _ -> _ => destruct x end ].
  - cbn in Es. injection Es as <-. srcs.
Qed.
Lemma loc_eqb_refl : forall l, loc_eqb l l = true.
Proof. intros [a b|a]; cbn; rewrite ?Z.eqb_refl; reflexivity. Qed.
Lemma span_eqb_refl : forall s, span_eqb s s = true.
Proof. intros s. unfold span_eqb. rewrite !loc_eqb_refl. reflexivity. Qed.
Lemma source_checked_ok : forall o rec n data a, get_source n = Ok data -> derivative_node n = false -> abstract_node o rec n data = Ok a -> source_checked n a data = true.
Proof.
  intros o rec n data a Es D E. unfold source_checked. destruct (paren_node n) eqn:P.
  - destruct n as [| | |k op ch| |]; try discriminate P. destruct k; try discriminate P. cbn in P. rewrite P. reflexivity.
  - rewrite (srcd_paren_free o rec n data Es D P a E). rewrite span_eqb_refl. destruct n as [| | |k op ch| |]; try reflexivity. destruct k; try reflexivity. rewrite orb_true_r. reflexivity.
Qed.

(** ** When it succeeds *)

Definition np {A} (r : res A) : Prop := r <> Panic.
Lemma np_bind : forall A B (e : res A) (k : A -> res B), np e -> (forall a, e = Ok a -> np (k a)) -> np (rbind e k).
Proof. intros A B [a| |] k H1 H2; cbn; [apply H2; reflexivity|destruct (H1 eq_refl)|intros H; discriminate H]. Qed.
Lemma np_mapr : forall A B (f : A -> res B) l, (forall a, In a l -> np (f a)) -> np (mapr f l).
Proof.
  intros A B f l H. induction l as [|a l IH]; cbn; [intros X; discriminate X|]. apply np_bind; [apply H; left; reflexivity|]. intros b _.
  apply np_bind; [apply IH; intros; apply H; right; auto|]. intros bs _ X. discriminate X.
Qed.
Lemma np_Ok : forall A (a : A), np (Ok a).  Proof. intros A a H. discriminate H. Qed.
Lemma np_fuel : forall A, np (@OutOfFuel A).  Proof. intros A H. discriminate H. Qed.

(** facts about token kinds *)
Definition kinds (Q : Z -> bool) : Prop := forallb Q LEAF_KINDS = true.
Lemma kinds_in : forall Q t, kinds Q -> good_leaf t -> Q (t_kind t) = true.
Proof. intros Q t H [_ K]. exact (proj1 (forallb_forall _ _) H _ K). Qed.

Definition entry_of (p : infix_parselet) : option Z :=
  match p with
  | IP_InfixOperator _ op => Some op
  | IP_Times => Some IOP_Times
  | IP_Comma => Some IOP_CodeParser_Comma
  | IP_Semi => Some IOP_CompoundExpression
  | IP_ColonColon => Some IOP_MessageName
  | _ => None
  end.
Lemma entry_of_entry : forall p op prec, infix_entry p op prec -> entry_of p = Some op.
Proof. intros p op prec H. destruct p; cbn in *; try contradiction; destruct H as [-> _]; reflexivity. Qed.
Definition sep_ok (k : Z) : bool :=
  match entry_of (infix_of k) with
  | None => true
  | Some op =>
      if op =? IOP_CodeParser_InfixTilde then false
      else if op =? IOP_Plus then zin k [TK_Plus; TK_LongName_ImplicitPlus; TK_Minus; TK_LongName_Minus]
      else if op =? IOP_CodeParser_InfixInequality then
        match inequalityOperatorToSymbol k with Ok s => match vectorInequalityAffinity s with Ok _ => true | _ => false end | _ => false end
      else if op =? IOP_CompoundExpression then k =? TK_Semi
      else if op =? IOP_MessageName then k =? TK_ColonColon
      else true
  end.
Lemma sep_kinds : kinds sep_ok.  Proof. vm_compute. reflexivity. Qed.
Definition postfix_okb (k : Z) : bool :=
  match infix_of k with IP_PostfixOperator _ op => if op =? POSTOP_Derivative then zin k [TK_SingleQuote; TK_Boxes_MultiSingleQuote] else true | _ => true end.
Lemma postfix_kinds : kinds postfix_okb.  Proof. vm_compute. reflexivity. Qed.
Definition binary_okb (k : Z) : bool :=
  match infix_of k with IP_BinaryOperator _ op => negb (op =? BOP_Unset) | _ => true end.
Lemma binary_kinds : kinds binary_okb.  Proof. vm_compute. reflexivity. Qed.

(** ** Separators *)

Lemma nth_odds : forall A (l : list A) k, nth_error (odds l) k = nth_error l (2 * k + 1).
Proof.
  intros A l. induction l as [|a|a b l IH] using pair_ind; intros k.
  - destruct k; reflexivity.
  - destruct k as [|k]; [reflexivity|]. replace (2 * S k + 1)%nat with (S (S (2 * k + 1))) by lia. cbn [odds nth_error]. destruct (2 * k + 1)%nat; reflexivity.
  - destruct k as [|k]; [reflexivity|]. replace (2 * S k + 1)%nat with (S (S (2 * k + 1))) by lia. cbn [odds nth_error]. apply IH.
Qed.
Lemma chunks_nth : forall A (l : list A) ps k x y, chunks2 l = Ok ps -> nth_error ps k = Some (x, y) -> nth_error l (2 * k) = Some x /\ nth_error l (2 * k + 1) = Some y.
Proof.
  intros A l. induction l as [|a|a b l IH] using pair_ind; intros ps k x y E H; cbn -[rbind] in E.
  - injection E as <-. destruct k; discriminate H.
  - discriminate E.
  - apply rbind_Ok in E as (ps' & E & X). injection X as <-. destruct k as [|k]; [injection H as <- <-; split; reflexivity|].
    replace (2 * S k)%nat with (S (S (2 * k))) by lia. exact (IH _ _ _ _ E H).
Qed.
Definition is_sep (op : Z) (n : cst) : Prop := exists t prec, n = Tok t /\ infix_entry (infix_of (t_kind t)) op prec.
Lemma joined_odds : forall op ch, joined op ch -> Forall (is_sep op) (odds ch).
Proof. intros op ch H. induction H as [a t b prec H|a t l prec H J IH]; cbn [odds]; constructor; auto; exists t, prec; auto. Qed.
Lemma joined_even : forall op ch, joined op ch -> Nat.even (length ch) = false.
Proof. intros op ch H. induction H as [a t b prec H|a t l prec H J IH]; auto. Qed.
Lemma joined_evens : forall op ch, joined op ch -> exists a b l, evens ch = a :: b :: l.
Proof. intros op ch H. destruct H as [a t b prec H|a t l prec H J]; cbn [evens]; [eauto|]. destruct J as [a' t' b' prec' H'|a' t' l prec' H' J]; cbn [evens]; eauto. Qed.
Lemma joined_chunks : forall op ch, joined op ch -> exists a r ps, ch = a :: r /\ chunks2 r = Ok ps /\ Forall (fun p => is_sep op (fst p)) ps.
Proof.
  intros op ch H. induction H as [a t b prec H|a t l prec H J IH].
  - exists a, [Tok t; b], [(Tok t, b)]. repeat split. constructor; [|constructor]. exists t, prec. auto.
  - destruct IH as (b & r & ps & -> & E & F). exists a, (Tok t :: b :: r), ((Tok t, b) :: ps). split; auto. cbn. rewrite E. split; auto. constructor; auto. exists t, prec. auto.
Qed.

Section total.
  Variables (o : aopts) (rec : cst -> res ast) (P : cst -> Prop).
  Hypothesis closed : forall m k, P m -> In k (nodes m) -> P k.
  Hypothesis Hgood : forall m, P m -> good m.
  Hypothesis Hcalm : forall m, P m -> ~ trouble o m.
  Hypothesis Hrec : forall m, P m -> np (rec m).

  Let in_P := P_in P.
  Lemma kids : forall k op ch, P (Op k op ch) -> Forall P ch.
  Proof. intros k op ch H. exact (P_op P closed _ _ _ H). Qed.
  Ltac split_ch := repeat match goal with H : Forall P (_ :: _) |- _ => apply Forall_cons_iff in H as [? H] end.

  Lemma np_text : forall t, P (Tok t) -> np (as_str t).
  Proof. intros t H. destruct (Hgood _ H) as (_ & F & _). inversion F as [|? ? [_ U] _]; subst. unfold as_str. rewrite U. apply np_Ok. Qed.
  Lemma leaf_of_P : forall t, P (Tok t) -> good_leaf t.
  Proof. intros t H. destruct (Hgood _ H) as (_ & F & _). inversion F as [|? ? [U _] _]; subst. exact U. Qed.
  Lemma np_source : forall n, P n -> np (get_source n).
  Proof. intros n H. destruct (good_source n (Hgood n H)) as (s & -> & _). apply np_Ok. Qed.
  Lemma fits_P : forall n, P n -> fits n.
  Proof. intros n H. destruct (Hgood n H) as (F & _). rewrite Forall_forall in F. apply F. apply nodes_self. Qed.

  Ltac nps := repeat first
    [ apply np_Ok | apply np_fuel | assumption
    | (apply np_text; split_ch; assumption)
    | (apply np_source; split_ch; assumption)
    | (apply Hrec; split_ch; assumption)
    | apply np_bind; [|intros ? ?] ].

  Lemma np_replace : forall t, P (Tok t) -> np (abstract_replace_token t).
  Proof. intros t H. unfold abstract_replace_token. cbv zeta. repeat match goal with |- np (if ?b then _ else _) => destruct b; [nps|] end. nps. Qed.

  (** signs *)
  Lemma np_paren : forall n, P n -> hollow n = false -> np (parenthesizedIntegerOrRealQ n).
  Proof.
    apply (cst_ind' (fun n => P n -> hollow n = false -> np (parenthesizedIntegerOrRealQ n))). intros n IH H Hh. rewrite Forall_forall in IH.
    destruct n as [t|h m op body|e ch|k op ch|b ch src|a b src]; cbn [parenthesizedIntegerOrRealQ]; nps. destruct k; nps. cbn [hollow] in Hh. destruct (op =? GOP_CodeParser_GroupParen); nps.
    destruct ch as [|x [|c [|y [|? ?]]]]; try discriminate Hh. apply kids in H. split_ch. apply IH; auto. right. left. reflexivity.
  Qed.
  Lemma np_zero : forall n, P n -> hollow n = false -> np (possiblyNegatedZeroQ n).
  Proof.
    apply (cst_ind' (fun n => P n -> hollow n = false -> np (possiblyNegatedZeroQ n))). intros n IH H Hh. rewrite Forall_forall in IH.
    destruct n as [t|h m op body|e ch|k op ch|b ch src|a b src]; cbn [possiblyNegatedZeroQ]; nps; [destruct (t_kind t =? TK_Integer); nps|]. destruct k; nps; cbn [hollow] in Hh.
    - destruct (op =? PREOP_Minus); nps. destruct ch as [|x [|c [|? ?]]]; try discriminate Hh. apply kids in H. split_ch. apply IH; auto. right. left. reflexivity.
    - destruct (op =? GOP_CodeParser_GroupParen); nps. destruct ch as [|x [|c [|y [|? ?]]]]; try discriminate Hh. apply kids in H. split_ch. apply IH; auto. right. left. reflexivity.
  Qed.
  Lemma np_negate : forall n, P n -> hollow n = false -> np (negate n).
  Proof.
    apply (cst_ind' (fun n => P n -> hollow n = false -> np (negate n))). intros n IH H Hh. rewrite Forall_forall in IH.
    destruct n as [t|h m op body|e ch|k op ch|b ch src|a b src]; try (cbn [negate]; nps; fail).
    - cbn [negate]. destruct (t_kind t =? TK_Integer); [nps|]. destruct (t_kind t =? TK_Real); nps.
    - destruct k; try (cbn [negate]; nps; fail).
      + cbn [negate]. cbn [hollow] in Hh. destruct (op =? PREOP_Minus); nps. destruct ch as [|x [|c [|? ?]]]; try discriminate Hh. apply kids in H. split_ch.
        apply np_bind; [apply np_zero; auto|]. intros z _. destruct z; nps. apply IH; auto. right. left. reflexivity.
      + cbn [negate]. destruct (op =? IOP_Times); nps.
      + cbn [negate]. pose proof Hh as Hh'. cbn [hollow] in Hh. destruct (op =? GOP_CodeParser_GroupParen) eqn:Eo; nps. destruct ch as [|x [|c [|y [|? ?]]]]; try discriminate Hh.
        assert (Hq : np (parenthesizedIntegerOrRealQ (Op KGroup op [x; c; y]))) by (apply np_paren; auto). apply kids in H. split_ch.
        apply np_bind; [apply np_zero; auto|]. intros z _. destruct z; [apply IH; auto; right; left; reflexivity|]. apply np_bind; [exact Hq|]. intros q _. destruct q; nps. apply IH; auto. right. left. reflexivity.
  Qed.
  Lemma zero_number : forall n g, possiblyNegatedZeroQ n = Ok true -> negate n = Ok g -> number g.
  Proof.
    apply (cst_ind' (fun n => forall g, possiblyNegatedZeroQ n = Ok true -> negate n = Ok g -> number g)). intros n IH g H1 H2. rewrite Forall_forall in IH.
    destruct n as [t|h m op body|e ch|k op ch|b ch src|a b src]; try discriminate H1.
    - cbn -[rbind] in H1, H2. destruct (t_kind t =? TK_Integer); [|discriminate H1]. apply rbind_Ok in H2 as (s & _ & H2). injection H2 as <-. destruct (zlist_eqb s [48]); exact I.
    - destruct k; try discriminate H1; cbn [possiblyNegatedZeroQ] in H1; cbn [negate] in H2.
      + destruct (op =? PREOP_Minus); [|discriminate H1]. destruct ch as [|x [|c [|? ?]]]; try discriminate H1. rewrite H1 in H2. cbn in H2. eapply IH; eauto. right. left. reflexivity.
      + destruct (op =? GOP_CodeParser_GroupParen); [|discriminate H1]. destruct ch as [|x [|c [|y [|? ?]]]]; try discriminate H1. rewrite H1 in H2. cbn in H2. eapply IH; eauto. right. left. reflexivity.
  Qed.
  Lemma negate_whole : forall n l, negate n = Ok (InfixTimesSeq l) -> l = [n] \/ n = Op KInfix IOP_Times l.
  Proof.
    intros n l E. destruct n as [t|h m op body|e ch|k op ch|b ch src|a b src]; try (injection E as <-; auto; fail).
    - cbn -[rbind] in E. destruct (t_kind t =? TK_Integer); [apply rbind_Ok in E as (s & _ & E); destruct (zlist_eqb s [48]); discriminate E|]. destruct (t_kind t =? TK_Real); [discriminate E|]. injection E as <-. auto.
    - destruct k; try (injection E as <-; auto; fail); cbn [negate] in E.
      + destruct (op =? PREOP_Minus); [|injection E as <-; auto]. destruct ch as [|x [|c r]]; try discriminate E. apply rbind_Ok in E as (z & Ez & E). destruct z; [destruct (zero_number c _ Ez E)|]. injection E as <-. auto.
      + destruct (Z.eqb_spec op IOP_Times) as [->|_]; injection E as <-; auto.
      + destruct (op =? GOP_CodeParser_GroupParen) eqn:Eo; [|injection E as <-; auto]. destruct ch as [|x [|c r]]; try discriminate E. apply rbind_Ok in E as (z & Ez & E). destruct z; [destruct (zero_number c _ Ez E)|].
        apply rbind_Ok in E as (q & Eq & E). destruct q; [|injection E as <-; auto]. destruct r as [|y [|? ?]]; try discriminate E. exfalso. cbn [parenthesizedIntegerOrRealQ] in Eq. rewrite Eo in Eq. exact (negate_number c _ Eq E).
  Qed.

  (** the separators of a product that is not loose *)
  Lemma tight : forall ch, P (Op KInfix IOP_Times ch) -> ~ loose (Op KInfix IOP_Times ch) -> forallb (is_expected_separator (Some TK_Star)) (odds ch) = true.
  Proof.
    intros ch H L. apply forallb_forall. intros x Hx. apply In_nth_error in Hx as (k & Hk). pose proof (fits_P _ H) as F. inversion F as [| | | | | | | |op ch' J| | | | | |]; subst.
    apply joined_odds in J. rewrite Forall_forall in J. destruct (J x (nth_error_In _ _ Hk)) as (t & prec & -> & _). cbn. destruct (Z.eqb_spec (t_kind t) TK_Star) as [|N]; auto.
    exfalso. apply L. exists ch, k, t. split; auto. split; auto. unfold separator. rewrite <- nth_odds. exact Hk.
  Qed.
  Lemma dbg_tight : forall ch, P (Op KInfix IOP_Times ch) -> (a_dbg o = true -> ~ loose (Op KInfix IOP_Times ch)) -> a_dbg o && negb (forallb (is_expected_separator (Some TK_Star)) (odds ch)) = false.
  Proof. intros ch H L. destruct (a_dbg o); auto. rewrite tight; auto. Qed.

  Lemma np_flatten : forall data n, P n -> (a_dbg o = true -> ~ loose n) -> np (flatten_times_cst o n data).
  Proof.
    intros data. apply (cst_ind' (fun n => P n -> (a_dbg o = true -> ~ loose n) -> np (flatten_times_cst o n data))). intros n IH H L. rewrite Forall_forall in IH.
    destruct n as [t|h m op body|e ch|k op ch|b ch src|a b src]; try (cbn [flatten_times_cst]; nps; fail). pose proof (kids _ _ _ H) as Hch. pose proof (Hcalm _ H) as C. pose proof (fits_P _ H) as F.
    destruct k; try (cbn [flatten_times_cst]; nps; fail); cbn [flatten_times_cst].
    - destruct (Z.eqb_spec op PREOP_Minus) as [->|_]; [|nps]. inversion F as [|op t a| | | | | | | | | | | | |]; subst. split_ch.
      assert (Ha : hollow a = false) by (destruct (hollow a) eqn:E; auto; exfalso; apply C; constructor; auto).
      apply np_bind; [destruct a as [u| | | | |]; try (apply np_paren; auto); destruct (zin _ _); [nps|apply np_paren; auto]|]. intros q _. destruct q; [apply np_bind; [apply np_negate; auto|intros; nps]|].
      destruct (q_flatten_times o); [|nps]. apply np_bind; [|intros; nps]. apply IH; auto; [right; left; reflexivity|]. intros D X. apply C. apply trouble_negative; auto.
    - destruct (Z.eqb_spec op IOP_Times) as [->|_]; [|nps]. rewrite dbg_tight; auto. rewrite flatten_infix. apply np_bind; [|intros; nps]. apply np_mapr. intros a Ha. apply evens_in in Ha.
      apply IH; auto; [eapply in_P; eauto|]. intros D X. apply C. eapply trouble_factor; eauto.
    - destruct (Z.eqb_spec op BOP_Divide) as [->|_]; [|nps]. destruct (q_flatten_times o); [|nps].
      assert (S : exists a t b, ch = [a; t; b]) by (inversion F; subst; eauto). destruct S as (a & t & b & ->). split_ch. apply np_bind; [|intros; nps]. apply IH; auto; [left; reflexivity|].
      intros D X. apply C. apply trouble_dividend; auto.
  Qed.
  Lemma np_quirk : forall n s, P n -> np (processInfixBinaryAtQuirk o n s).
  Proof.
    intros n s H. unfold processInfixBinaryAtQuirk. destruct (negb (q_infix_binary_at o)) eqn:Q; [nps|]. apply negb_false_iff in Q. destruct n as [| | |k op ch| |]; nps. destruct k; nps.
    destruct (Z.eqb_spec op BOP_CodeParser_BinaryAt) as [->|_]; [|nps]. pose proof (fits_P _ H) as F. pose proof (Hcalm _ H) as C. pose proof (kids _ _ _ H) as Hch.
    assert (S : exists a t b, ch = [a; Tok t; b]) by (inversion F; subst; eauto). destruct S as (a & t & b & ->). split_ch.
    apply np_bind; [destruct a as [u| | | | |]; nps; destruct (t_kind u =? TK_Symbol); nps|]. intros q Eq. destruct q; [|nps].
    destruct a as [u| | | | |]; try discriminate Eq. destruct (Z.eqb_spec (t_kind u) TK_Symbol) as [Eu|_]; [|discriminate Eq]. destruct (Z.eqb_spec (t_kind t) TK_At) as [Et|N]; [nps|]. exfalso. apply C. apply trouble_at; auto.
  Qed.
  Lemma np_number : forall g data, (forall t, g = IntegerNegated t \/ g = RealNegated t -> P (Tok t)) -> np (negated_number g data).
  Proof. intros [|t|t|l] data H; cbn [negated_number]; nps; apply np_text, H; auto. Qed.
  Lemma negate_token : forall n g t, negate n = Ok g -> P n -> g = IntegerNegated t \/ g = RealNegated t -> P (Tok t).
  Proof.
    apply (cst_ind' (fun n => forall g t, negate n = Ok g -> P n -> g = IntegerNegated t \/ g = RealNegated t -> P (Tok t))). intros n IH g t E H Hg. rewrite Forall_forall in IH.
    assert (D : forall l, Ok (InfixTimesSeq l) = Ok g -> P (Tok t)) by (intros l [= <-]; destruct Hg; discriminate).
    destruct n as [u|h m op body|e ch|k op ch|b ch src|a b src]; try (eapply D; exact E).
    - cbn -[rbind] in E. destruct (t_kind u =? TK_Integer).
      + apply rbind_Ok in E as (s & _ & E). destruct (zlist_eqb s [48]); injection E as <-; destruct Hg as [Hg|Hg]; try discriminate Hg. injection Hg as <-. exact H.
      + destruct (t_kind u =? TK_Real); [|eapply D; exact E]. injection E as <-. destruct Hg as [Hg|Hg]; try discriminate Hg. injection Hg as <-. exact H.
    - pose proof (kids _ _ _ H) as Hch. destruct k; try (eapply D; exact E); cbn [negate] in E.
      + destruct (op =? PREOP_Minus); [|eapply D; exact E]. destruct ch as [|x [|c r]]; try discriminate E. split_ch. apply rbind_Ok in E as (z & Ez & E). destruct z; [|eapply D; exact E]. eapply IH; eauto. right. left. reflexivity.
      + destruct (op =? IOP_Times); eapply D; exact E.
      + destruct (op =? GOP_CodeParser_GroupParen) eqn:Eo; [|eapply D; exact E]. destruct ch as [|x [|c r]]; try discriminate E. split_ch. apply rbind_Ok in E as (z & Ez & E). destruct z; [eapply IH; eauto; right; left; reflexivity|].
        apply rbind_Ok in E as (q & Eq & E). destruct q; [|eapply D; exact E]. destruct r as [|y [|? ?]]; try discriminate E. eapply IH; eauto. right. left. reflexivity.
  Qed.

  Definition safe_oper (x : oper) : Prop :=
    match x with OCst m | OReciprocate m _ => P m | ONegativeOne => True | ONegated g _ => forall t, g = IntegerNegated t \/ g = RealNegated t -> P (Tok t) end.
  Lemma flatten_safe : forall data n l, P n -> flatten_times_cst o n data = Ok l -> Forall safe_oper l.
  Proof.
    intros data. apply (cst_ind' (fun n => forall l, P n -> flatten_times_cst o n data = Ok l -> Forall safe_oper l)). intros n IH l H E.
    assert (D : Ok [OCst n] = Ok l -> Forall safe_oper l) by (intros [= <-]; constructor; [exact H|constructor]).
    rewrite Forall_forall in IH. destruct n as [t|h m op body|e ch|k op ch|b ch src|a b src]; try (apply D; exact E).
    pose proof (kids _ _ _ H) as Hch. destruct k; try (apply D; exact E); cbn [flatten_times_cst] in E.
    - destruct (op =? PREOP_Minus) eqn:Eo; [|apply D; exact E]. destruct ch as [|t [|c [|? ?]]]; try discriminate E. split_ch. apply rbind_Ok in E as (q & _ & E).
      destruct q; [apply rbind_Ok in E as (g & Eg & E); injection E as <-; constructor; [intros u; eapply negate_token; eauto|constructor]|].
      destruct (q_flatten_times o); [|apply D; exact E]. apply rbind_Ok in E as (r & Er & E). injection E as <-. constructor; [exact I|]. eapply IH; eauto. right; left; reflexivity.
    - destruct (op =? IOP_Times) eqn:Eo; [|apply D; exact E]. destruct (a_dbg o && _); [discriminate E|]. rewrite flatten_infix in E.
      apply rbind_Ok in E as (ls & E & X). injection X as <-. apply mapr_Ok in E. clear D.
      assert (K : forall cs, (forall c, In c cs -> In c ch) -> Forall2 (fun a b => flatten_times_cst o a data = Ok b) cs ls -> Forall safe_oper (concat ls)).
      { intros cs Hc F. clear E. induction F as [|c b cs bs E F IHF]; cbn; [constructor|]. apply Forall_app. split; [|apply IHF; intros; apply Hc; right; auto].
        assert (Hin : In c ch) by (apply Hc; left; reflexivity). eapply IH; eauto; eapply in_P; eauto. }
      eapply K; [|exact E]. intros c. apply evens_in.
    - destruct (op =? BOP_Divide) eqn:Eo; [|apply D; exact E]. destruct (q_flatten_times o); [|apply D; exact E].
      destruct ch as [|a [|t [|b [|? ?]]]]; try discriminate E. split_ch. apply rbind_Ok in E as (r & Er & E). injection E as <-. apply Forall_app. split; [refine (IH a _ r _ Er); [left; reflexivity|assumption]|]. constructor; [assumption|constructor].
  Qed.
  Lemma np_operand : forall f x, (forall m, P m -> np (f m)) -> safe_oper x -> np (operand_into_ast rec f x).
  Proof. intros f [n|n d| |g d] Hf H; cbn [operand_into_ast safe_oper] in *; [auto|unfold reciprocate_into_ast; nps|nps|apply np_number; exact H]. Qed.
  Lemma np_times : forall cs data, Forall P cs -> (a_dbg o = true -> Forall (fun c => ~ loose c) cs) -> np (abstractTimes_InfixNode o rec cs data).
  Proof.
    intros cs data H L. unfold abstractTimes_InfixNode, flattenTimes. apply np_bind.
    - apply np_bind; [|intros; nps]. apply np_mapr. intros a Ha. apply np_flatten; [eapply in_P; eauto|]. intros D. specialize (L D). rewrite Forall_forall in L. auto.
    - intros l E. apply rbind_Ok in E as (ls & E & X). injection X as <-. apply mapr_Ok in E.
      assert (S : Forall safe_oper (concat ls)).
      { clear L. induction E as [|c b cs bs E F IH]; cbn; [constructor|]. split_ch. apply Forall_app. split; auto. eapply flatten_safe; eauto. }
      apply np_bind; [|intros; nps]. apply np_mapr. intros x Hx. apply np_operand; [|rewrite Forall_forall in S; auto]. intros m Hm. apply np_bind; [apply np_quirk; auto|]. intros k Ek. apply Hrec. eapply closed; eauto. eapply at_quirk; eauto.
  Qed.
  Lemma np_negated : forall n g data, negate n = Ok g -> P n -> (a_dbg o = true -> ~ loose n) -> np (negated_into_ast o rec g data).
  Proof.
    intros n g data E H L. destruct g as [|t|t|l]; try (apply np_number; intros; eapply negate_token; eauto). cbn [negated_into_ast].
    assert (K : part_span_even_children o (Some TK_Star) l = Ok (evens l) /\ Forall P (evens l) /\ (a_dbg o = true -> Forall (fun c => ~ loose c) (evens l))).
    { apply negate_whole in E as [->| ->].
      - unfold part_span_even_children. cbn. rewrite andb_false_r. split; [reflexivity|]. split; [constructor; auto|]. intros D. constructor; auto.
      - unfold part_span_even_children. rewrite dbg_tight; auto. split; auto. split; [apply P_evens; eapply kids; eauto|]. intros D. apply Forall_forall. intros c Hc X. apply evens_in in Hc. apply (Hcalm _ H). eapply trouble_factor; eauto. }
    destruct K as (-> & K2 & K3). cbn [rbind]. apply np_bind; [apply np_times; auto|]. intros a Ea. unfold abstractTimes_InfixNode in Ea. apply rbind_Ok in Ea as (fl & _ & Ea). apply rbind_Ok in Ea as (args & _ & Ea). unfold call in Ea. injection Ea as <-. nps.
  Qed.
  Lemma consecutive : forall (ch : list cst) k a b, nth_error ch k = Some a -> nth_error ch (S k) = Some b -> exists l1 l2, ch = l1 ++ a :: b :: l2.
  Proof.
    intros ch. induction ch as [|x ch IH]; intros k a b H1 H2; [destruct k; discriminate H1|]. destruct k as [|k].
    - injection H1 as <-. cbn in H2. destruct ch as [|y ch]; [discriminate H2|]. injection H2 as <-. exists [], ch. reflexivity.
    - destruct (IH k a b H1 H2) as (l1 & l2 & ->). exists (x :: l1), l2. reflexivity.
  Qed.
  Lemma pair_source : forall op ch k t b, P (Op KInfix op ch) -> nth_error ch (2 * k + 1) = Some (Tok t) -> nth_error ch (2 * k + 2) = Some b ->
    exists s, get_source b = Ok s /\ np (span_between (t_src t) s).
  Proof.
    intros op ch k t b H H1 H2. replace (2 * k + 2)%nat with (S (2 * k + 1)) in H2 by lia. destruct (consecutive ch _ _ _ H1 H2) as (l1 & l2 & E).
    destruct (Hgood _ H) as (F & _ & a & e & Sp). rewrite toks_eq in Sp by discriminate. cbn [children] in Sp. rewrite E, flat_map_app in Sp. cbn [flat_map toks] in Sp.
    apply spaced_app in Sp as (m1 & _ & Sp). inversion Sp as [|? ? ? ? S1 S2 S3]; subst. apply spaced_app in S3 as (m2 & S3 & _).
    assert (Hb : Forall fits (nodes b)). { rewrite Forall_forall in *. intros c Hc. apply F. eapply nodes_trans; [apply child_nodes|exact Hc]. cbn [children]. apply in_or_app. right. right. left. reflexivity. }
    destruct (get_source_spaced b _ _ (fits_solid b Hb) S3) as (s & Es & _ & L1 & L2 & _). exists s. split; auto.
    rewrite between_spaced; [nps| |exact L2]. eapply loc_leb_trans; [exact S2|exact L1].
  Qed.
  Lemma sep_entry : forall op n, is_sep op n -> P n -> exists t, n = Tok t /\ entry_of (infix_of (t_kind t)) = Some op /\ sep_ok (t_kind t) = true.
  Proof. intros op n (t & prec & -> & E) H. exists t. split; auto. split; [eapply entry_of_entry; eauto|]. apply kinds_in; [apply sep_kinds|]. apply leaf_of_P. exact H. Qed.
  Lemma np_flatten_plus : forall n, P n -> np (flattenPrefixPlus n).
  Proof.
    apply (cst_ind' (fun n => P n -> np (flattenPrefixPlus n))). intros n IH H. rewrite Forall_forall in IH. destruct n as [t|h m op body|e ch|k op ch|b ch src|a b src]; cbn [flattenPrefixPlus]; nps.
    destruct k; nps. destruct (op =? PREOP_Plus); nps. pose proof (fits_P _ H) as F. pose proof (kids _ _ _ H) as Hc. inversion F; subst. split_ch. apply IH; auto. right. left. reflexivity.
  Qed.
  Lemma np_prefix_plus : forall data n, P n -> np (abstractPrefixPlus rec n data).
  Proof.
    intros data. apply (cst_ind' (fun n => P n -> np (abstractPrefixPlus rec n data))). intros n IH H. rewrite Forall_forall in IH. destruct n as [t|h m op body|e ch|k op ch|b ch src|a b src]; cbn [abstractPrefixPlus]; nps.
    destruct k; nps. destruct (op =? PREOP_Plus); nps. pose proof (fits_P _ H) as F. pose proof (kids _ _ _ H) as Hc. inversion F; subst. split_ch. apply IH; auto. right. left. reflexivity.
  Qed.
  Lemma pair_ops : forall op ch a r ps, P (Op KInfix op ch) -> ch = a :: r -> chunks2 r = Ok ps -> forall k x y, nth_error ps k = Some (x, y) -> nth_error ch (2 * k + 1) = Some x /\ nth_error ch (2 * k + 2) = Some y.
  Proof.
    intros op ch a r ps H -> Ep k x y Hk. destruct (chunks_nth _ _ _ _ _ _ Ep Hk) as [E1 E2]. replace (2 * k + 1)%nat with (S (2 * k)) by lia. replace (2 * k + 2)%nat with (S (2 * k + 1)) by lia. auto.
  Qed.
  Lemma np_plus : forall ch data, P (Op KInfix IOP_Plus ch) -> np (abstractPlus o rec ch data).
  Proof.
    intros ch data H. pose proof (fits_P _ H) as F. pose proof (kids _ _ _ H) as Hc. pose proof (Hcalm _ H) as C. inversion F as [| | | | | | | |op ch' J| | | | | |]; subst.
    destruct (joined_chunks _ _ J) as (a & r & ps & Ec & Ep & Fs). assert (Q : forall k x y, nth_error ps k = Some (x, y) -> nth_error ch (2 * k + 1) = Some x /\ nth_error ch (2 * k + 2) = Some y) by (eapply pair_ops; eauto).
    unfold abstractPlus. rewrite Ec. rewrite Ep. cbn [rbind].
    assert (W : forall x y, In (x, y) ps -> np (processPlusPair x y) /\ forall z, processPlusPair x y = Ok z -> z = OCst y \/ exists g s, z = ONegated g s /\ negate y = Ok g /\ (a_dbg o = true -> ~ loose y)).
    { intros x y Hin. rewrite Forall_forall in Fs. pose proof (Fs _ Hin) as Fx. cbn [fst] in Fx. apply In_nth_error in Hin as (k & Hk). destruct (Q k x y Hk) as [E1 E2].
      assert (Hx : P x) by (eapply in_P; [exact Hc|]; eapply nth_error_In; eauto). assert (Hy : P y) by (eapply in_P; [exact Hc|]; eapply nth_error_In; eauto).
      destruct (sep_entry _ _ Fx Hx) as (t & -> & Et & Ek). destruct (pair_source _ _ _ _ _ H E1 E2) as (s & Es & Nb). unfold processPlusPair. unfold sep_ok in Ek. rewrite Et in Ek. change (zin (t_kind t) [TK_Plus; TK_LongName_ImplicitPlus; TK_Minus; TK_LongName_Minus] = true) in Ek.
      destruct (zin (t_kind t) [TK_Plus; TK_LongName_ImplicitPlus]) eqn:Z1; [split; [nps|intros z [= <-]; auto]|]. destruct (zin (t_kind t) [TK_Minus; TK_LongName_Minus]) eqn:Z2.
      - assert (Km : t_kind t = TK_Minus \/ t_kind t = TK_LongName_Minus) by (unfold zin in Z2; cbn [existsb] in Z2; rewrite orb_false_r in Z2; apply orb_true_iff in Z2 as [Z2|Z2]; apply Z.eqb_eq in Z2; auto).
        rewrite Es. cbn [rbind]. split.
        + apply np_bind; [exact Nb|]. intros s2 _. apply np_bind; [|intros; nps]. apply np_negate; auto. destruct (hollow y) eqn:Eh; auto. exfalso. apply C. eapply trouble_subtract; eauto.
        + intros z Ez. right. apply rbind_Ok in Ez as (s2 & _ & Ez). apply rbind_Ok in Ez as (g & Eg & Ez). injection Ez as <-. exists g, s2. split; auto. split; auto. intros D L. apply C. eapply trouble_difference; eauto.
      - exfalso. unfold zin in Z1, Z2, Ek. cbn [existsb] in Z1, Z2, Ek. rewrite orb_false_r in Z1, Z2, Ek. apply orb_false_iff in Z1 as [Z1 Z1']. apply orb_false_iff in Z2 as [Z2 Z2']. rewrite Z1, Z1', Z2, Z2' in Ek. discriminate Ek. }
    apply np_bind; [apply np_mapr; intros [x y] Hin; apply W; exact Hin|]. intros xs Ex. apply mapr_Ok in Ex. apply np_bind; [|intros; nps]. apply np_mapr. intros z Hz.
    assert (K : forall n, P n -> np (rbind (processInfixBinaryAtQuirk o n (LongNames.bytes_of_string "Plus")) (fun m => rbind (flattenPrefixPlus m) (fun m => rec m)))).
    { intros n Hn. apply np_bind; [apply np_quirk; auto|]. intros m E. assert (Hm : P m) by (eapply closed; eauto; eapply at_quirk; eauto). apply np_bind; [apply np_flatten_plus; auto|]. intros k Ek. apply Hrec. apply flatten_plus_in in Ek. eapply closed; eauto. }
    destruct Hz as [<-|Hz]; [apply K; rewrite Ec in Hc; split_ch; assumption|].
    assert (S : exists x y, In (x, y) ps /\ processPlusPair x y = Ok z).
    { clear - Ex Hz. induction Ex as [|[x y] b ps bs E F IH]; [contradiction|]. destruct Hz as [<-|Hz]; [exists x, y; split; [left; reflexivity|exact E]|]. destruct (IH Hz) as (x' & y' & H1 & H2). exists x', y'. split; [right; exact H1|exact H2]. }
    destruct S as (x & y & Hin & Ez). destruct (W x y Hin) as [_ W2].
    assert (Hy : P y). { apply In_nth_error in Hin as (k & Hk). destruct (Q k x y Hk) as [_ E2]. eapply in_P; [exact Hc|]. eapply nth_error_In; eauto. }
    destruct (W2 z Ez) as [->|(g & s & -> & Eg & L)]; [apply K; exact Hy|]. eapply np_negated; eauto.
  Qed.
  Lemma np_inequality : forall data ps first r aff, (forall t c, In (t, c) ps -> P c /\ exists s v, inequalityOperatorToSymbol (t_kind t) = Ok s /\ vectorInequalityAffinity s = Ok v) -> np (inequality_loop rec ps first r aff data).
  Proof.
    intros data ps. induction ps as [|[t c] ps IH]; intros first r aff H; cbn [inequality_loop]; [nps|]. destruct (H t c (or_introl eq_refl)) as (Hc & s & v & -> & Ev). cbn [rbind].
    apply np_bind; [nps|]. intros a _. rewrite Ev. cbn [rbind]. assert (H' : forall t c, In (t, c) ps -> P c /\ exists s v, inequalityOperatorToSymbol (t_kind t) = Ok s /\ vectorInequalityAffinity s = Ok v) by (intros; apply H; right; auto).
    destruct v as [b|]; [destruct (match aff with Some b' => _ | None => _ end)|]; apply IH; exact H'.
  Qed.
  Lemma np_inequalities : forall ch data, P (Op KInfix IOP_CodeParser_InfixInequality ch) -> np (abstractInfixInequality rec ch data).
  Proof.
    intros ch data H. pose proof (fits_P _ H) as F. pose proof (kids _ _ _ H) as Hc. inversion F as [| | | | | | | |op ch' J| | | | | |]; subst.
    destruct (joined_chunks _ _ J) as (a & r & ps & Ec & Ep & Fs). unfold abstractInfixInequality. rewrite Ec, Ep. apply np_bind; [apply Hrec; rewrite Ec in Hc; split_ch; assumption|]. intros b _. cbn [rbind].
    assert (Q : forall x y, In (x, y) ps -> P y /\ exists t, x = Tok t /\ exists s v, inequalityOperatorToSymbol (t_kind t) = Ok s /\ vectorInequalityAffinity s = Ok v).
    { intros x y Hin. rewrite Forall_forall in Fs. pose proof (Fs _ Hin) as Fx. cbn [fst] in Fx. rewrite Ec in Hc. destruct (chunks_in _ _ _ _ _ Ep Hin) as [I1 I2]. apply Forall_cons_iff in Hc as [_ Hc]. rewrite Forall_forall in Hc.
      split; auto. destruct (sep_entry _ _ Fx (Hc _ I1)) as (t & -> & Et & Ek). exists t. split; auto. unfold sep_ok in Ek. rewrite Et in Ek.
      change (match inequalityOperatorToSymbol (t_kind t) with Ok s => match vectorInequalityAffinity s with Ok _ => true | _ => false end | _ => false end = true) in Ek.
      destruct (inequalityOperatorToSymbol (t_kind t)) as [s| |]; try discriminate Ek. destruct (vectorInequalityAffinity s) as [v| |] eqn:Ev; try discriminate Ek. eauto. }
    apply np_bind; [apply np_mapr; intros [x y] Hin; destruct (Q x y Hin) as (_ & t & -> & _); nps|]. intros qs Eq. apply np_inequality. intros t c Hin. apply mapr_Ok in Eq.
    assert (S : In (Tok t, c) ps).
    { clear - Eq Hin. induction Eq as [|[x y] [t' c'] ps qs E F IH]; [contradiction|]. destruct Hin as [[= -> ->]|Hin]; [left; destruct x; try discriminate E; injection E as <- <-; reflexivity|right; auto]. }
    destruct (Q _ _ S) as (Hy & u & [= <-] & X). split; auto.
  Qed.
  Lemma np_mapr_rec : forall l, Forall P l -> np (mapr rec l).
  Proof. intros l H. apply np_mapr. intros a Ha. apply Hrec. eapply in_P; eauto. Qed.
  Lemma np_group_args : forall t mid u, Forall P (t :: mid ++ [u]) -> np (abstractGroupNode rec (t :: mid ++ [u])).
  Proof.
    intros t mid u H. unfold abstractGroupNode, part_span_drop_first_and_last. assert (N : mid ++ [u] <> []) by (destruct mid; discriminate). destruct (mid ++ [u]) eqn:E; [congruence|]. cbn [rbind]. rewrite <- E in *.
    rewrite removelast_last. apply np_bind; [|intros; nps]. apply np_mapr_rec. split_ch. apply Forall_app in H as [H _]. exact H.
  Qed.
  Lemma np_group_node : forall op ch, P (Op KGroup op ch) -> np (abstractGroupNode rec ch).
  Proof. intros op ch H. pose proof (fits_P _ H) as F. pose proof (kids _ _ _ H) as Hc. inversion F; subst. apply np_group_args. exact Hc. Qed.
  Lemma np_missing : forall t mid, Forall P (t :: mid) -> np (abstractGroupMissingCloser rec (t :: mid)).
  Proof. intros t mid H. unfold abstractGroupMissingCloser. split_ch. apply np_bind; [apply np_mapr_rec; auto|intros; nps]. Qed.
  Lemma last_in : forall A (l : list A) d, l <> [] -> In (last l d) l.
  Proof. intros A l d H. rewrite (app_removelast_last d H) at 2. apply in_or_app. right. left. reflexivity. Qed.
  Lemma np_issue : forall i ch, Forall P ch -> ch <> [] -> np (issue_between i ch).
  Proof.
    intros i ch H N. unfold issue_between. destruct i as [[[? ?] ?]|]; [|nps]. destruct ch as [|x r]; [congruence|].
    assert (P (last (x :: r) x)) by (eapply in_P; [exact H|]; apply last_in; discriminate). nps.
  Qed.
  Lemma np_span_none : forall ch, part_span_even_children o None ch = Ok (evens ch).
  Proof.
    intros ch. unfold part_span_even_children. assert (E : forallb (is_expected_separator None) (odds ch) = true) by (apply forallb_forall; reflexivity). rewrite E, andb_false_r. reflexivity.
  Qed.
  Lemma np_span_sep : forall op k ch, joined op ch -> Forall P ch -> (forall t, entry_of (infix_of (t_kind t)) = Some op -> sep_ok (t_kind t) = true -> t_kind t = k) ->
    part_span_even_children o (Some k) ch = Ok (evens ch).
  Proof.
    intros op k ch J Hc K. unfold part_span_even_children. assert (E : forallb (is_expected_separator (Some k)) (odds ch) = true); [|rewrite E, andb_false_r; reflexivity].
    apply forallb_forall. intros x Hx. pose proof (joined_odds _ _ J) as F. rewrite Forall_forall in F. pose proof (F _ Hx) as Fx. apply odds_in in Hx. destruct (sep_entry _ _ Fx (in_P _ _ Hc Hx)) as (t & -> & E1 & E2). cbn. apply Z.eqb_eq. auto.
  Qed.
  Lemma np_infix : forall op ch data, P (Op KInfix op ch) -> np (abstract_infix o rec op ch data).
  Proof.
    intros op ch data H. pose proof (fits_P _ H) as F. pose proof (kids _ _ _ H) as Hc. pose proof (Hcalm _ H) as C. inversion F as [| | | | | | | |op' ch' J| | | | | |]; subst. unfold abstract_infix.
    assert (He : Forall P (evens ch)) by (apply P_evens; exact Hc).
    destruct (Z.eqb_spec op IOP_CodeParser_InfixInequality) as [->|_]; [apply np_inequalities; auto|].
    destruct (Z.eqb_spec op IOP_Plus) as [->|_]; [apply np_plus; auto|].
    destruct (Z.eqb_spec op IOP_Times) as [->|_].
    { rewrite np_span_none. cbn [rbind]. apply np_times; auto. intros D. apply Forall_forall. intros c Hin L. apply evens_in in Hin. apply C. eapply trouble_factor; eauto. }
    assert (Qk : forall s, np (mapr (fun n => processInfixBinaryAtQuirk o n s) (evens ch))) by (intros s; apply np_mapr; intros a Ha; apply np_quirk; eapply in_P; eauto).
    destruct (Z.eqb_spec op IOP_Divisible) as [->|_].
    { rewrite np_span_none. cbn [rbind]. apply np_bind; [apply Qk|]. intros l El. apply np_bind; [|intros; nps]. apply np_mapr_rec. apply Forall_rev. eapply quirk_all; eauto. }
    destruct (Z.eqb_spec op IOP_CompoundExpression) as [->|_].
    { rewrite (np_span_sep IOP_CompoundExpression TK_Semi ch J Hc) by (intros t E1 E2; unfold sep_ok in E2; rewrite E1 in E2; apply Z.eqb_eq; exact E2). cbn [rbind].
      apply np_bind; [|intros; nps]. apply np_mapr. intros x Hx. assert (P x) by (eapply in_P; eauto). destruct x as [t| | | | |]; nps. destruct (t_kind t =? TK_Fake_ImplicitNull); nps. }
    destruct (Z.eqb_spec op IOP_MessageName) as [->|_].
    { rewrite (np_span_sep IOP_MessageName TK_ColonColon ch J Hc) by (intros t E1 E2; unfold sep_ok in E2; rewrite E1 in E2; apply Z.eqb_eq; exact E2). cbn [rbind].
      destruct (joined_evens _ _ J) as (a & b & l & E). rewrite E in *. cbn [abstractMessageName]. cbv zeta. apply Forall_cons_iff in He as [Ha He]. apply np_bind; [nps|]. intros x _. apply np_bind; [|intros; nps].
      apply np_mapr. intros y Hy. assert (P y) by (eapply in_P; eauto). destruct y as [t| | | | |]; nps. destruct (t_kind t =? TK_String); nps. }
    destruct (Z.eqb_spec op IOP_CodeParser_InfixTilde) as [->|_].
    { exfalso. pose proof (joined_odds _ _ J) as Fo. assert (N : exists x, In x (odds ch)) by (destruct J; cbn; eauto). destruct N as (x & Hx). rewrite Forall_forall in Fo. pose proof (Fo _ Hx) as Fx. apply odds_in in Hx.
      destruct (sep_entry _ _ Fx (in_P _ _ Hc Hx)) as (t & _ & E1 & E2). unfold sep_ok in E2. rewrite E1 in E2. discriminate E2. }
    rewrite (joined_even _ _ J), np_span_none. cbn [rbind]. apply np_bind; [destruct (zin op _); [nps|apply Qk]|]. intros l El. apply np_bind; [|intros; nps]. apply np_mapr_rec.
    destruct (zin op _); [injection El as <-; exact He|]. eapply quirk_all; eauto.
  Qed.
  Lemma np_compound : forall op ch data, P (Op KCompound op ch) -> np (abstract_compound o rec op ch data).
  Proof.
    intros op ch data H. pose proof (fits_P _ H) as F. pose proof (kids _ _ _ H) as Hc. inversion F as [| | | | | | | | |op' ch' K| | | | |]; subst. unfold abstract_compound.
    destruct K as [t u bop pbop B Hu|s t n bop pbop Hs B Hn|s t Hs Ht|t u Ht Hu|t u Ht Hu|t u Ht Hu]; split_ch.
    - assert (E : zin bop [COP_Blank; COP_BlankSequence; COP_BlankNullSequence] = true) by (destruct B as [(_ & -> & _)|[(_ & -> & _)|(_ & -> & _)]]; reflexivity). rewrite E. nps.
    - destruct B as [(_ & -> & ->)|[(_ & -> & ->)|(_ & -> & ->)]]; cbn [zin existsb]; nps.
    - rewrite Ht. cbn. nps.
    - cbn [zin existsb]. destruct Hu as [Hu|Hu]; rewrite Hu; [change (np (rbind (abstract_replace_token u) (fun a => Ok (call "System`Slot" [a] (from_src data))))); apply np_bind; [apply np_replace; auto|intros; nps]|].
      change (np (rbind (as_str u) (fun s => Ok (call "System`Slot" [string_leaf (escape_symbol_string o s) (from_src (t_src u))] (from_src data))))). nps.
    - rewrite Hu. cbn -[rbind]. nps.
    - rewrite Hu. cbn -[rbind]. nps.
  Qed.
  Lemma np_prefix : forall op ch data, P (Op KPrefix op ch) -> np (abstract_prefix o rec op ch data).
  Proof.
    intros op ch data H. pose proof (fits_P _ H) as F. pose proof (kids _ _ _ H) as Hc. pose proof (Hcalm _ H) as C. inversion F as [|op' t a| | | | | | | | | | | | |]; subst. unfold abstract_prefix. split_ch.
    destruct (Z.eqb_spec op PREOP_Minus) as [->|_].
    { apply np_bind; [apply np_negate; auto; destruct (hollow a) eqn:E; auto; exfalso; apply C; constructor; auto|]. intros g Eg. eapply np_negated; eauto. intros D L. apply C. apply trouble_negative; auto. }
    destruct (op =? PREOP_Plus); [apply np_prefix_plus; auto|]. destruct (op =? PREOP_CodeParser_PrefixNot2); [unfold abstractNot2; nps|].
    destruct (op =? PREOP_CodeParser_PrefixLinearSyntaxBang); [destruct (leaf_of _ _); nps|].
    destruct (Z.eqb_spec op PREOP_Get) as [->|_]; [|nps].
    assert (S : a_string a \/ ~ a_string a). { destruct a as [u| | | | |]; try (right; intros (w & X & _); discriminate X). destruct (Z.eq_dec (t_kind u) TK_String) as [E|E]; [left; exists u; auto|right; intros (w & [= <-] & X); auto]. }
    destruct S as [(u & -> & Eu)|N]; [|exfalso; apply C; apply trouble_get; exact N]. rewrite Eu. change (TK_String =? TK_String) with true. cbv iota. nps.
  Qed.
  Lemma np_derivative : forall n, P n -> np (derivativeOrderAndAbstractedBody rec n).
  Proof.
    apply (cst_ind' (fun n => P n -> np (derivativeOrderAndAbstractedBody rec n))). intros n IH H. rewrite Forall_forall in IH. destruct n as [t|h m op body|e ch|k op ch|b ch src|a b src]; cbn [derivativeOrderAndAbstractedBody]; nps.
    destruct k; nps. destruct (op =? POSTOP_Derivative); nps. pose proof (fits_P _ H) as F. pose proof (kids _ _ _ H) as Hc. inversion F; subst. split_ch. apply np_bind; [apply IH; auto; left; reflexivity|]. intros [z x] _. nps.
  Qed.
  Lemma np_postfix : forall op ch data, P (Op KPostfix op ch) -> np (abstract_postfix rec op ch data).
  Proof.
    intros op ch data H. pose proof (fits_P _ H) as F. pose proof (kids _ _ _ H) as Hc. inversion F as [| | |op' a t prec K| | | | | | | | | | |]; subst. unfold abstract_postfix. split_ch.
    destruct (op =? POSTOP_HermitianConjugate); [nps|]. destruct (op =? POSTOP_Derivative) eqn:Eo; [|nps]. cbv zeta.
    match goal with X : P (Tok t) |- _ => pose proof (kinds_in _ _ postfix_kinds (leaf_of_P _ X)) as Q end. unfold postfix_okb in Q. rewrite K, Eo in Q.
    unfold zin in Q. cbn [existsb] in Q. rewrite orb_false_r in Q. destruct (t_kind t =? TK_SingleQuote); [apply np_bind; [apply np_derivative; auto|]; intros [z x] _; nps|]. cbn [orb] in Q. rewrite Q. nps.
  Qed.
  Lemma np_divide : forall a t b data, P (Op KBinary BOP_Divide [a; t; b]) -> np (abstractTimes_BinaryNode_Divide o rec a b data).
  Proof.
    intros a t b data H. pose proof (kids _ _ _ H) as Hc. pose proof (Hcalm _ H) as C. split_ch. unfold abstractTimes_BinaryNode_Divide, reciprocate_into_ast.
    apply np_bind; [apply np_flatten; auto; intros D L; apply C; apply trouble_dividend; auto|]. intros l El. apply np_bind; [|intros; nps]. apply np_mapr. intros x Hx. apply np_operand; auto. pose proof (flatten_safe _ _ _ H0 El) as S. rewrite Forall_forall in S. auto.
  Qed.
  Lemma np_binary : forall op ch data, P (Op KBinary op ch) -> np (abstract_binary o rec op ch data).
  Proof.
    intros op ch data H. pose proof (fits_P _ H) as F. pose proof (kids _ _ _ H) as Hc. pose proof (Hcalm _ H) as C.
    assert (S : exists a t b, ch = [a; Tok t; b] /\ (op = BOP_Unset -> t_kind t = TK_Equal /\ exists u, b = Tok u /\ t_kind u = TK_Dot)).
    { inversion F as [| | | |op' a t b prec K|a t u K1 K2| | | | | | | | |]; subst; exists a, t; [exists b|exists (Tok u)]; split; auto; [|intros _; split; eauto].
      intros ->. exfalso. split_ch. match goal with X : P (Tok t) |- _ => pose proof (kinds_in _ _ binary_kinds (leaf_of_P _ X)) as Q end. unfold binary_okb in Q.
      unfold binary_entry in K. destruct (infix_of (t_kind t)); try contradiction; try (destruct K as [K _]; discriminate K); try (destruct K as [[K _]|[K _]]; discriminate K). destruct K as [K _]. rewrite <- K in Q. discriminate Q. }
    destruct S as (a & t & b & -> & Hu). unfold abstract_binary. pose proof Hc as Hc'. split_ch.
    destruct (Z.eqb_spec op BOP_Divide) as [->|_]; [eapply np_divide; eauto|]. destruct (op =? BOP_CodeParser_BinaryAt); [nps|].
    destruct (op =? BOP_MapApply); [apply np_bind; [nps|]; intros x _; apply np_bind; [nps|]; intros y _; destruct (q_old_at_at_at o); nps|].
    destruct (op =? BOP_CodeParser_BinarySlashSlash); [nps|].
    destruct (zin op [BOP_Put; BOP_PutAppend]) eqn:Ez.
    { assert (S : a_string b \/ ~ a_string b). { destruct b as [u| | | | |]; try (right; intros (w & X & _); discriminate X). destruct (Z.eq_dec (t_kind u) TK_String) as [E|E]; [left; exists u; auto|right; intros (w & [= <-] & X); auto]. }
      destruct S as [(u & -> & Eu)|N]; [rewrite Eu; change (TK_String =? TK_String) with true; cbv iota; nps|]. exfalso. apply C. apply trouble_put; auto.
      unfold zin in Ez. cbn [existsb] in Ez. rewrite orb_false_r in Ez. apply orb_true_iff in Ez as [Ez|Ez]; apply Z.eqb_eq in Ez; auto. }
    destruct (Z.eqb_spec op BOP_Unset) as [->|_].
    { destruct (Hu eq_refl) as (E1 & u & -> & E2). cbn [leaf_of]. rewrite E1, E2. change ((TK_Equal =? TK_Equal) && (TK_Dot =? TK_Dot)) with true. cbv iota. nps. }
    apply np_bind; [nps|]. intros x _. apply np_bind; [nps|]. intros y _. destruct (_ && _); nps.
  Qed.
  Hypothesis Hcomma : forall ch a, rec (Op KInfix IOP_CodeParser_Comma ch) = Ok a -> exists h args d, a = ACall h args d.
  Lemma np_ternary : forall op ch data, P (Op KTernary op ch) -> np (abstract_ternary rec op ch data).
  Proof.
    intros op ch data H. pose proof (fits_P _ H) as F. pose proof (kids _ _ _ H) as Hc.
    assert (S : exists a t b u c, ch = [a; Tok t; b; Tok u; c] /\ (op = TOP_TagUnset -> t_kind u = TK_Equal /\ exists v, c = Tok v /\ t_kind v = TK_Dot)).
    { inversion F as [| | | | | |op' a t b u c p1 p2 K|a t b u v K1 K2| | | | | | |]; subst; exists a, t, b, u; [exists c|exists (Tok v)]; split; auto; [|intros _; split; eauto].
      intros ->. exfalso. destruct K as [(K & _)|[(K & _)|[(K & _)|(K & _)]]]; discriminate K. }
    destruct S as (a & t & b & u & c & -> & Hu). unfold abstract_ternary. split_ch.
    destruct (op =? TOP_CodeParser_TernaryTilde).
    { apply np_bind; [nps|]. intros m Em. apply np_bind; [nps|]. intros x _. apply np_bind; [nps|]. intros y _. destruct b as [| | |k iop cs| |]; nps. destruct k; nps. destruct (Z.eqb_spec iop IOP_CodeParser_Comma) as [->|_]; [|nps].
      destruct (Hcomma _ _ Em) as (h & args & d & ->). cbn [into_children_and_source rbind]. nps. }
    destruct (Z.eqb_spec op TOP_TagUnset) as [->|_].
    { destruct (Hu eq_refl) as (E1 & v & -> & E2). cbn [leaf_of]. rewrite E1, E2. change ((TK_Equal =? TK_Equal) && (TK_Dot =? TK_Dot)) with true. cbv iota. nps. }
    apply np_bind; [nps|]. intros x _. apply np_bind; [nps|]. intros y _. apply np_bind; [nps|]. intros z _. destruct (_ =? _); nps.
  Qed.
  Lemma np_prefix_binary : forall op ch data, P (Op KPrefixBinary op ch) -> np (abstract_prefix_binary rec op ch data).
  Proof.
    intros op ch data H. pose proof (fits_P _ H) as F. pose proof (kids _ _ _ H) as Hc. inversion F as [| |op' t a b| | | | | | | | | | | |]; subst. unfold abstract_prefix_binary. split_ch.
    destruct b as [| | |k dop cs| |]; nps. destruct k; nps. destruct (zin dop _); [|nps]. match goal with X : P (Op KPrefix dop cs) |- _ => pose proof (fits_P _ X) as F2; apply kids in X end. inversion F2; subst. split_ch. nps.
  Qed.
  Lemma np_comma_list : forall ch e data, P (Op KInfix IOP_CodeParser_Comma ch) -> np (rbind (part_span_even_children o None ch) (fun cs => rbind (mapr rec cs) (fun l => Ok (AAbstractSyntaxError e l (from_src data))))).
  Proof. intros ch e data H. rewrite np_span_none. cbn [rbind]. apply np_bind; [apply np_mapr_rec, P_evens; eapply kids; eauto|intros; nps]. Qed.
  Lemma np_paren_node : forall ch data, P (Op KGroup GOP_CodeParser_GroupParen ch) -> np (abstract_paren o rec ch data).
  Proof.
    intros ch data H. pose proof (fits_P _ H) as F. pose proof (kids _ _ _ H) as Hc. inversion F as [| | | | | | | | | |op t mid u Ho Hu| | | |]; subst.
    assert (K : np (rbind (part_span_drop_first_and_last (Tok t :: mid ++ [Tok u])) (fun cs => rbind (mapr rec cs) (fun l => Ok (AAbstractSyntaxError OpenParen l (from_src data)))))).
    { unfold part_span_drop_first_and_last. assert (N : mid ++ [Tok u] <> []) by (destruct mid; discriminate). destruct (mid ++ [Tok u]) eqn:E; [congruence|]. cbn [rbind]. rewrite <- E in *.
      rewrite removelast_last. apply np_bind; [|intros; nps]. apply np_mapr_rec. split_ch. apply Forall_app in Hc as [Hc _]. exact Hc. }
    unfold abstract_paren. destruct mid as [|b [|c mid]]; cbn [app] in *; try exact K.
    - split_ch. destruct b as [| | |k op cs| |]; nps. destruct k; nps. destruct (Z.eqb_spec op IOP_CodeParser_Comma) as [->|_]; [|nps]. apply np_comma_list. assumption.
    - destruct (mid ++ [Tok u]) eqn:E; [destruct mid; discriminate E|]. exact K.
  Qed.
  Lemma np_naked : forall op e ch data, P (Op KGroup op ch) -> op = GOP_CodeParser_GroupSquare \/ op = GOP_CodeParser_GroupTypeSpecifier \/ op = GOP_CodeParser_GroupDoubleBracket -> np (abstract_naked o rec e ch data).
  Proof.
    intros op e ch data H Hop. pose proof (fits_P _ H) as F. pose proof (kids _ _ _ H) as Hc. pose proof (Hcalm _ H) as C. inversion F as [| | | | | | | | | |op' t mid u Ho Hu| | | |]; subst. unfold abstract_naked.
    destruct mid as [|b [|c mid]]; cbn [app] in *; [nps| |].
    - split_ch. destruct b as [| | |k iop cs| |]; nps. destruct k; nps. destruct (Z.eqb_spec iop IOP_CodeParser_Comma) as [->|_]; [|nps]. apply np_comma_list. assumption.
    - exfalso. apply C. destruct (mid ++ [Tok u]) eqn:E; [destruct mid; discriminate E|]. apply trouble_naked; exact Hop.
  Qed.
  Lemma np_group : forall op ch data, P (Op KGroup op ch) -> np (abstract_group o rec op ch data).
  Proof.
    intros op ch data H. unfold abstract_group. destruct (Z.eqb_spec op GOP_CodeParser_GroupParen) as [->|_]; [apply np_paren_node; auto|].
    destruct (Z.eqb_spec op GOP_CodeParser_GroupSquare) as [->|_]; [eapply np_naked; eauto|]. destruct (Z.eqb_spec op GOP_CodeParser_GroupTypeSpecifier) as [->|_]; [eapply np_naked; eauto|].
    destruct (Z.eqb_spec op GOP_CodeParser_GroupDoubleBracket) as [->|_]; [eapply np_naked; eauto|]. apply np_bind; [eapply np_group_node; eauto|intros; nps].
  Qed.
  Lemma np_call : forall h m op ch data, P (Call h m op ch) -> np (abstract_call_node rec h m op ch data).
  Proof.
    intros h m op ch data H. pose proof (fits_P _ H) as F. pose proof (P_children P closed _ H) as Hc. pose proof (Hcalm _ H) as C. rewrite children_call in Hc.
    inversion F as [| | | | | | | | | | | |head gop op' t mid u E Ho Hu|head gop op' t mid E Ho|]; subst; cbn [app] in Hc; apply Forall_cons_iff in Hc as [Hh Hc]; unfold abstract_call_node; cbv zeta.
    - assert (N : Tok t :: mid ++ [Tok u] <> []) by discriminate. pose proof (np_group_args _ _ _ Hc) as Hg.
      assert (K : np (rbind (issue_between (call_issue head) (Tok t :: mid ++ [Tok u])) (fun issues => rbind (rec head) (fun a => rbind (abstractGroupNode rec (Tok t :: mid ++ [Tok u])) (fun l => Ok (ACall a l (mk_ameta (Known data) issues))))))).
      { apply np_bind; [apply np_issue; auto|]. intros i _. apply np_bind; [nps|]. intros x _. apply np_bind; [exact Hg|intros; nps]. }
      destruct (Z.eqb_spec op CALLOP_CodeParser_GroupSquare) as [->|_].
      + destruct mid as [|b mid]; [exact K|]. cbn [app] in *. destruct b as [| | |k g2 ch2| |]; try exact K. destruct k; try exact K. destruct (Z.eqb_spec g2 GOP_CodeParser_GroupSquare) as [->|_]; [|exact K]. clear K Hg.
        destruct mid as [|c mid]; cbn [app] in *.
        * apply np_bind; [apply np_issue; auto|]. intros i _. apply np_bind; [nps|]. intros x _. split_ch. apply np_bind; [eapply np_group_node; eauto|intros; nps].
        * exfalso. apply C. destruct (mid ++ [Tok u]) eqn:Em; [destruct mid; discriminate Em|]. apply trouble_part.
      + destruct (op =? CALLOP_CodeParser_GroupTypeSpecifier).
        * apply np_bind; [nps|]. intros s _. apply np_bind; [nps|]. intros x _. apply np_bind; [exact Hg|intros; nps].
        * apply np_bind; [apply np_issue; auto|]. intros i _. apply np_bind; [nps|]. intros x _. apply np_bind; [exact Hg|intros; nps].
    - apply np_bind; [nps|]. intros x _. apply np_bind; [apply np_missing; exact Hc|]. intros y _. destruct (op =? _); [nps|]. destruct (op =? _); nps.
  Qed.
  Lemma np_node : forall n data, P n -> np (abstract_node o rec n data).
  Proof.
    intros n data H. destruct n as [t|h m op body|e ch|k op ch|b ch src|a b src]; cbn [abstract_node].
    - apply np_replace; auto.
    - apply np_call; auto.
    - pose proof (fits_P _ H) as F. pose proof (P_children P closed _ H) as Hc. inversion F; subst. cbn [children] in Hc. split_ch. nps.
    - destruct k; [apply np_prefix|apply np_infix|apply np_postfix|apply np_binary|apply np_ternary|apply np_prefix_binary|apply np_compound|apply np_group| |]; auto.
      + pose proof (fits_P _ H) as F. pose proof (kids _ _ _ H) as Hc. inversion F; subst. apply np_bind; [apply np_missing; auto|intros; nps].
      + exfalso. pose proof (fits_P _ H) as F. inversion F.
    - exfalso. pose proof (fits_P _ H) as F. inversion F.
    - exfalso. pose proof (fits_P _ H) as F. inversion F.
  Qed.
End total.

Definition calm (o : aopts) (n : cst) : Prop := good n /\ Forall (fun m => ~ trouble o m) (nodes n).
Lemma calm_down : forall o n m, calm o n -> In m (nodes n) -> calm o m.
Proof. intros o n m [H1 H2] Hm. split; [eapply good_down; eauto|]. rewrite Forall_forall in *. intros k Hk. apply H2. eapply nodes_trans; eauto. Qed.
Lemma comma_call : forall o k ch a, abstract_ o k (Op KInfix IOP_CodeParser_Comma ch) = Ok a -> exists h args d, a = ACall h args d.
Proof.
  intros o k ch a E. destruct k as [|k]; [discriminate E|]. cbn [abstract_] in E. apply rbind_Ok in E as (data & _ & E). apply rbind_Ok in E as (x & Ex & E). destruct (a_dbg o && _); [discriminate E|]. injection E as <-.
  cbn [abstract_node] in Ex. unfold abstract_infix in Ex. change (IOP_CodeParser_Comma =? IOP_CodeParser_InfixInequality) with false in Ex. change (IOP_CodeParser_Comma =? IOP_Plus) with false in Ex.
  change (IOP_CodeParser_Comma =? IOP_Times) with false in Ex. change (IOP_CodeParser_Comma =? IOP_Divisible) with false in Ex. change (IOP_CodeParser_Comma =? IOP_CompoundExpression) with false in Ex.
  change (IOP_CodeParser_Comma =? IOP_MessageName) with false in Ex. change (IOP_CodeParser_Comma =? IOP_CodeParser_InfixTilde) with false in Ex. cbv iota in Ex.
  destruct (Nat.even (length ch)); [discriminate Ex|]. apply rbind_Ok in Ex as (l & _ & Ex). apply rbind_Ok in Ex as (l2 & _ & Ex). apply rbind_Ok in Ex as (args & _ & Ex). unfold call in Ex. injection Ex as <-. eauto.
Qed.
Theorem abstract_np : forall o fuel n, calm o n -> np (abstract_ o fuel n).
Proof.
  intros o fuel. induction fuel as [|k IH]; intros n H; [intros X; discriminate X|]. cbn [abstract_]. destruct (good_source n (proj1 H)) as (data & Es & _). rewrite Es. cbn [rbind].
  apply np_bind.
  - eapply (np_node o (abstract_ o k) (calm o)); auto; [intros; eapply calm_down; eauto|intros m [? _]; auto|intros m [_ F]; rewrite Forall_forall in F; apply F, nodes_self|]. intros ch a. apply comma_call.
  - intros a Ea. destruct (a_dbg o) eqn:D; [|intros X; discriminate X]. cbn [andb].
    assert (Dn : derivative_node n = false).
    { destruct (derivative_node n) eqn:E; auto. exfalso. destruct n as [| | |kk op ch| |]; try discriminate E. destruct kk; try discriminate E. cbn in E. apply Z.eqb_eq in E. subst op. destruct H as [_ F]. rewrite Forall_forall in F. eapply F; [apply nodes_self|]. apply trouble_prime. exact D. }
    rewrite (source_checked_ok _ _ _ _ _ Es Dn Ea). intros X. discriminate X.
Qed.
Theorem abstract_total : forall o n, calm o n -> exists a, abstract_cst o n = Ok a.
Proof.
  intros o n H. pose proof (abstract_np o (size n) n H) as N. pose proof (abstract_nf o (size n) n (Nat.le_refl _)) as F. unfold abstract_cst. destruct (abstract_ o (size n) n) as [a| |]; [eauto|destruct (N eq_refl)|destruct (F eq_refl)].
Qed.
