(** No token asked for inside a bracket is a top-level newline: the only tokens of that kind
    come from [newline_with_policy]. *)
From Coq Require Import ZArith List Bool Lia.
From Verif Require Import Base Source WLChar GenTokenKind GenLongNames LongNames ByteDecoder CharDecoder TokenKind Format Tokenizer SpecTokenizer.
Import ListNotations.
Local Open Scope Z_scope.

Definition yields (m : M token) : Prop := forall s t s', m s = Ok (t, s') -> t_kind t <> TK_ToplevelNewline.

Lemma y_bind : forall A (m : M A) k, (forall a, yields (k a)) -> yields (bind m k).
Proof. intros A m k H s t s' E. unfold bind in E. destruct (m s) as [[a s1]| |] eqn:Em; try discriminate. exact (H a s1 t s' E). Qed.
Lemma y_fuel : forall f, (forall n, yields (f n)) -> yields (with_fuel f).
Proof. intros f H s t s' E. exact (H _ s t s' E). Qed.
Lemma y_out : yields out_of_fuel.
Proof. intros s t s' E. discriminate E. Qed.
Lemma y_panic : yields panic.
Proof. intros s t s' E. discriminate E. Qed.
Lemma y_new2 : forall k a b c, k <> TK_ToplevelNewline -> yields (new2 k a b c).
Proof. intros k a b c H. unfold new2. apply y_bind. intros _ s t s' E. injection E as <- _. exact H. Qed.
Lemma y_mk : forall k p, k <> TK_ToplevelNewline -> yields (mk_token k p).
Proof. intros k p H. unfold mk_token. do 4 (apply y_bind; intros ?). apply y_new2; auto. Qed.
Lemma y_err : forall k p, k <> TK_ToplevelNewline -> yields (error_token_at k p).
Proof. intros k p H. unfold error_token_at. apply y_bind; intros _. apply y_new2; auto. Qed.
Lemma y_if : forall (b : bool) m m', yields m -> yields m' -> yields (if b then m else m').
Proof. intros [] m m' H H'; auto. Qed.
Lemma y_lift : forall (r : res Z) k, (forall a, r = Ok a -> yields (k a)) -> yields (bind (lift r) k).
Proof. intros r k H s t s' E. unfold bind, lift in E. destruct r as [a| |]; try discriminate. exact (H a eq_refl s t s' E). Qed.

Ltac yk := solve [discriminate | match goal with |- (if ?b then _ else _) <> _ => destruct b; discriminate end].
Ltac y1 := first
  [ progress cbv beta zeta
  | apply y_mk; yk | apply y_err; yk | apply y_new2; yk | apply y_out | apply y_panic
  | solve [auto]
  | match goal with |- yields (if _ then _ else _) => apply y_if end
  | match goal with |- yields (bind _ _) => apply y_bind; intros ? end
  | match goal with |- yields (with_fuel _) => apply y_fuel; intros ? end
  | match goal with |- yields (match ?x with _ => _ end) => destruct x end
  | match goal with |- yields (let _ := _ in _) => intro end ].
Ltac yy := repeat y1.

Section Kinds.
Variable o : opts.

Lemma y_comment : forall n p pol d c, yields (comment_loop o n p pol d c).
Proof. induction n; intros; cbn [comment_loop]; yy. Qed.
Lemma y_blob : forall n p pol d c, yields (blob_loop o n p pol d c).
Proof. induction n; intros; cbn [blob_loop]; yy. Qed.
Lemma y_symbol : forall n p pol c, yields (symbol_loop o n p pol c).
Proof. induction n; intros; cbn [symbol_loop]; yy. Qed.
Lemma y_string : forall n p pol, yields (string_loop o n p pol).
Proof. induction n; intros; cbn [string_loop]; yy. Qed.
Hint Resolve y_comment y_blob y_symbol y_string : core.
Lemma y_handleComment : forall p c pol, yields (handleComment o p c pol).
Proof. intros. unfold handleComment. yy. Qed.
Lemma y_handleBlob : forall p c pol, yields (handleMBLinearSyntaxBlob o p c pol).
Proof. intros. unfold handleMBLinearSyntaxBlob. yy. Qed.
Lemma y_handleSymbol : forall p c pol, yields (handleSymbol o p c pol).
Proof. intros. unfold handleSymbol. yy. Qed.
Lemma y_handleString : forall p c pol, yields (handleString o p c pol).
Proof. intros. unfold handleString. yy. Qed.
Hint Resolve y_handleComment y_handleBlob y_handleSymbol y_handleString : core.
Lemma y_computeTok : forall x, computeTok x <> TK_ToplevelNewline.
Proof. intros x. unfold computeTok. repeat match goal with |- (if ?b then _ else _) <> _ => destruct b end; discriminate. Qed.
Hint Resolve y_computeTok : core.
Lemma y_exponent : forall p pol x m, yields (number_exponent o p pol x m).
Proof. intros. unfold number_exponent. yy; apply y_mk; auto. Qed.
Hint Resolve y_exponent : core.
Lemma y_star : forall p pol x, yields (number_star o p pol x).
Proof. intros. unfold number_star. yy; apply y_mk; auto. Qed.
Hint Resolve y_star : core.
Lemma y_after : forall p pol x a b c, yields (number_after_precision o p pol x a b c).
Proof. intros. unfold number_after_precision. yy; apply y_mk; auto. Qed.
Hint Resolve y_after : core.
Lemma y_pdot : forall p pol x a b c d e, yields (number_precision_dot o p pol x a b c d e).
Proof. intros. unfold number_precision_dot. yy; apply y_mk; auto. Qed.
Hint Resolve y_pdot : core.
Lemma y_pdigits : forall p pol x a b c d, yields (number_precision_digits o p pol x a b c d).
Proof. intros. unfold number_precision_digits. yy; apply y_mk; auto. Qed.
Hint Resolve y_pdigits : core.
Lemma y_backquote : forall p pol x, yields (number_backquote o p pol x).
Proof. intros. unfold number_backquote. yy; apply y_mk; auto. Qed.
Hint Resolve y_backquote : core.
Lemma y_tail : forall p pol x c, yields (number_tail o p pol x c).
Proof. intros. unfold number_tail. yy; apply y_mk; auto. Qed.
Hint Resolve y_tail : core.
Lemma y_fraction : forall p pol x a b c, yields (number_fraction o p pol x a b c).
Proof. intros. unfold number_fraction. yy; apply y_mk; auto. Qed.
Hint Resolve y_fraction : core.
Lemma y_caret : forall p pol a b, yields (number_caret o p pol a b).
Proof. intros. unfold number_caret. yy; apply y_mk; auto. Qed.
Hint Resolve y_caret : core.
Lemma y_number : forall p c pol, yields (handleNumber o p c pol).
Proof. intros. unfold handleNumber. yy; apply y_mk; auto. Qed.
Hint Resolve y_number : core.

Lemma y_double : forall a one two p c pol, one <> TK_ToplevelNewline -> two <> TK_ToplevelNewline -> yields (handle_double o a one two p c pol).
Proof. intros. unfold handle_double. yy; apply y_mk; auto. Qed.
Lemma y_paren : forall p c pol, yields (handleOpenParen o p c pol).
Proof. intros. unfold handleOpenParen. yy. Qed.
Lemma y_ops : forall p c pol, yields (handleColon o p c pol) /\ yields (handleDot o p c pol) /\ yields (handleEqual o p c pol) /\ yields (handleUnder o p c pol) /\
  yields (handleLess o p c pol) /\ yields (handleGreater o p c pol) /\ yields (handleMinus o p c pol) /\ yields (handleBar o p c pol) /\ yields (handleBang o p c pol) /\
  yields (handlePercent o p c pol) /\ yields (handleSlash o p c pol) /\ yields (handleAt o p c pol) /\ yields (handlePlus o p c pol) /\ yields (handleStar o p c pol) /\
  yields (handleCaret o p c pol) /\ yields (handleUnhandledBackslash o p c pol).
Proof.
  intros. do 15 (apply conj;
    [solve [unfold handleColon, handleDot, handleEqual, handleUnder, handleLess, handleGreater, handleMinus, handleBar, handleBang, handlePercent, handleSlash, handleAt, handlePlus, handleStar, handleCaret; yy]|]).
  unfold handleUnhandledBackslash. yy.
Qed.
Lemma operator_b : forallb (fun r => negb (snd r =? TK_ToplevelNewline)) LONGNAME_OPERATOR = true.
Proof. vm_compute. reflexivity. Qed.
Lemma assoc_all : forall (P : Z -> bool) k l v, forallb (fun r => P (snd r)) l = true -> assoc k l = Some v -> P v = true.
Proof.
  intros P k l v H. induction l as [|[a b] l IH]; [discriminate|]. cbn [forallb snd] in H. apply andb_prop in H as [H1 H2]. cbn [assoc].
  destruct (k =? a); [|auto]. intros E. injection E as <-. exact H1.
Qed.
Lemma y_mbpunct : forall p c pol, yields (handleMBPunctuation p c pol).
Proof.
  intros. unfold handleMBPunctuation. do 2 (apply y_bind; intros ?). apply y_lift. intros k E. unfold LongNameCodePointToOperator in E.
  destruct (assoc (wc c) LONGNAME_OPERATOR) as [v|] eqn:Ea; [|discriminate]. injection E as ->. apply y_mk.
  pose proof (assoc_all (fun v => negb (v =? TK_ToplevelNewline)) _ _ _ operator_b Ea) as H. intros ->. discriminate H.
Qed.
Lemma y_naked : forall p c pol, yields (handleNakedMBLinearSyntax p c pol).
Proof.
  intros. unfold handleNakedMBLinearSyntax. apply y_bind; intros ?. apply y_lift. intros k E. unfold naked_linear_syntax_kind in E. cbn [switch] in E.
  repeat match goal with E : (if ?b then _ else _) = Ok _ |- _ => destruct b; [injection E as <-; apply y_mk; discriminate|] end. discriminate E.
Qed.
Lemma y_semi : forall p c pol, yields (handleSemi o p c pol) /\ yields (handleHash o p c pol) /\ yields (handleAmp o p c pol) /\ yields (handleTilde o p c pol) /\ yields (handleQuestion o p c pol).
Proof. intros. unfold handleSemi, handleHash, handleAmp, handleTilde, handleQuestion. do 4 (apply conj; [apply y_double; discriminate|]). apply y_double; discriminate. Qed.
Ltac leaf := match goal with
  | H : yields ?m |- yields ?m => exact H
  | H : forall p, yields (mk_token (newline_with_policy _) p) |- yields (mk_token (newline_with_policy _) _) => apply H
  | |- yields (mk_token _ _) => apply y_mk; discriminate
  | |- yields (handleSymbol _ _ _ _) => apply y_handleSymbol
  | |- yields (handleString _ _ _ _) => apply y_handleString
  | |- yields (handleNumber _ _ _ _) => apply y_number
  | |- yields (handleOpenParen _ _ _ _) => apply y_paren
  | |- yields (handleMBLinearSyntaxBlob _ _ _ _) => apply y_handleBlob
  | |- yields (handleNakedMBLinearSyntax _ _ _) => apply y_naked
  | |- yields (handleMBPunctuation _ _ _) => apply y_mbpunct
  | |- yields (handleStrangeWhitespace _ _ _ _) => unfold handleStrangeWhitespace; apply y_bind; intros ?; apply y_bind; intros ?; apply y_mk; discriminate
  | |- yields (handleMBStrangeWhitespace _ _ _ _) => unfold handleMBStrangeWhitespace; apply y_bind; intros ?; apply y_bind; intros ?; apply y_mk; discriminate
  | H : forall p, yields (mk_token (newline_with_policy _) p) |- yields (handleMBStrangeNewline _ _ _ _) => unfold handleMBStrangeNewline; apply y_bind; intros ?; apply y_bind; intros ?; apply H
  end.
Lemma y_nextToken : forall pol, p_toplevel pol = false -> yields (nextToken o pol).
Proof.
  intros pol H. unfold nextToken. do 2 (apply y_bind; intros ?). unfold dispatch. cbv zeta.
  assert (N : forall p, yields (mk_token (newline_with_policy pol) p)) by (intros p; apply y_mk; unfold newline_with_policy; rewrite H; discriminate).
  pose proof (y_ops a a0 pol) as (H1 & H2 & H3 & H4 & H5 & H6 & H7 & H8 & H9 & H10 & H11 & H12 & H13 & H14 & H15 & H16).
  pose proof (y_semi a a0 pol) as (H17 & H18 & H19 & H20 & H21).
  assert (U : yields (nextToken_uncommon o a a0 pol)).
  { unfold nextToken_uncommon. cbv zeta.
    repeat match goal with |- yields (if _ then _ else _) => apply y_if; [leaf|] end.
    apply y_bind; intros _. apply y_handleSymbol. }
  repeat match goal with |- yields (if _ then _ else _) => apply y_if; [leaf|] end. exact U.
Qed.
End Kinds.

(** a token asked for inside a bracket *)
Lemma grouped_newline : forall o pol s t s', ask o (AsToken true pol) s = Ok (t, s') -> t_kind t <> TK_ToplevelNewline.
Proof.
  intros o pol s t s' E. unfold ask, peek_token_with, peek, bind, mark, seek, ret in E.
  destruct (nextToken o (without_toplevel pol) s) as [[u s1]| |] eqn:En; try discriminate.
  assert (X : u = t) by (injection E as ? ?; assumption). subst u. eapply y_nextToken; eauto. destruct pol; reflexivity.
Qed.
