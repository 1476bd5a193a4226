(** Proofs about the lexical grammar of SpecLex.v. *)
From Coq Require Import String ZArith List Bool Lia.
From Verif Require Import Base Source WLChar GenTokenKind LongNames ByteDecoder CharDecoder TokenKind Format Tokenizer SpecText SpecReader SpecTokenizer SpecLex
  LongNamesProofs Decode Iter TextProofs Logic WlDecode FormatProofs TokLogic TokenizerProofs TokenLoop TokSim TokSpecs TokResults.
Import ListNotations.
Local Open Scope Z_scope.

(** ** The character ahead *)
Definition plain_head (e : list Z) : Prop := match e with b :: _ => b <> 92 | [] => True end.
Lemma peek_byte : forall e c r x, twl e = Some (c, r) -> plain_head e -> 0 <= x < 0x80 -> wc c = x -> exists r', e = x :: r'.
Proof.
  intros e c r x H P Hx E. destruct (twl_ascii_first _ _ _ H) as (b & t & -> & [Hb|Hb]); [lia| |contradiction]. exists t. congruence.
Qed.
Lemma peek_digit : forall e c r, twl e = Some (c, r) -> plain_head e -> isDigit (wc c) = true -> starts_with digit_byte e.
Proof.
  intros e c r H P D. unfold isDigit in D. apply between_iff in D. destruct (peek_byte _ _ _ (wc c) H P) as [r' ->]; [lia|auto|].
  exists (wc c), r'. split; auto.
Qed.

Section Lex.
Context (o : opts).

Lemma po_backup : forall B (m : pos) (k : unit -> M B) s Q, Inv o s ->
  (forall s', cur s' = m -> po (k tt) s' Q) -> po (bind (backupAndWarn o (imark_of m)) k) s Q.
Proof.
  intros B m k s Q HI K. unfold backupAndWarn. apply po_bind. apply (po_inert o); [solve [inert]|exact HI|].
  intros _ s1 _ _. unfold seek_im, imark_of. cbn [im_weof im_rest im_loc]. unfold po at 1, seek. apply K. cbn [cur]. destruct m; reflexivity.
Qed.
Lemma buf1 : forall a r, buf_between (a :: r) r = [a].
Proof. intros a r. exact (buf_between_app [a] r). Qed.
Lemma buf2 : forall a b r, buf_between (a :: b :: r) r = [a; b].
Proof. intros a b r. exact (buf_between_app [a; b] r). Qed.
Lemma buf3 : forall a b c r, buf_between (a :: b :: c :: r) r = [a; b; c].
Proof. intros a b c r. exact (buf_between_app [a; b; c] r). Qed.

Definition eqb_entry (a b : list Z * Z) : bool := zlist_eqb (fst a) (fst b) && (snd a =? snd b).
Lemma in_operators : forall op k, existsb (eqb_entry (op, k)) operators = true -> In (op, k) operators.
Proof.
  intros op k H. apply existsb_exists in H as ([op' k'] & I & H). apply andb_prop in H as [H1 H2]. cbn [fst snd] in *.
  apply zlist_eqb_eq in H1. apply Z.eqb_eq in H2. congruence.
Qed.
(** the entries of one first byte *)
Definition entries (b : Z) : list (list Z * Z) := filter (fun e => hd 0 (fst e) =? b) operators.
Lemma in_entries : forall op k b r, In (op, k) operators -> op = b :: r -> In (op, k) (entries b).
Proof. intros op k b r I E. apply filter_In. split; auto. subst op. apply Z.eqb_refl. Qed.

Lemma peek_not_digit : forall e c r, twl e = Some (c, r) -> isDigit (wc c) = false -> ~ starts_with digit_byte e.
Proof.
  intros e c r H D (b & t & -> & Hb). pose proof Hb as Hb'. unfold digit_byte in Hb'. rewrite twl_ascii in H by lia. injection H as <- _.
  cbn [wl wc] in D. rewrite (digit_isDigit b Hb) in D. discriminate.
Qed.

(** ** Operators *)
Ltac decide_po := match goal with |- po (if ?c then _ else _) _ _ =>
  let v := eval vm_compute in c in match v with true => idtac | false => idtac end;
  (replace c with v by (vm_compute; reflexivity)); cbn iota end.
Ltac head_plain NB e := assert (plain_head e) by (destruct e as [|z ?]; [exact I|intros ->; apply NB; cbn [firstn In]; auto 10]).
Ltac read_known := match goal with
  | R : rest (cur ?s) = ?b :: ?r |- po (bind (nextWL _ _ _) _) ?s _ =>
      apply (po_nextWL o); [assumption|assumption|]; let c := fresh "c" in let s' := fresh "s" in let E := fresh "E" in intros c s' ? E;
      rewrite R, twl_ascii in E by lia; injection E as <- E; symmetry in E
  end.
Ltac peek_ahead NB := match goal with
  | R : rest (cur ?s) = ?l |- po (bind (currentWL _ _ _) _) ?s _ =>
      apply (po_currentWL o); [assumption|assumption|]; let c := fresh "c" in let s' := fresh "s" in let C := fresh "C" in let T := fresh "T" in
      intros c s' ? ? C T; rewrite R in T; rewrite <- C in R;
      match l with
      | _ :: _ => rewrite twl_ascii in T by lia; injection T as <- _; cbn [wl wc]
      | ?e => try head_plain NB e
      end
  end.
Ltac test NB := match goal with
  | |- po (if (wc ?c =? ?x) then _ else _) _ _ =>
      let E := fresh "E" in destruct (Z.eqb_spec (wc c) x) as [E|E];
      [match goal with T : twl ?e = Some (c, _), P : plain_head ?e |- _ =>
         let e' := fresh "e" in destruct (peek_byte _ _ _ x T P) as [e' ->]; [lia|exact E|]; clear E T; try head_plain NB e' end|]
  | |- po (if negb (isDigit (wc ?c)) then _ else _) _ _ =>
      let E := fresh "E" in destruct (isDigit (wc c)) eqn:E; cbn [negb];
      match goal with T : twl ?e = Some (c, _), P : plain_head ?e |- _ =>
        first [pose proof (peek_digit _ _ _ T P E) | pose proof (peek_not_digit _ _ _ T E)] end
  | |- po (if isDigit (wc ?c) then _ else _) _ _ =>
      let E := fresh "E" in destruct (isDigit (wc c)) eqn:E;
      match goal with T : twl ?e = Some (c, _), P : plain_head ?e |- _ =>
        first [pose proof (peek_digit _ _ _ T P E) | pose proof (peek_not_digit _ _ _ T E)] end
  end.
Ltac not_unless := intros [[[?|?] ?]|[[? ?]|[? ?]]]; (discriminate || contradiction).
Ltac finish U L := match goal with
  | |- po (mk_token ?k ?p) ?s _ =>
      let t := fresh "t" in let T1 := fresh "T" in let T2 := fresh "T" in
      apply po_mk_token; intros t T1 T2 _; 
      repeat match goal with R : rest (cur _) = _ |- _ => rewrite R in T2; clear R end;
      rewrite ?buf1, ?buf2, ?buf3 in T2;
      first [ split; [exact T1|exact T2]
            | exfalso; apply U; unfold unless; solve [auto 6]
            | exfalso; match type of T2 with _ = ?op' => specialize (L op' k _ (in_operators op' k eq_refl) eq_refl); cbn [length] in L;
                let X := fresh "X" in match type of L with (?P -> _) => assert (X : P) by not_unless end; specialize (L X); lia end ]
  end.
Ltac dead U := match type of U with
  | ~ unless [46] _ => exfalso; apply U; left; split; [left; reflexivity|assumption]
  | ~ unless [47; 46] _ => exfalso; apply U; left; split; [right; reflexivity|assumption]
  | ~ unless [37] (37 :: _) => exfalso; apply U; right; right; split; [reflexivity|eexists _, _; split; reflexivity]
  | ~ unless [40] (42 :: _) => exfalso; apply U; right; left; split; [reflexivity|eexists _, _; split; reflexivity]
  end.
Ltac carry s' C := match goal with R : rest (cur ?s) = _ |- _ => match type of C with cur s' = cur s => rewrite <- C in R end end.
Ltac run NB U L := repeat first
  [ dead U
  | match goal with |- po (bind (assert_ _) _) _ _ => apply po_assert; intros _ end
  | match goal with |- po (bind mark _) _ _ => apply po_mark end
  | decide_po
  | read_known
  | peek_ahead NB
  | test NB
  | match goal with |- po (bind (backupAndWarn _ _) _) _ _ => idtac end; (apply po_backup; [assumption|]; let s' := fresh "s" in let C := fresh "C" in intros s' C; carry s' C)
  | match goal with |- po (bind (when_ _ _) _) _ _ =>
      apply (po_inert o); [solve [inert]|assumption|]; let s' := fresh "s" in let C := fresh "C" in intros ? s' ? C; carry s' C end
  | match goal with R : rest (cur ?s) = ?e |- po (bind (peek_source_char _ _) _) ?s _ =>
      apply (po_psrc o); [assumption|]; let c := fresh "c" in let s' := fresh "s" in let C := fresh "C" in let D := fresh "D" in
      intros c s' ? C D; rewrite R in D; rewrite <- C in R; subst c; cbn [wl wesc andb];
      let E := fresh "E" in destruct (Z.eqb_spec (dchar (decode e)) 42) as [E|E]; [destruct (decode_ascii_hd _ _ E) as [? ->]; [lia|]|] end
  | finish U L ].

Lemma nextToken_operator : forall pol s op k e, Inv o s -> p_scan pol = false -> longest_operator op k e -> ~ In 92 (firstn 4 (op ++ e)) ->
  rest (cur s) = op ++ e -> po (nextToken o pol) s (fun t _ => t_kind t = k /\ t_text t = op).
Proof.
  intros pol s op k e HI Hp (I & U & L) NB R.
  let v := eval vm_compute in operators in change (In (op, k) v) in I.
  unfold nextToken. apply po_mark.
  repeat (destruct I as [I|I]; [injection I as <- <-; cbn [app] in *; try head_plain NB e; read_known;
    unfold dispatch, nextToken_uncommon; cbv zeta; repeat decide_po;
    unfold handlePlus, handleMinus, handleStar, handleSlash, handleCaret, handleEqual, handleColon, handleSemi, handleHash, handleAmp, handleBang, handlePercent,
      handleDot, handleLess, handleGreater, handleQuestion, handleAt, handleUnder, handleBar, handleTilde, handle_double, handleStrangeWhitespace, handleOpenParen;
    solve [run NB U L]|]). contradiction.
Qed.
End Lex.
