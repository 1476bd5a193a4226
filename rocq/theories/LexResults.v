(** The lexical grammar, in terms of the tokens that are asked for. *)
From Coq Require Import String ZArith List Bool Lia.
From Verif Require Import Base Source WLChar GenTokenKind GenLongNames LongNames ByteDecoder CharDecoder TokenKind Format Tokenizer SpecText SpecReader SpecTokenizer SpecLex
  LongNamesProofs Decode Iter TextProofs Logic WlDecode FormatProofs TokLogic TokenizerProofs TokenLoop TokSim TokSpecs TokAgree TokResults ReparseProofs LexProofs LexChars LexSymbols LexNumbers LexMore.
Import ListNotations.
Local Open Scope Z_scope.

(** Policies differ in the line breaks only, whether in a group or not. *)
Definition grouped (g : bool) (pol : policy) : policy := if g then without_toplevel pol else pol.
Lemma ask_grouped : forall o g pol s t s1 (P : token -> Prop), ask o (AsToken g pol) s = Ok (t, s1) -> po (nextToken o (grouped g pol)) s (fun t _ => P t) -> P t.
Proof.
  intros o g pol s t s1 P E H. cbn [ask] in E. unfold peek_token_with in E. change (if g then without_toplevel pol else pol) with (grouped g pol) in E.
  unfold peek, bind, mark, seek, ret, po in *. destruct (nextToken o (grouped g pol) s) as [[u s2]| |]; try discriminate. injection E as <- _. exact H.
Qed.
Lemma grouped_scan : forall g pol, p_scan (grouped g pol) = p_scan pol. Proof. intros [] pol; reflexivity. Qed.
Lemma grouped_short : forall g pol, p_intshort (grouped g pol) = p_intshort pol. Proof. intros [] pol; reflexivity. Qed.
Lemma grouped_slot : forall g pol, has_slot (grouped g pol) = has_slot pol. Proof. intros [] pol; reflexivity. Qed.
Lemma grouped_line : forall g pol, newline_with_policy (grouped g pol) = if p_toplevel pol && negb g then TK_ToplevelNewline else TK_InternalNewline.
Proof. intros [] pol; unfold newline_with_policy; cbn [grouped without_toplevel p_toplevel negb]; rewrite ?andb_false_r, ?andb_true_r; reflexivity. Qed.

Section Results.
Context (o : opts) (input : list Z) (s : st) (g : bool) (pol : policy) (t : token) (s1 : st)
  (Ht : 0 < o_tab_width o) (Hr : reached o input s) (Hp : p_scan pol = false) (Ha : ask o (AsToken g pol) s = Ok (t, s1)).
Let HI : Inv o s := proj1 (reached_Inv o input s Ht Hr).
Let Hp' : p_scan (grouped g pol) = false.
Proof. rewrite grouped_scan. exact Hp. Qed.

Lemma operator_token : forall op k e, longest_operator op k e -> ~ In 92 (firstn 4 (op ++ e)) -> rest (cur s) = op ++ e -> t_kind t = k /\ t_text t = op.
Proof. intros op k e H N R. exact (ask_grouped o g pol s t s1 (fun t => t_kind t = k /\ t_text t = op) Ha (nextToken_operator o _ s op k e HI Hp' H N R)). Qed.
Lemma percents_token : forall n e, (2 <= n)%nat -> ~ starts_with (fun c => c = 37 \/ c = 92) e -> rest (cur s) = repeat 37 n ++ e -> t_kind t = TK_PercentPercent /\ t_text t = repeat 37 n.
Proof.
  intros n e Hn He R. destruct n as [|[|n]]; [lia|lia|].
  exact (ask_grouped o g pol s t s1 (fun t => t_kind t = TK_PercentPercent /\ t_text t = repeat 37 (S (S n))) Ha (nextToken_percents o _ s n e HI Hp' He R)).
Qed.
Lemma line_break_token : forall w e, line_break w e -> rest (cur s) = w ++ e ->
  t_kind t = (if p_toplevel pol && negb g then TK_ToplevelNewline else TK_InternalNewline) /\ t_text t = w.
Proof.
  intros w e H R. rewrite <- grouped_line.
  assert (C : exists c, clean_step (rest (cur s)) c w e /\ is_line_end c = true).
  { rewrite R. destruct H as [->|[->|[-> H]]].
    - exists 10. split; auto. apply (cs_char 10 e); [unfold scalar; lia|lia].
    - exists CRLF. split; auto. apply cs_crlf.
    - exists 13. split; auto. apply (cs_char 13 e); [unfold scalar; lia|]. intros _ X. apply H. destruct e as [|b e]; [discriminate|]. exists b, e. auto. }
  destruct C as (c & C & E).
  exact (ask_grouped o g pol s t s1 (fun t => t_kind t = newline_with_policy (grouped g pol) /\ t_text t = w) Ha (nextToken_newline o _ s c w e HI Hp' C E)).
Qed.
Lemma end_token : rest (cur s) = [] -> t_kind t = TK_EndOfFile /\ t_text t = [].
Proof. intros R. exact (ask_grouped o g pol s t s1 (fun t => t_kind t = TK_EndOfFile /\ t_text t = []) Ha (nextToken_end o _ s HI Hp' R)). Qed.

Lemma symbol_token : forall w e, symbol w -> ends_name e -> rest (cur s) = w ++ e -> t_kind t = (if has_slot pol then TK_String else TK_Symbol) /\ t_text t = w.
Proof.
  intros w e Hw He R. pose proof (ask_grouped o g pol s t s1 _ Ha (nextToken_symbol o _ s w e _ _ HI Hp' Hw (st_end e He) R)) as [T1 T2].
  rewrite buf_between_app in T2. split; auto. rewrite T1. unfold slot_kind. rewrite grouped_slot. change (TK_Symbol =? TK_Symbol) with true. reflexivity.
Qed.
Lemma dangling_token : forall w e, (w = [] \/ symbol w) -> no_letter e -> rest (cur s) = w ++ 96 :: e -> t_kind t = TK_Error_ExpectedLetterlike /\ t_text t = w ++ [96].
Proof.
  intros w e Hw He R. destruct Hw as [->|Hw].
  - exact (ask_grouped o g pol s t s1 (fun t => t_kind t = _ /\ t_text t = _) Ha (nextToken_backquote o _ s e HI Hp' He R)).
  - pose proof (ask_grouped o g pol s t s1 _ Ha (nextToken_symbol o _ s w (96 :: e) _ _ HI Hp' Hw (st_bad e He) R)) as [T1 T2]. split; auto.
    rewrite T2. change (96 :: e) with ([96] ++ e). rewrite app_assoc. apply buf_between_app.
Qed.
Lemma number_token : forall w k e, p_intshort pol = false -> number w k -> after_number w e -> rest (cur s) = w ++ e -> t_kind t = k /\ t_text t = w.
Proof.
  intros w k e Hs Hw He R. refine (ask_grouped o g pol s t s1 (fun t => t_kind t = k /\ t_text t = w) Ha (nextToken_number o _ s w k e HI Hp' _ Hw He R)). rewrite grouped_short. exact Hs.
Qed.
Lemma bad_base_token : forall w e, p_intshort pol = false -> bad_base w -> rest (cur s) = w ++ e -> t_kind t = TK_Error_Number.
Proof.
  intros w e Hs Hw R. refine (ask_grouped o g pol s t s1 (fun t => t_kind t = TK_Error_Number) Ha (nextToken_bad_base o _ s w e HI Hp' _ Hw R)). rewrite grouped_short. exact Hs.
Qed.
Lemma index_token : forall ds e, p_intshort pol = true -> digits ds -> ~ starts_with (fun b => digit_byte b \/ b = 92) e -> rest (cur s) = ds ++ e -> t_kind t = TK_Integer /\ t_text t = ds.
Proof.
  intros ds e Hs Hd He R. refine (ask_grouped o g pol s t s1 (fun t => t_kind t = TK_Integer /\ t_text t = ds) Ha (nextToken_index o _ s ds e HI Hp' _ Hd He R)). rewrite grouped_short. exact Hs.
Qed.
Lemma spelled_token : forall name p k w e, In (name, p) LN_TABLE -> named_kind (if p_toplevel pol && negb g then TK_ToplevelNewline else TK_InternalNewline) name k -> spelling p w ->
  rest (cur s) = w ++ e -> t_kind t = k /\ t_text t = w.
Proof.
  intros name p k w e HIn Hk Hw R. rewrite <- grouped_line in Hk. exact (ask_grouped o g pol s t s1 (fun t => t_kind t = k /\ t_text t = w) Ha (nextToken_spelled o _ s name p k w e HI Hp' HIn Hk Hw R)).
Qed.
End Results.
