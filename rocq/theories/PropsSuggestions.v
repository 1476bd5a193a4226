(** C76: what is reported about a character of the text, and what is suggested. *)
From Coq Require Import String ZArith List Bool Lia.
From Verif Require Import Base Source WLChar LongNames GenAscii ByteDecoder CharDecoder Format Decode SpecText SpecReader Logic WlDecode ReaderProofs FormatProofs FormatRound Tokenizer Link
  Suggestions SpecSuggestions SuggestionsProofs SuggestionsEscapes.
Import ListNotations.
Local Open Scope string_scope.
Local Open Scope list_scope.
Local Open Scope Z_scope.

(** A character of the text is reported exactly when it is unexpected, or is not ASCII in the normal
    mode.  The issue is about the place of that character, and every suggestion replaces or deletes
    that very place: with another spelling of the character, which is read as it wherever it stands,
    with plain characters that look like it, or with what was meant.  Another spelling is always
    among the suggestions, and so is everything that looks like it. *)
Theorem C76_character : forall o pol input s c s', 0 < o_tab_width o -> reachable o input s -> o_check_issues o = true ->
  next_source_char o pol s = Ok (c, s') -> 0 <= c -> c <> 13 ->
  match reported_as (o_normal o) (p_string pol) c with
  | None => lg s' = lg s
  | Some (tag, sev) =>
      let sp := mkspan (ploc (cur s)) (ploc (cur s')) in
      lg s' = addIssue_log (mkissue tag sev sp) (lg s) /\
      exists w, (if unexpected c then strange_issue c (ploc (cur s)) (ploc (cur s')) pol = Ok (Some w) else nonascii_issue c (ploc (cur s)) (ploc (cur s')) = Ok w) /\
        issue_about c as_itself tag sev sp w /\ offers_plain c w /\ offers_spelling c w
  end.
Proof. intros o pol input s c s' Ht Hr. apply character_reported. exact (reachable_Inv o input s Ht Hr). Qed.
Print Assumptions C76_character.

(** The same about a character that is written as an escape, by its name or by its number.  What was
    meant is suggested as an escape too. *)
Theorem C76_escaped : forall o pol input s c s', 0 < o_tab_width o -> reachable o input s -> p_scan pol = false -> o_check_issues o = true ->
  next_wolfram_char o pol s = Ok (c, s') -> (by_name (wesc c) = true -> p_issues pol = true) -> by_name (wesc c) || by_number (wesc c) = true -> 0 <= wc c ->
  let sp := mkspan (ploc (cur s)) (ploc (cur s')) in let sev := if p_string pol then Remark else Warning in
  exists start, loc_previous start = Ok (ploc (cur s)) /\
  if escaped_reported (wc c) then In (mkissue UnexpectedCharacter sev sp) (l_nonfatal (lg s')) /\
    exists w, escaped_issue pol c start (ploc (cur s')) = Ok (Some w) /\ issue_about (wc c) spells UnexpectedCharacter sev sp w /\ offers_plain (wc c) w
  else escaped_issue pol c start (ploc (cur s')) = Ok None.
Proof. intros o pol input s c s' Ht Hr. apply escape_reported. exact (reachable_Inv o input s Ht Hr). Qed.
Print Assumptions C76_escaped.

(** A blank, a letterlike character or a line end that is not expected in the code: the issue that is
    recorded is the one that carries the suggestions, and they are about that character and its place. *)
Theorem C76_in_code : forall o pol input s c s' tag confidence, 0 < o_tab_width o -> reachable o input s -> p_scan pol = false ->
  next_wolfram_char o pol s = Ok (c, s') -> 0 <= wc c ->
  In tag [UnexpectedSpaceCharacter; UnexpectedLetterlikeCharacter; UnexpectedNewlineCharacter] ->
  let sp := mkspan (ploc (cur s)) (ploc (cur s')) in
  add_unexpected_char_issue c (ploc (cur s)) tag s' = Ok (tt, mkst (cur s') (addIssue_log (mkissue tag Warning sp) (lg s'))) /\
  exists w, unexpected_char_issue c sp tag confidence = Ok w /\ issue_about (wc c) (as_meant_by (wesc c)) tag Warning sp w.
Proof.
  intros o pol input s c s' tag conf Ht Hr Hp H Hc Htag sp. pose proof (reachable_Inv o input s Ht Hr) as HI.
  destruct (read_prints o pol s c s' HI Hp H Hc) as (_ & G & S).
  assert (L : loc_leb (ploc (cur s)) (ploc (cur s')) = Some true).
  { pose proof (next_wolfram_run o pol s HI Hp) as W. destruct (wld (rest (cur s))) as [[c1 r1]|]; [|congruence].
    destruct W as (s1 & E1 & _ & _ & W). rewrite H in E1. injection E1 as <- <-. eapply R_leb; eauto. }
  destruct (in_code c (ploc (cur s)) tag conf s' S G L Htag) as (w & W1 & W2 & W3). split; [|eauto].
  rewrite W3. destruct W2 as (T1 & T2 & T3 & _). unfold core. rewrite T1, T2, T3. reflexivity.
Qed.
Print Assumptions C76_in_code.

(** No suggestion inserts anything, and a character is suggested to be deleted only if it is the
    invisible application. *)
Theorem C76_no_other : forall c how tag sev sp w, issue_about c how tag sev sp w ->
  Forall (fun a => (forall t, ac_kind a <> InsertText t) /\ (ac_kind a = DeleteText -> c = 0x2061)) (wi_actions w).
Proof.
  intros c how tag sev sp w (_ & _ & _ & F & _). eapply Forall_impl; [|exact F]. intros a [_ H]. split.
  - intros t E. rewrite E in H. exact H.
  - intros E. rewrite E in H. exact H.
Qed.
Print Assumptions C76_no_other.

(** ** Cases *)
Definition o0 : opts := mkopts ConvLineColumn 4 true false true (fun _ => false).
Definition texts_of (w : wissue) : list (list Z) := flat_map (fun a => match ac_kind a with ReplaceText t => [t] | _ => [] end) (wi_actions w).

(** a curly quote of the code: a warning, its name, and a plain quote *)
Example curly_quote :
  match next_source_char o0 TOPLEVEL (reader_new o0 [0xe2; 0x80; 0x9c; 0x61]) with
  | Ok (c, s') =>
      c = 0x201c /\ reported_as true false c = Some (UnexpectedCharacter, Warning) /\
      match strange_issue c (LineCol 1 1) (ploc (cur s')) TOPLEVEL with
      | Ok (Some w) => texts_of w = [lit "\[OpenCurlyDoubleQuote]"; [34]] | _ => False end
  | _ => False
  end.
Proof. vm_compute. repeat split. Qed.
(** a letter with an accent is a remark in the normal mode, and nothing otherwise *)
Example accent : reported_as true false 0xe9 = Some (NonASCIICharacter, Remark) /\ reported_as false false 0xe9 = None /\ reported_as true true 0x0b = Some (UnexpectedCharacter, Remark) /\
  reported_as true false 0x0b = None.
Proof. repeat split. Qed.
(** an arrow written by its number: the arrow of a rule is suggested as an escape *)
Example arrow :
  match next_wolfram_char o0 TOPLEVEL (reader_new o0 (lit "\:2192x")) with
  | Ok (c, s') =>
      c = mkwl 0x2192 EHex4 /\ map i_src (l_nonfatal (lg s')) = [mkspan (LineCol 1 1) (LineCol 1 7)] /\
      match escaped_issue TOPLEVEL c (LineCol 1 2) (ploc (cur s')) with Ok (Some w) => In (lit "\[Rule]") (texts_of w) | _ => False end
  | _ => False
  end.
Proof. vm_compute. repeat split. left. reflexivity. Qed.
