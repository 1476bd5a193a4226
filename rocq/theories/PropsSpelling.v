(** C77: a backslash that begins no escape, and misspelled names. *)
From Coq Require Import String ZArith List Bool Lia Arith.
From Verif Require Import Base Source WLChar LongNames GenLongNames ByteDecoder CharDecoder Format Decode SpecText SpecReader ReaderProofs Link
  Suggestions SpecSuggestions SuggestionsProofs SuggestionsEscapes Spelling SpecSpelling SpellingProofs SpellingReader SpellingSilent.
Import ListNotations.
Local Open Scope string_scope.
Local Open Scope list_scope.
Local Open Scope Z_scope.

(** A backslash that is read as itself is reported, unless it is at the end of the text, in front of
    malformed text, or begins a number beyond the last character.  The issue is about the backslash
    and the text [t] behind it that was looked at, up to the place [s4] of the reader.  Every
    suggestion helps: after an insertion, the backslash and the text are read as one character; what is
    put instead is the escape of a known name, the text behind an escaped backslash, or a template. *)
Theorem C77_reported : forall o pol input s s', 0 < o_tab_width o -> reachable o input s -> p_scan pol = false -> o_check_issues o = true -> p_issues pol = true ->
  next_wolfram_char o pol s = Ok (wl 92, s') ->
  (exists t r w g s4, rest (cur s) = 92 :: t ++ r /\ reachable o input s4 /\ rest (cur s4) = r /\
     let sp := mkspan (ploc (cur s)) (ploc (cur s4)) in
     bad_escape sp t w /\ about_escape (ploc (cur s)) (ploc (cur s4)) t r w /\ lg s' = addIssue_log (mkissue UnhandledCharacter Fatal sp) g) \/
  exists r, rest (cur s) = 92 :: r /\ silent r.
Proof. intros o pol input s s' Ht Hr Hp Hc Hi H. exact (bad_escape_reported o input Ht pol s s' Hr Hp Hc Hi H). Qed.
Print Assumptions C77_reported.

(** Indeed nothing is recorded about a backslash at the end of the text, or in front of a number beyond
    the last character: the backslash is read, and the log is what it was. *)
Theorem C77_silent : forall o pol input s r, 0 < o_tab_width o -> reachable o input s -> rest (cur s) = 92 :: r ->
  (r = [] \/ exists ds r', r = 124 :: ds ++ r' /\ hex_string 6 ds /\ 0x10ffff < SpecText.number 16 ds) ->
  exists s', next_wolfram_char o pol s = Ok (wl 92, s') /\ lg s' = lg s.
Proof. exact silent_said. Qed.
Print Assumptions C77_silent.

(** Something is offered for each of them, except for a name without its bracket that is not known, a
    name no known one is near to, and a character that is not visible in ASCII. *)
Theorem C77_offered : forall src t w, bad_escape src t w -> wi_actions w = [] -> nothing_to_offer chars t.
Proof. exact offered. Qed.
Print Assumptions C77_offered.

(** The distance of two texts is the least number of edits from the one to the other. *)
Theorem C77_distance : forall a b, edits (edit_distance a b) a b /\ forall n, edits n a b -> (edit_distance a b <= n)%nat.
Proof. intros a b. split; [apply D_reached|]. intros n. apply D_least. Qed.
Print Assumptions C77_distance.

(** For a name that is not known, the nearest of the known names is suggested, and only if it is at
    most two edits away.  If there is any such name there is a suggestion.  What is suggested is read as
    the character of that name; behind a second backslash it is kept as text. *)
Theorem C77_nearest : forall scan name src,
  let w := unknown_issue scan name src in
  wi_src w = SSpan src /\ wi_tag w = (if scan then UnrecognizedLongName else UnhandledCharacter) /\ wi_sev w = (if scan then Error else Fatal) /\
  ((wi_actions w = [] /\ forall n, a_name n -> ~ near (chars name) n) \/
   exists n p label, wi_actions w = [mk_action label (ReplaceText ((if scan then [92] else []) ++ 92 :: 91 :: n ++ [93])) src] /\
     name_of n p /\ near (chars name) n /\ nearest (chars name) n /\ spells (92 :: 91 :: n ++ [93]) p).
Proof. exact unknown_actions. Qed.
Print Assumptions C77_nearest.

(** The bracket of a known name that is not closed is suggested at the end, and nothing else; the label
    shows that very name.  For other names nothing is suggested. *)
Theorem C77_unclosed : forall name src,
  let w := unclosed_issue name src in
  match longname_to_codepoint name with
  | Some p => spells (92 :: 91 :: name ++ [93]) p /\
      wi_actions w = [mk_action (lit "Insert ``]`` to form ``\[" ++ name ++ lit "]``") (InsertText [93]) (mkspan (sp_end src) (sp_end src))]
  | None => wi_actions w = []
  end.
Proof.
  intros name src w. unfold w, unclosed_issue. destruct (longname_to_codepoint name) as [p|] eqn:E; [|reflexivity]. split; [exact (known_spells _ _ E)|].
  cbn [wi_actions syntax_issue]. rewrite (known_suggested _ _ E). unfold insert_bytes, ticked, Span_at. f_equal. f_equal. change (lit "Insert ``]`` to form ``\[") with (lit "Insert ``]`` to form " ++ lit "``" ++ lit "\["). rewrite <- !app_assoc. reflexivity.
Qed.
Print Assumptions C77_unclosed.

(** ** Cases *)
Definition o1 : opts := mkopts ConvLineColumn 4 true false true (fun _ => false).
Definition actions_at (text : string) : option (list span * wlchar) :=
  match next_wolfram_char o1 TOPLEVEL (reader_new o1 (lit text)) with Ok (c, s') => Some (map i_src (l_fatal (lg s')), c) | _ => None end.
(** a name without its bracket, a name with a letter too few, a number that is too short, a letter *)
Example places : map actions_at ["\[Alpha + 1"; "\[Alpa] + 1"; "\:12 + 1"; "\q + 1"; "\Alpha] + 1"; "\|ffffff"; "\"] =
  [Some ([mkspan (LineCol 1 1) (LineCol 1 8)], wl 92); Some ([mkspan (LineCol 1 1) (LineCol 1 8)], wl 92); Some ([mkspan (LineCol 1 1) (LineCol 1 5)], wl 92);
   Some ([mkspan (LineCol 1 1) (LineCol 1 3)], wl 92); Some ([mkspan (LineCol 1 1) (LineCol 1 8)], wl 92); Some ([], wl 92); Some ([], wl 92)].
Proof. vm_compute. reflexivity. Qed.
Example suggested : longNameSuggestion (lit "Alpa") = lit "Alpha" /\ longNameSuggestion (lit "RightArow") = lit "RightArrow" /\ longNameSuggestion (lit "Quadratic") = [] /\
  edit_distance (lit "kitten") (lit "sitting") = 3%nat.
Proof. vm_compute. repeat split. Qed.
(** something is offered for a name without its first bracket, and for a digit too few *)
Example offers : forall src, bad_escape src (lit "Alpha]") (unopened_issue (lit "Alpha") src) /\ bad_escape src (lit ":12") (doubled_issue [58] (lit "12") src) /\
  bad_escape src (lit "[Qqqqqqqqq]") (unknown_issue false (lit "Qqqqqqqqq") src) /\ wi_actions (unknown_issue false (lit "Qqqqqqqqq") src) = [].
Proof.
  intros src. split; [apply (be_unopened src (lit "Alpha") 945); vm_compute; reflexivity|]. split; [apply (be_digits src [58] (lit "12")); left; left; reflexivity|].
  split; [apply (be_unknown src (lit "Qqqqqqqqq")); vm_compute; reflexivity|vm_compute; reflexivity].
Qed.
