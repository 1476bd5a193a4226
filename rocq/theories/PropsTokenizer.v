(** Properties C15-C21, C25, C42, C43: the tokenizer.  Statements only; the proofs are in
    TokResults.v.  Specification: SpecTokenizer.v, SpecReader.v and SpecText.v. *)
From Coq Require Import String ZArith List Bool Lia.
From Verif Require Import Base Source WLChar GenTokenKind LongNames ByteDecoder CharDecoder Tokenizer
  SpecText SpecReader SpecTokenizer PropsReader TokResults.
Import ListNotations.
Local Open Scope Z_scope.

(** Kinds and texts of a token list, for the examples. *)
Definition show (ts : list token) : list (Z * list Z) := map (fun t => (t_kind t, t_text t)) ts.
Definition shown (r : res (list token * st)) : option (list (Z * list Z)) :=
  match r with Ok (ts, _) => Some (show ts) | _ => None end.
Definition text (s : string) : list Z := bytes_of_string s.

(** C15.  However the next tokens are asked for, their texts and what is left make up the
    input, and only an end of file or a missing name is empty. *)
Theorem C15_lossless : forall o input qs ts s', 0 < o_tab_width o -> Forall plain_request qs ->
  ask_all o qs (reader_new o input) = Ok (ts, s') ->
  input = concat (map t_text ts) ++ rest (cur s') /\ length ts = length qs /\
  Forall (fun t => t_text t = [] -> t_kind t = TK_EndOfFile \/ missing_kind (t_kind t)) ts.
Proof. exact (fun o input qs => ask_all_lossless o qs input). Qed.
Print Assumptions C15_lossless.

(** The list of all tokens: followed by the end-of-file token, it makes up the input after
    the script line; a line continuation in front of the end of file belongs to the latter. *)
Theorem C15_lossless_tokenize : forall o b input ts s', 0 < o_tab_width o -> tokenize_raw o b input = Ok (ts, s') ->
  exists script eof s0,
    (b = NotScript -> script = []) /\ peek_token o false s0 = Ok (eof, s') /\ t_kind eof = TK_EndOfFile /\ starts_continuation (t_text eof) /\
    input = concat (map t_text script) ++ concat (map t_text ts) ++ t_text eof /\
    Forall (fun t => t_text t <> [] /\ t_kind t <> TK_EndOfFile) ts.
Proof. exact tokenize_lossless. Qed.
Print Assumptions C15_lossless_tokenize.

Example C15_case : shown (ask_all default_opts [AsToken false TOPLEVEL; AsToken true TOPLEVEL; AsTag; AsToken false TOPLEVEL; AsFile]
    (reader_new default_opts (text "f[::x+ ]"))) =
  Some [(TK_Symbol, text "f"); (TK_OpenSquare, text "["); (TK_Error_ExpectedTag, []); (TK_ColonColon, text "::"); (TK_String, text "x")].
Proof. vm_compute. reflexivity. Qed.
Example C15_case_all : shown (tokenize_raw default_opts Script (text "#!/bin/sh" ++ [10] ++ text "a+1.5`3" ++ [92; 10])) =
  Some [(TK_Symbol, text "a"); (TK_Plus, text "+"); (TK_Real, text "1.5`3")].
Proof. vm_compute. reflexivity. Qed.

(** C16.  The tokens are consecutive groups of the source characters of the input, and the
    span of each is given by the positions of its first character and of the one after its
    last (in particular each starts where the one before ends). *)
Theorem C16_spans : forall o input qs ts s', 0 < o_tab_width o -> Forall plain_request qs ->
  ask_all o qs (reader_new o input) = Ok (ts, s') ->
  exists gs tail, items_of o input (concat gs ++ tail) /\ tiles (o_conv o) (o_tab_width o) [] ts gs.
Proof. exact (fun o input qs => ask_all_tiles o qs input). Qed.
Print Assumptions C16_spans.
Theorem C16_spans_tokenize : forall o b input ts s', 0 < o_tab_width o -> tokenize_raw o b input = Ok (ts, s') ->
  exists before gs tail, items_of o input (before ++ concat gs ++ tail) /\ (b = NotScript -> before = []) /\
    tiles (o_conv o) (o_tab_width o) (chars_of before) ts gs.
Proof. exact tokenize_tiles. Qed.
Print Assumptions C16_spans_tokenize.
Theorem C16_contiguous : forall o input qs ts s', 0 < o_tab_width o -> Forall plain_request qs ->
  ask_all o qs (reader_new o input) = Ok (ts, s') -> follow (position_of (o_conv o) (o_tab_width o) []) ts.
Proof. exact (fun o input qs => ask_all_follow o qs input). Qed.
Print Assumptions C16_contiguous.
Example C16_case : match tokenize_raw default_opts NotScript (text "ab" ++ [13; 10; 9] ++ text "+") with
  | Ok (ts, _) => map t_src ts = [mkspan (LineCol 1 1) (LineCol 1 3); mkspan (LineCol 1 3) (LineCol 2 1);
                                  mkspan (LineCol 2 1) (LineCol 2 5); mkspan (LineCol 2 5) (LineCol 2 6)]
  | _ => False end.
Proof. vm_compute. reflexivity. Qed.

(** C17.  Tokenizing always finishes with a result, unless the text contains an escape of a
    surrogate. *)
Theorem C17_total : forall o b input, 0 < o_tab_width o -> ~ has_surrogate_escape input ->
  exists ts s', tokenize_raw o b input = Ok (ts, s').
Proof. exact tokenize_total. Qed.
Print Assumptions C17_total.
Theorem C17_total_requests : forall o input qs, 0 < o_tab_width o -> Forall plain_request qs -> ~ has_surrogate_escape input ->
  exists ts s', ask_all o qs (reader_new o input) = Ok (ts, s').
Proof. exact (fun o input qs Ht Hq => ask_all_total o qs input Ht Hq). Qed.
Print Assumptions C17_total_requests.
Example C17_case : tokenize_raw default_opts NotScript (text "a" ++ [92] ++ text ":D800") = Panic /\
  shown (tokenize_raw default_opts NotScript (text "a" ++ [92] ++ text ":D700")) <> None.
Proof. split; [vm_compute; reflexivity|vm_compute; discriminate]. Qed.

(** C18.  In every state a client can reach: peeking does not move, peeking again gives the
    same token, and skipping a peeked token moves exactly over its text, to the end of its
    span. *)
Theorem C18_peek_repeatable : forall o input s q t s1, 0 < o_tab_width o -> reached o input s -> plain_request q -> ask o q s = Ok (t, s1) ->
  cur s1 = cur s /\
  (forall u s2, ask o q s1 = Ok (u, s2) -> u = t) /\
  (~ has_surrogate_escape input -> exists s2, ask o q s1 = Ok (t, s2)) /\
  exists s2, skip t s1 = Ok (tt, s2) /\ rest (cur s) = t_text t ++ rest (cur s2) /\
    t_src t = mkspan (ploc (cur s)) (ploc (cur s2)).
Proof. exact peek_again. Qed.
Print Assumptions C18_peek_repeatable.
Example C18_case : exists s t s1, reached default_opts (text "ab+c") s /\ rest (cur s) = text "+c" /\
  ask default_opts (AsToken true TOPLEVEL) s = Ok (t, s1) /\ t_text t = text "+".
Proof.
  destruct (ask default_opts (AsToken false TOPLEVEL) (reader_new default_opts (text "ab+c"))) as [[t0 s0]| |] eqn:E;
    [|vm_compute in E; discriminate|vm_compute in E; discriminate].
  destruct (skip t0 s0) as [[[] s2]| |] eqn:E2; [|discriminate|discriminate].
  destruct (ask default_opts (AsToken true TOPLEVEL) s2) as [[t s3]| |] eqn:E3.
  - exists s2, t, s3. vm_compute in E. injection E as <- <-. vm_compute in E2. injection E2 as <-. vm_compute in E3. injection E3 as <- <-.
    split; [|split; [reflexivity|split; reflexivity]].
    eapply rd_skip with (q := AsToken false TOPLEVEL); [apply rd_new|reflexivity|vm_compute; reflexivity|vm_compute; reflexivity].
  - exfalso. vm_compute in E. injection E as <- <-. vm_compute in E2. injection E2 as <-. vm_compute in E3. discriminate.
  - exfalso. vm_compute in E. injection E as <- <-. vm_compute in E2. injection E2 as <-. vm_compute in E3. discriminate.
Qed.

(** C19 *)
Theorem C19_comments_nest : forall o input s g pol t s1 r, 0 < o_tab_width o -> reached o input s -> p_scan pol = false ->
  rest (cur s) = 40 :: 42 :: r -> ask o (AsToken g pol) s = Ok (t, s1) ->
  match after_comment 1 r with
  | Some r' => t_kind t = TK_Comment /\ rest (cur s) = t_text t ++ r'
  | None => t_kind t = TK_Error_UnterminatedComment /\ rest (cur s) = t_text t
  end.
Proof. exact comment_token. Qed.
Print Assumptions C19_comments_nest.
Example C19_case : after_comment 1 (text " a (* b *) (**) *)x*)") = Some (text "x*)") /\ after_comment 1 (text "(* *)") = None.
Proof. split; reflexivity. Qed.
Example C19_case_tokens : shown (tokenize_raw default_opts NotScript (text "(* a (* b *) (**) *)x(**")) =
  Some [(TK_Comment, text "(* a (* b *) (**) *)"); (TK_Symbol, text "x"); (TK_Error_UnterminatedComment, text "(**")].
Proof. vm_compute. reflexivity. Qed.

(** C20 *)
Theorem C20_string_end : forall o input s g pol t s1 r, 0 < o_tab_width o -> reached o input s -> p_scan pol = false ->
  rest (cur s) = 34 :: r -> ask o (AsToken g pol) s = Ok (t, s1) ->
  match after_string r with
  | Some r' => t_kind t = TK_String /\ rest (cur s) = t_text t ++ r'
  | None => t_kind t = TK_Error_UnterminatedString /\ rest (cur s) = t_text t
  end.
Proof. exact string_token. Qed.
Print Assumptions C20_string_end.
Example C20_case : after_string (text "a" ++ [92; 34] ++ text "b" ++ [92; 92; 34] ++ text "c") = Some (text "c").
Proof. reflexivity. Qed.
Example C20_case_tokens : shown (tokenize_raw default_opts NotScript ([34; 97; 92; 34; 98; 92; 92; 34] ++ text "c" ++ [34; 92; 34])) =
  Some [(TK_String, [34; 97; 92; 34; 98; 92; 92; 34]); (TK_Symbol, text "c"); (TK_Error_UnterminatedString, [34; 92; 34])].
Proof. vm_compute. reflexivity. Qed.

(** C21 *)
Theorem C21_integer : forall o input s g pol t s1 ds e, 0 < o_tab_width o -> reached o input s -> p_scan pol = false ->
  ds <> [] -> Forall digit_byte ds -> ends_number e ->
  rest (cur s) = ds ++ e -> ask o (AsToken g pol) s = Ok (t, s1) -> t_kind t = TK_Integer /\ t_text t = ds.
Proof. exact integer_token. Qed.
Print Assumptions C21_integer.
Example C21_case : Forall digit_byte (text "00120") /\ ends_number (text "+1") /\
  shown (tokenize_raw default_opts NotScript (text "00120+1")) = Some [(TK_Integer, text "00120"); (TK_Plus, text "+"); (TK_Integer, text "1")].
Proof.
  split; [repeat constructor; vm_compute; discriminate|]. split; [|vm_compute; reflexivity].
  right. exists 43, (text "1"). split; [reflexivity|]. split; [unfold digit_byte; lia|]. cbn. lia.
Qed.

(** C25.  The tokens obtained with a first-line behaviour are those of the whole input
    without the script line. *)
Theorem C25_first_line : forall o b input all s1 ts s2, 0 < o_tab_width o ->
  tokenize_raw o NotScript input = Ok (all, s1) -> tokenize_raw o b input = Ok (ts, s2) -> ts = drop_first_line b all.
Proof. exact first_line_drops. Qed.
Print Assumptions C25_first_line.
Example C25_case : shown (tokenize_raw default_opts CheckFirst (text "#! a" ++ [10] ++ text "b")) = Some [(TK_Symbol, text "b")] /\
  shown (tokenize_raw default_opts CheckFirst (text "#a b")) = Some [(TK_Symbol, text "a"); (TK_Whitespace, text " "); (TK_Symbol, text "b")] /\
  shown (tokenize_raw default_opts CheckFirst (text "a")) = Some [(TK_Symbol, text "a")].
Proof. split; [vm_compute; reflexivity|split; vm_compute; reflexivity]. Qed.

(** C42.  Which issues are collected, the encoding mode and the letter table do not change
    the tokens; the source convention and the tab width change only their spans. *)
Theorem C42_same_tokens : forall o1 o2 b input ts1 ts2 s1 s2, 0 < o_tab_width o1 -> same_places o1 o2 ->
  tokenize_raw o1 b input = Ok (ts1, s1) -> tokenize_raw o2 b input = Ok (ts2, s2) -> ts1 = ts2.
Proof. exact tokens_same_places. Qed.
Print Assumptions C42_same_tokens.
Theorem C42_same_lexemes : forall o1 o2 b input ts1 ts2 s1 s2, 0 < o_tab_width o1 -> 0 < o_tab_width o2 ->
  tokenize_raw o1 b input = Ok (ts1, s1) -> tokenize_raw o2 b input = Ok (ts2, s2) -> Forall2 same_lexeme ts1 ts2.
Proof. exact tokens_same_lexemes. Qed.
Print Assumptions C42_same_lexemes.
Theorem C42_same_tokens_requests : forall o1 o2 qs input ts1 ts2 s1 s2, 0 < o_tab_width o1 -> same_places o1 o2 -> Forall plain_request qs ->
  ask_all o1 qs (reader_new o1 input) = Ok (ts1, s1) -> ask_all o2 qs (reader_new o2 input) = Ok (ts2, s2) -> ts1 = ts2.
Proof. exact asks_same_places. Qed.
Print Assumptions C42_same_tokens_requests.
Theorem C42_same_lexemes_requests : forall o1 o2 qs input ts1 ts2 s1 s2, 0 < o_tab_width o1 -> 0 < o_tab_width o2 -> Forall plain_request qs ->
  ask_all o1 qs (reader_new o1 input) = Ok (ts1, s1) -> ask_all o2 qs (reader_new o2 input) = Ok (ts2, s2) -> Forall2 same_lexeme ts1 ts2.
Proof. exact asks_same_lexemes. Qed.
Print Assumptions C42_same_lexemes_requests.
(** ... and neither does the text in front: tokenizing can be resumed anywhere. *)
Theorem C42_suffix : forall o input s qs ts1 ts2 s1 s2, 0 < o_tab_width o -> reached o input s -> Forall plain_request qs ->
  ask_all o qs s = Ok (ts1, s1) -> ask_all o qs (reader_new o (rest (cur s))) = Ok (ts2, s2) -> Forall2 same_lexeme ts1 ts2.
Proof. exact suffix_same_lexemes. Qed.
Print Assumptions C42_suffix.
Definition other_opts := mkopts ConvCharacterIndex 8 false false false (fun _ => true).
Example C42_case : tokenize_raw default_opts NotScript (text "ab +c") <> tokenize_raw other_opts NotScript (text "ab +c") /\
  shown (tokenize_raw default_opts NotScript (text "ab +c")) = shown (tokenize_raw other_opts NotScript (text "ab +c")).
Proof. split; [vm_compute; discriminate|vm_compute; reflexivity]. Qed.

(** C43.  The token iterator yields the tokens of [tokenize]. *)
Theorem C43_iterator : forall o input ts s', 0 < o_tab_width o -> ~ has_surrogate_escape input ->
  tokenize_raw o NotScript input = Ok (ts, s') -> exists s2, with_fuel (next_tokens_loop o) (reader_new o input) = Ok (ts, s2).
Proof. exact iterator_same. Qed.
Print Assumptions C43_iterator.
Example C43_case : shown (with_fuel (next_tokens_loop default_opts) (reader_new default_opts (text "a b"))) =
  Some [(TK_Symbol, text "a"); (TK_Whitespace, text " "); (TK_Symbol, text "b")].
Proof. vm_compute. reflexivity. Qed.
