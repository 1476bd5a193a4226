(** Property C50: tags and file names.  Statements only; the proofs are in LexFiles.v.
    Specification: SpecFiles.v, SpecLex.v and SpecTokenizer.v. *)
From Coq Require Import String ZArith List Bool Lia.
From Verif Require Import Base Source WLChar GenTokenKind GenLongNames LongNames ByteDecoder CharDecoder Tokenizer
  SpecText SpecReader SpecTokenizer SpecLex SpecFiles PropsReader PropsTokenizer PropsLex LexFiles.
Import ListNotations.
Local Open Scope Z_scope.

(** C50.  Where a file name is wanted, the longest text made of file-name characters and
    balanced brackets is one; if brackets are still open at a blank or at the end, the text
    up to there is the error token; if nothing can be a file name, the error token is empty. *)
Theorem C50_file : forall o input s t s1, 0 < o_tab_width o -> reached o input s -> ask o AsFile s = Ok (t, s1) ->
  forall w e, file_text w 0 -> ends_file e -> rest (cur s) = w ++ e -> t_kind t = TK_String /\ t_text t = w.
Proof. exact file_token. Qed.
Print Assumptions C50_file.

Theorem C50_open_brackets : forall o input s t s1, 0 < o_tab_width o -> reached o input s -> ask o AsFile s = Ok (t, s1) ->
  forall w d e, file_text w (S d) -> e = [] \/ starts_blank e -> rest (cur s) = w ++ e -> t_kind t = TK_Error_UnterminatedFileString /\ t_text t = w.
Proof. exact open_file_token. Qed.
Print Assumptions C50_open_brackets.

Theorem C50_no_file : forall o input s t s1, 0 < o_tab_width o -> reached o input s -> ask o AsFile s = Ok (t, s1) ->
  no_file (rest (cur s)) -> t_kind t = TK_Error_ExpectedFile /\ t_text t = [].
Proof. exact no_file_token. Qed.
Print Assumptions C50_no_file.

(** Blanks and line breaks in front of a file name are tokens of their own. *)
Theorem C50_file_blank : forall o input s t s1, 0 < o_tab_width o -> reached o input s -> ask o AsFile s = Ok (t, s1) ->
  forall b e, b = 32 \/ b = 9 -> rest (cur s) = b :: e -> t_kind t = TK_Whitespace /\ t_text t = [b].
Proof. exact file_blank_token. Qed.
Print Assumptions C50_file_blank.

Theorem C50_file_line_break : forall o input s t s1, 0 < o_tab_width o -> reached o input s -> ask o AsFile s = Ok (t, s1) ->
  forall w e, line_break w e -> rest (cur s) = w ++ e -> t_kind t = TK_ToplevelNewline /\ t_text t = w.
Proof. exact file_break_token. Qed.
Print Assumptions C50_file_line_break.

(** A tag is a name; in front of anything else the error token is empty. *)
Theorem C50_tag : forall o input s t s1, 0 < o_tab_width o -> reached o input s -> ask o AsTag s = Ok (t, s1) ->
  forall w e, name w -> ends_name e -> rest (cur s) = w ++ e -> t_kind t = TK_String /\ t_text t = w.
Proof. exact tag_token. Qed.
Print Assumptions C50_tag.

Theorem C50_no_tag : forall o input s t s1, 0 < o_tab_width o -> reached o input s -> ask o AsTag s = Ok (t, s1) ->
  no_letter (rest (cur s)) -> ~ starts_with (eq 34) (rest (cur s)) -> t_kind t = TK_Error_ExpectedTag /\ t_text t = [].
Proof. exact no_tag_token. Qed.
Print Assumptions C50_no_tag.

(** Both may be quoted: then they are strings. *)
Theorem C50_quoted : forall o input s t s1, 0 < o_tab_width o -> reached o input s ->
  forall r, ask o AsTag s = Ok (t, s1) \/ ask o AsFile s = Ok (t, s1) -> rest (cur s) = 34 :: r ->
  match after_string r with
  | Some r' => t_kind t = TK_String /\ rest (cur s) = t_text t ++ r'
  | None => t_kind t = TK_Error_UnterminatedString /\ rest (cur s) = t_text t
  end.
Proof. exact quoted_token. Qed.
Print Assumptions C50_quoted.

(** [$a/b1[x[+]]] in front of a semicolon, and [a[b[] in front of a blank *)
Lemma fb : forall c r, file_byte c -> forall d, file_part 0 r d -> file_part 0 (c :: r) d. Proof. intros. apply fp_byte; auto. Qed.
Ltac byte := apply fp_byte; [unfold file_byte, digit_byte; cbn; lia|].
Ltac inside p := apply (fp_inside _ p); [unfold scalar; lia|unfold BOM_CHAR; lia| |lia|lia|].
Lemma not_named : forall p, existsb (fun e => if snd e =? p then existsb (zlist_eqb (fst e)) (blank_names ++ line_break_names) else false) LN_TABLE = false -> ~ (9 <= p <= 13) -> p <> 32 -> ~ blank p.
Proof.
  intros p H N1 N2 [X|[X|(n & Hn & X)]]; auto. rewrite <- not_true_iff_false in H. apply H. apply existsb_exists. exists (n, p). split; auto. cbn [fst snd]. rewrite Z.eqb_refl.
  apply existsb_exists. exists n. split; [apply in_or_app; exact X|apply zlist_eqb_eq; reflexivity].
Qed.
Example C50_hypotheses : file_text (text "$a/b1[x[+]]") 0 /\ ends_file (text ";") /\ file_text (text "a[b[") 2 /\ starts_blank (text " ]]") /\ no_file (text ";") /\
  no_file (utf8 0xE9) /\ ends_file [] /\ starts_blank (utf8 0xA0).
Proof.
  split.
  { right. exists (text "a/b1[x[+]]"). split; [reflexivity|]. byte. byte. byte. byte. apply fp_open. inside 120; [apply not_named; [vm_compute; reflexivity|lia|lia]|].
    apply fp_open. inside 43; [apply not_named; [vm_compute; reflexivity|lia|lia]|]. apply fp_close, fp_close, fp_nil. }
  split; [intros (b & r & E & H); injection E as <- _; unfold file_byte, digit_byte in H; cbn in H; lia|].
  split. { left. split; [discriminate|]. byte. apply fp_open. inside 98; [apply not_named; [vm_compute; reflexivity|lia|lia]|]. apply fp_open, fp_nil. }
  split; [exists 32, (text "]]"); repeat split; [unfold scalar; lia|right; left; reflexivity]|].
  split; [intros (b & r & E & H); injection E as <- _; unfold file_byte, digit_byte in H; cbn in H; lia|].
  split; [intros (b & r & E & H); injection E as <- _; unfold file_byte, digit_byte in H; cbn in H; lia|].
  split; [intros (b & r & E & _); discriminate|].
  exists 0xA0, []. split; [reflexivity|]. split; [unfold scalar; lia|]. right. right. exists (text "NonBreakingSpace"). split; [apply in_names; vm_compute; reflexivity|].
  left. left. reflexivity.
Qed.
Definition as_file (i : string) := match ask default_opts AsFile (reader_new default_opts (text i)) with Ok (t, _) => Some (t_kind t, t_text t) | _ => None end.
Definition as_tag (i : string) := match ask default_opts AsTag (reader_new default_opts (text i)) with Ok (t, _) => Some (t_kind t, t_text t) | _ => None end.
Example C50_case : map as_file ["$a/b1[x[+]];"; "a[b[ ]]"; ";"; " a"; "a$b"; "a]b"]%string =
    [Some (TK_String, text "$a/b1[x[+]]"); Some (TK_Error_UnterminatedFileString, text "a[b["); Some (TK_Error_ExpectedFile, []); Some (TK_Whitespace, text " ");
     Some (TK_String, text "a"); Some (TK_String, text "a")] /\
  map as_tag ["a1::b"; "1"; "\[Alpha]x+"; " a"]%string =
    [Some (TK_String, text "a1"); Some (TK_Error_ExpectedTag, []); Some (TK_String, text "\[Alpha]x"); Some (TK_Error_ExpectedTag, [])].
Proof. vm_compute. auto. Qed.
