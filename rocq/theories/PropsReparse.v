(** C28: unterminated comments and strings in [tokenize] and [tokenize_bytes]. *)
From Coq Require Import ZArith List Bool.
From Verif Require Import Base Source GenTokenKind Tokenizer SpecText SpecMisc SpecReader SpecTokenizer TokenKind ErrorReparse SpecReparse ReparseTheorems.
Import ListNotations.
Local Open Scope Z_scope.

(** Without an unterminated token the tokens are those the tokenizer found. *)
Theorem C28_terminated : forall o b input ts s',
  0 < o_tab_width o -> well_formed_no_bom input -> tokenize_raw o b input = Ok (ts, s') ->
  Forall (fun t => ~ unterminated_kind (t_kind t)) ts -> tokenize_bytes o b input = Ok (TOk ts).
Proof. exact reparse_none. Qed.
Print Assumptions C28_terminated.

(** Input that is not well-formed UTF-8, or contains a byte order mark, is an error. *)
Theorem C28_malformed : forall o b input ts s',
  0 < o_tab_width o -> tokenize_raw o b input = Ok (ts, s') -> ~ well_formed_no_bom input ->
  exists e, tokenize_bytes o b input = Ok (TErr e).
Proof. exact reparse_malformed. Qed.
Print Assumptions C28_malformed.

(** Otherwise the unterminated token is the last, and it is cut; or, if the lines up to the
    next statement are all empty but for the first, the program aborts.  Its kind and start
    are kept, and so are all the tokens before it. *)
Theorem C28_cut : forall o b input ts s' pre t ls,
  o_conv o = ConvLineColumn -> 0 < o_tab_width o -> well_formed_no_bom input -> ~ has_surrogate_escape input ->
  tokenize_raw o b input = Ok (ts, s') -> ts = pre ++ [t] -> unterminated_kind (t_kind t) -> lines_of (t_text t) ls ->
  exists r, cut (statement_line (options_default o)) ls r /\
  match r with
  | None => tokenize_bytes o b input = Panic
  | Some (kept, reported) => exists t', tokenize_bytes o b input = Ok (TOk (pre ++ [t'])) /\
      t_kind t' = t_kind t /\ t_text t' = kept /\ t_start t' = t_start t /\ sp_start (t_src t') = sp_start (t_src t) /\
      forall w cs, input = w ++ t_text t -> Forall scalar cs -> ~ In BOM_CHAR cs -> encode cs = w ++ reported ->
        sp_end (t_src t') = position_of (o_conv o) (o_tab_width o) (fold_crlf cs)
  end.
Proof. exact reparse_bytes. Qed.
Print Assumptions C28_cut.

Theorem C28_last : forall o b input ts s' pre t post,
  0 < o_tab_width o -> tokenize_raw o b input = Ok (ts, s') -> ts = pre ++ t :: post -> unterminated_kind (t_kind t) -> post = [].
Proof. exact unterminated_last. Qed.
Print Assumptions C28_last.

Theorem C28_cut_unique : forall P ls r r', cut P ls r -> cut P ls r' -> r = r'.
Proof. exact cut_unique. Qed.
Print Assumptions C28_cut_unique.

(** What is kept, and what is reported, is the beginning of the token. *)
Theorem C28_prefix : forall P ls kept reported, cut P ls (Some (kept, reported)) ->
  (exists e, joined ls = kept ++ e) /\ exists e, joined ls = reported ++ e.
Proof. exact cut_prefix. Qed.
Print Assumptions C28_prefix.

(** A text of one line is never cut, so asking whether a line starts a statement asks no
    such question again. *)
Theorem C28_one_line : forall k o b input,
  o_conv o = ConvLineColumn -> 0 < o_tab_width o -> well_formed_no_bom input -> ~ has_surrogate_escape input -> no_break input ->
  exists ts s', tokenize_raw o b input = Ok (ts, s') /\ tokenize_bytes_n (S k) o b input = Ok (TOk ts).
Proof. exact one_line. Qed.
Print Assumptions C28_one_line.

(** With character positions the program may abort although there is just one line. *)
Theorem C28_character_index_refuted : exists o b input ts s',
  o_conv o = ConvCharacterIndex /\ 0 < o_tab_width o /\ well_formed_no_bom input /\ ~ has_surrogate_escape input /\ no_break input /\
  tokenize_raw o b input = Ok (ts, s') /\ tokenize_bytes o b input = Panic.
Proof. exact character_index_aborts. Qed.
Print Assumptions C28_character_index_refuted.

(** ** Cases *)
Definition o28 : opts := mkopts ConvLineColumn 4 true true true (fun _ => false).

(** a string never closed, followed by a definition: the second line of three is reported
    but not kept.  The lines are: quote a; space b; f[x_] := 1. *)
Example C28_case_statement :
  tokenize_bytes o28 NotScript [34; 97; 10; 32; 98; 10; 102; 91; 120; 95; 93; 32; 58; 61; 32; 49] =
  Ok (TOk [mktok TK_Error_UnterminatedString [34; 97; 10; 32; 98; 10; 102; 91; 120; 95; 93; 32; 58; 61; 32; 49] [34; 97]
             (mkspan (LineCol 1 1) (LineCol 2 3))]).
Proof. vm_compute. reflexivity. Qed.
Example C28_case_lines : lines_of [34; 97; 10; 32; 98; 10; 120; 61; 49] [([34; 97], [10]); ([32; 98], [10]); ([120; 61; 49], [])].
Proof.
  change [34; 97; 10; 32; 98; 10; 120; 61; 49] with ([34; 97] ++ [10] ++ [32; 98] ++ [10] ++ [120; 61; 49]).
  assert (N : forall l, forallb (fun x => negb ((x =? 10) || (x =? 13))) l = true -> no_break l).
  { intros l H. rewrite forallb_forall in H. split; intros I; apply H in I; discriminate. }
  repeat (constructor; try (apply N; reflexivity); try (left; reflexivity); try discriminate).
Qed.
(** the third line starts a statement *)
Example C28_case_line : statement_line (options_default o28) [120; 61; 49].
Proof.
  destruct (tokenize_raw (options_default o28) NotScript [120; 61; 49]) as [[ts s]| |] eqn:E; [|exfalso; revert E; vm_compute; discriminate|exfalso; revert E; vm_compute; discriminate].
  exists ts, s, ts. split; [exact E|]. assert (Et : map t_kind ts = [TK_Symbol; TK_Equal; TK_Integer]).
  { apply (f_equal (fun r => match r with Ok (l, _) => map t_kind l | _ => [] end)) in E. rewrite <- E. vm_compute. reflexivity. }
  clear E. destruct ts as [|t1 [|t2 [|t3 [|]]]]; try discriminate. injection Et as E1 E2 E3. split.
  - assert (H : forall t, t_kind t = TK_Symbol \/ t_kind t = TK_Equal \/ t_kind t = TK_Integer -> looked_at t).
    { intros t K. right. left. unfold trivia_kind. destruct K as [->|[->| ->]]; intros [X|[X|[X|X]]]; discriminate. }
    repeat (apply only_keep; [apply H; auto|]). apply only_nil.
  - apply begins_set; auto. left. auto.
Qed.
Example C28_case_cut : tokenize_bytes o28 NotScript [34; 97; 10; 32; 98; 10; 120; 61; 49] =
  Ok (TOk [mktok TK_Error_UnterminatedString [34; 97; 10; 32; 98; 10; 120; 61; 49] [34; 97] (mkspan (LineCol 1 1) (LineCol 2 3))]).
Proof. vm_compute. reflexivity. Qed.
(** the first line followed by an empty line *)
Example C28_case_abort : tokenize_bytes o28 NotScript [40; 42; 10; 10] = Panic.
Proof. vm_compute. reflexivity. Qed.
(** a heading comment (its text is :T:) starts a statement *)
Example C28_case_heading :
  tokenize_bytes o28 NotScript [40; 42; 32; 97; 10; 40; 42; 32; 58; 84; 58; 32; 42; 41] =
  Ok (TOk [mktok TK_Error_UnterminatedComment [40; 42; 32; 97; 10; 40; 42; 32; 58; 84; 58; 32; 42; 41] [40; 42; 32; 97] (mkspan (LineCol 1 1) (LineCol 1 5))]).
Proof. vm_compute. reflexivity. Qed.
