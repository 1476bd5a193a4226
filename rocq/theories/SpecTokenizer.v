(** Independent specification of what a sequence of tokens has to do with the input. *)
From Coq Require Import ZArith List Bool.
From Verif Require Import Base Source WLChar SpecText SpecReader GenTokenKind ByteDecoder CharDecoder Tokenizer.
Import ListNotations.
Local Open Scope Z_scope.

(** The ways in which the tokenizer is asked for the next token: with the group stack
    empty or not and with one of the policies, or as the name after [::], or as the file
    name after [<<], [>>] and [>>>]. *)
Inductive request := AsToken (inside_group : bool) (pol : policy) | AsTag | AsFile.

Definition ask (o : opts) (q : request) : M token :=
  match q with
  | AsToken g pol => peek_token_with o g pol
  | AsTag => peek_token_as_tag o
  | AsFile => peek_token_as_file o
  end.

(** the internal SCAN_FOR_UNRECOGNIZEDLONGNAMES bit is not part of any policy a caller uses *)
Definition plain_request (q : request) : Prop :=
  match q with AsToken _ pol => p_scan pol = false | _ => True end.

(** Ask for one token after the other, skipping each. *)
Fixpoint ask_all (o : opts) (qs : list request) : M (list token) :=
  match qs with
  | [] => ret []
  | q :: qs' => t <- ask o q ;; skip t ;; ts <- ask_all o qs' ;; ret (t :: ts)
  end.

(** A source character with the bytes it was read from. *)
Definition item := (Z * list Z)%type.
Definition bytes_of (g : list item) : list Z := concat (map snd g).
Definition chars_of (g : list item) : list Z := map fst g.

(** The source characters of an input, each with its bytes. *)
Definition items_of (o : opts) (input : list Z) (items : list item) : Prop :=
  exists s', reads_all (next_source_char o TOPLEVEL) (fun c => c = EndOfFile) (reader_new o input) items s'.

(** [token_is conv tw before t g]: the token [t] is the text of the source characters [g]
    found after the source characters [before]. *)
Definition token_is (conv : convention) (tw : Z) (before : list Z) (t : token) (g : list item) : Prop :=
  t_text t = bytes_of g /\
  t_src t = mkspan (position_of conv tw before) (position_of conv tw (before ++ chars_of g)).

(** The tokens [ts] are the texts of the consecutive groups [gs] of source characters. *)
Fixpoint tiles (conv : convention) (tw : Z) (before : list Z) (ts : list token) (gs : list (list item)) : Prop :=
  match ts, gs with
  | [], [] => True
  | t :: ts', g :: gs' => token_is conv tw before t g /\ tiles conv tw (before ++ chars_of g) ts' gs'
  | _, _ => False
  end.

(** A text that is empty or starts with a line continuation. *)
Definition starts_continuation (bs : list Z) : Prop :=
  bs = [] \/ exists b r, bs = 92 :: b :: r /\ (b = 10 \/ b = 13).

(** the kinds of the empty tokens that stand for a missing name *)
Definition missing_kind (k : Z) : Prop := k = TK_Error_ExpectedTag \/ k = TK_Error_ExpectedFile.

(** The tokenizer states a client can reach on an input: by peeking, by skipping a peeked
    token and by taking the next token. *)
Inductive reached (o : opts) (input : list Z) : st -> Prop :=
| rd_new : reached o input (reader_new o input)
| rd_peek : forall q s t s', reached o input s -> plain_request q -> ask o q s = Ok (t, s') -> reached o input s'
| rd_skip : forall q s t s' s'', reached o input s -> plain_request q -> ask o q s = Ok (t, s') ->
    skip t s' = Ok (tt, s'') -> reached o input s''
| rd_next : forall s t s', reached o input s -> next_token o s = Ok (t, s') -> reached o input s'.

(** Same kind and same text. *)
Definition same_lexeme (t u : token) : Prop := t_kind t = t_kind u /\ t_text t = t_text u.

(** Options that agree on where things are. *)
Definition same_places (o1 o2 : opts) : Prop := o_conv o1 = o_conv o2 /\ o_tab_width o1 = o_tab_width o2.

(** What is left after the end of a comment: [bs] is the text after [depth] unmatched
    comment openers. *)
Fixpoint after_comment (depth : nat) (bs : list Z) : option (list Z) :=
  match bs with
  | a :: ((b :: r') as r) =>
      if (a =? 40) && (b =? 42) then after_comment (S depth) r'
      else if (a =? 42) && (b =? 41) then
        match depth with
        | S (S d) => after_comment (S d) r'
        | _ => Some r'
        end
      else after_comment depth r
  | _ => None
  end.

(** What is left after the first double quote that is not preceded by an (unescaped)
    backslash. *)
Fixpoint after_string (bs : list Z) : option (list Z) :=
  match bs with
  | a :: r =>
      if a =? 34 then Some r
      else if a =? 92 then match r with _ :: r' => after_string r' | [] => None end
      else after_string r
  | [] => None
  end.

Definition digit_byte (b : Z) : Prop := 48 <= b <= 57.

(** The end of the input, or a byte that cannot continue a number: neither a digit nor
    [.], [^], [*], a backquote or a backslash. *)
Definition ends_number (e : list Z) : Prop :=
  e = [] \/ exists b r, e = b :: r /\ ~ digit_byte b /\ ~ In b [46; 94; 42; 96; 92].

(** The spans of the tokens follow one another without gap or overlap, from [l] on, and
    none runs backwards. *)
Fixpoint follow (l : loc) (ts : list token) : Prop :=
  match ts with
  | [] => True
  | t :: r => sp_start (t_src t) = l /\ loc_leb l (sp_end (t_src t)) = Some true /\ follow (sp_end (t_src t)) r
  end.

(** The tokens after the first newline. *)
Fixpoint after_newline (ts : list token) : list token :=
  match ts with
  | [] => []
  | t :: r => if t_kind t =? TK_ToplevelNewline then r else after_newline r
  end.

(** What the first-line behaviour leaves of the tokens of an input: without the leading
    [#] or without everything from a leading [#!] to the end of the first line. *)
Definition drop_first_line (b : first_line) (ts : list token) : list token :=
  match b, ts with
  | NotScript, _ => ts
  | _, h :: r =>
      if t_kind h =? TK_Hash then
        match r with
        | e :: r' => if t_kind e =? TK_Bang then after_newline r' else r
        | [] => []
        end
      else ts
  | _, [] => []
  end.
