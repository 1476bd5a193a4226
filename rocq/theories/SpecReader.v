(** Independent specification of reading character by character, of escapes and of the
    recording of issues. *)
From Coq Require Import ZArith List Bool.
From Verif Require Import Base Source WLChar LongNames SpecText ByteDecoder CharDecoder.
Import ListNotations.
Local Open Scope Z_scope.

(** [reads_all m eof s items s']: running [m] again and again from [s] returns the first
    components of [items], each consuming the non-empty piece of input in its second
    component, and then reports the end of file, with no input left, in [s']. *)
Inductive reads_all {A} (m : M A) (eof : A -> Prop) : st -> list (A * list Z) -> st -> Prop :=
| ra_eof : forall s a s', m s = Ok (a, s') -> eof a -> rest (cur s) = [] -> rest (cur s') = [] ->
    reads_all m eof s [] s'
| ra_char : forall s a p s1 l s', m s = Ok (a, s1) -> ~ eof a -> p <> [] -> rest (cur s) = p ++ rest (cur s1) ->
    reads_all m eof s1 l s' -> reads_all m eof s ((a, p) :: l) s'.

(** Run [m] exactly [n] times. *)
Fixpoint read_n {A} (n : nat) (m : M A) : M (list A) :=
  match n with
  | O => ret []
  | S k => a <- m ;; l <- read_n k m ;; ret (a :: l)
  end.

(** Strict order of positions: line first, then column. *)
Definition before (a b : loc) : Prop :=
  match a, b with
  | LineCol l c, LineCol l' c' => l < l' \/ (l = l' /\ c < c')
  | CharIdx i, CharIdx j => i < j
  | _, _ => False
  end.

(** The position of the end of a text. *)
Definition position_of (conv : convention) (tw : Z) (cs : list Z) : loc :=
  match conv with
  | ConvLineColumn => LineCol (line_of cs) (column_of tw cs)
  | ConvCharacterIndex => CharIdx (index_of cs)
  end.

(** ** Escapes *)

(** One-character escapes: the byte after the backslash and the character meant. *)
Definition single_escapes : list (Z * Z) :=
  [ (34, StringMeta_DoubleQuote); (92, StringMeta_Backslash); (60, StringMeta_Open); (62, StringMeta_Close);
    (98, StringMeta_Backspace); (102, StringMeta_FormFeed); (110, StringMeta_LineFeed);
    (114, StringMeta_CarriageReturn); (116, StringMeta_Tab); (10, LineContinuation_LineFeed);
    (33, LS_BANG); (37, LS_PERCENT); (38, LS_AMP); (40, LS_OPENPAREN); (41, LS_CLOSEPAREN); (42, LS_STAR);
    (43, LS_PLUS); (47, LS_SLASH); (64, LS_AT); (94, LS_CARET); (95, LS_UNDER); (96, LS_BACKTICK);
    (32, LinearSyntax_Space) ].

Definition hex_string (n : nat) (ds : list Z) : Prop :=
  length ds = n /\ Forall (fun d => is_hex_digit d = true) ds.
Definition octal_string (n : nat) (ds : list Z) : Prop :=
  length ds = n /\ Forall (fun d => is_octal_digit d = true) ds.

(** A quote or backslash spelled by number is the escaped quote or backslash. *)
Definition meaning (v : Z) : Z :=
  if v =? 34 then StringMeta_DoubleQuote else if v =? 92 then StringMeta_Backslash else v.

(** [escape_spec bs c r]: the bytes [bs] after a backslash start with a recognised
    escape that denotes [c]; [r] are the bytes after it. *)
Inductive escape_spec : list Z -> wlchar -> list Z -> Prop :=
| es_single : forall b p r, In (b, p) single_escapes -> escape_spec (b :: r) (mkwl p ESingle) r
| es_crlf : forall r, escape_spec (13 :: 10 :: r) (mkwl LineContinuation_CRLF ESingle) r
| es_cr : forall r, hd 0 r <> 10 -> escape_spec (13 :: r) (mkwl LineContinuation_CarriageReturn ESingle) r
| es_name : forall name p r, In (name, p) LN_TABLE ->
    escape_spec (91 :: name ++ 93 :: r) (mkwl p (if in_dec (list_eq_dec Z.eq_dec) name RAW_TABLE then ERaw else ELongName)) r
| es_hex2 : forall ds r, hex_string 2 ds -> escape_spec (46 :: ds ++ r) (mkwl (meaning (number 16 ds)) EHex2) r
| es_hex4 : forall ds r, hex_string 4 ds -> scalar (number 16 ds) ->
    escape_spec (58 :: ds ++ r) (mkwl (meaning (number 16 ds)) EHex4) r
| es_hex6 : forall ds r, hex_string 6 ds -> scalar (number 16 ds) ->
    escape_spec (124 :: ds ++ r) (mkwl (meaning (number 16 ds)) EHex6) r
| es_octal : forall ds r, octal_string 3 ds -> escape_spec (ds ++ r) (mkwl (meaning (number 8 ds)) EOctal) r.

(** Printing a number with [n] digits. *)
Definition digit_char (d : Z) : Z := if d <? 10 then 48 + d else 55 + d.
Fixpoint print_digits (base : Z) (n : nat) (v : Z) : list Z :=
  match n with
  | O => []
  | S k => print_digits base k (v / base) ++ [digit_char (v mod base)]
  end.

(** ** Issues *)

(** Report a sequence of issues. *)
Definition report_all (is : list issue) : logs := fold_left (fun l i => addIssue_log i l) is logs0.

(** Keep the first occurrence of every element. *)
Fixpoint first_occurrences (seen is : list issue) : list issue :=
  match is with
  | [] => []
  | i :: r => if in_dec issue_eq_dec i seen then first_occurrences seen r
              else i :: first_occurrences (i :: seen) r
  end.

Definition is_fatal (i : issue) : bool := match i_sev i with Fatal => true | _ => false end.

(** ** Reachable reader states *)

(** States of a reader over [input] after any sequence of reads and peeks of source and
    Wolfram characters.  The policies are those without the internal
    SCAN_FOR_UNRECOGNIZEDLONGNAMES bit, which no caller of the reader sets. *)
Inductive reachable (o : opts) (input : list Z) : st -> Prop :=
| rc_new : reachable o input (reader_new o input)
| rc_next_src : forall pol s c s', reachable o input s -> next_source_char o pol s = Ok (c, s') -> reachable o input s'
| rc_peek_src : forall pol s c s', reachable o input s -> peek_source_char o pol s = Ok (c, s') -> reachable o input s'
| rc_next_wl : forall pol s c s', reachable o input s -> p_scan pol = false ->
    next_wolfram_char o pol s = Ok (c, s') -> reachable o input s'
| rc_peek_wl : forall pol s c s', reachable o input s -> p_scan pol = false ->
    peek_wolfram_char o pol s = Ok (c, s') -> reachable o input s'.
