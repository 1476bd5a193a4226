(** Independent specification of text encoding and text positions. *)
From Coq Require Import ZArith List Bool.
Import ListNotations.
Local Open Scope Z_scope.

(** ** Unicode *)

(** Unicode scalar value: 0..10FFFF without surrogates. *)
Definition scalar (c : Z) : Prop := 0 <= c <= 0xD7FF \/ 0xE000 <= c <= 0x10FFFF.

(** UTF-8 encoding of a scalar value (Unicode Table 3-6). *)
Definition utf8 (c : Z) : list Z :=
  if c <? 0x80 then [c]
  else if c <? 0x800 then [0xC0 + c / 64; 0x80 + c mod 64]
  else if c <? 0x10000 then [0xE0 + c / 4096; 0x80 + (c / 64) mod 64; 0x80 + c mod 64]
  else [0xF0 + c / 262144; 0x80 + (c / 4096) mod 64; 0x80 + (c / 64) mod 64; 0x80 + c mod 64].

Definition encode (cs : list Z) : list Z := concat (map utf8 cs).

(** The bytes are the encoding of some text. *)
Definition well_formed (bs : list Z) : Prop :=
  exists cs, Forall scalar cs /\ bs = encode cs.

Definition BOM_CHAR : Z := 0xFEFF.

(** ... of some text without a byte-order mark / zero-width no-break space. *)
Definition well_formed_no_bom (bs : list Z) : Prop :=
  exists cs, Forall scalar cs /\ ~ In BOM_CHAR cs /\ bs = encode cs.

(** The library's code for "CR LF read as one character". *)
Definition CRLF_CHAR : Z := -13.

(** Replace every CR LF pair by one [CRLF_CHAR]. *)
Fixpoint fold_crlf (cs : list Z) : list Z :=
  match cs with
  | [] => []
  | c :: r =>
      if c =? 13 then
        match r with
        | d :: r' => if d =? 10 then CRLF_CHAR :: fold_crlf r' else c :: fold_crlf r
        | [] => [c]
        end
      else c :: fold_crlf r
  end.

(** ** Positions: line and column of the end of a text, given as source characters *)

Definition is_line_end (c : Z) : bool := (c =? 10) || (c =? 13) || (c =? CRLF_CHAR).

(** 1 + number of line endings *)
Definition line_of (cs : list Z) : Z := 1 + Z.of_nat (length (filter is_line_end cs)).

(** The characters after the last line ending. *)
Fixpoint last_line (cs : list Z) : list Z :=
  match cs with
  | [] => []
  | c :: r => if existsb is_line_end r then last_line r
              else if is_line_end c then r else c :: r
  end.

(** Column after walking a line from column [col]: a tab goes to the next tab stop
    (the stops are columns 1, 1 + tw, 1 + 2 tw, ...), anything else takes one column. *)
Definition next_tab_stop (tw col : Z) : Z := 1 + tw * ((col - 1) / tw + 1).
Fixpoint walk (tw col : Z) (line : list Z) : Z :=
  match line with
  | [] => col
  | c :: r => walk tw (if c =? 9 then next_tab_stop tw col else col + 1) r
  end.

Definition column_of (tw : Z) (cs : list Z) : Z := walk tw 1 (last_line cs).

(** Character-index convention: 1 + number of characters, CR LF counting as two. *)
Fixpoint index_of (cs : list Z) : Z :=
  match cs with
  | [] => 1
  | c :: r => (if c =? CRLF_CHAR then 2 else 1) + index_of r
  end.

(** ** Numeric escapes *)

Definition is_hex_digit (b : Z) : bool :=
  ((48 <=? b) && (b <=? 57)) || ((65 <=? b) && (b <=? 70)) || ((97 <=? b) && (b <=? 102)).
Definition is_octal_digit (b : Z) : bool := (48 <=? b) && (b <=? 55).

Definition digit_val (b : Z) : Z :=
  if b <=? 57 then b - 48 else if b <=? 70 then b - 55 else b - 87.

(** The number spelled by digits, most significant first. *)
Definition number (base : Z) (ds : list Z) : Z :=
  fold_left (fun a d => a * base + digit_val d) ds 0.

(** The input starts with a backslash, colon, 4 hex digits (or backslash, bar, 6 hex digits) spelling a
    surrogate code point. *)
Definition surrogate_escape (bs : list Z) : Prop :=
  exists ds r, Forall (fun d => is_hex_digit d = true) ds /\
    ((bs = 92 :: 58 :: ds ++ r /\ length ds = 4%nat) \/ (bs = 92 :: 124 :: ds ++ r /\ length ds = 6%nat)) /\
    0xD800 <= number 16 ds <= 0xDFFF.

(** ... somewhere in the input. *)
Definition has_surrogate_escape (bs : list Z) : Prop :=
  exists pre suf, bs = pre ++ suf /\ surrogate_escape suf.
