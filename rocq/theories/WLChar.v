(** Code points and Wolfram characters: read/code_point.rs, read/wl_character.rs,
    the character predicates of source.rs 1203-1276 and utils.rs 13-234. *)
From Coq Require Import ZArith List Bool.
From Verif Require Import Base Source LongNames GenLongNames.
Import ListNotations.
Local Open Scope Z_scope.

(** code_point.rs 127-164 [as_i32]: the special code points. *)
Definition EndOfFile : Z := -1.
Definition LinearSyntax_Space : Z := -3.
Definition StringMeta_Open : Z := -4.
Definition StringMeta_Close : Z := -5.
Definition StringMeta_DoubleQuote : Z := -6.
Definition StringMeta_Backslash : Z := -7.
Definition StringMeta_Backspace : Z := -8.
Definition StringMeta_FormFeed : Z := -9.
Definition StringMeta_LineFeed : Z := -10.
Definition StringMeta_CarriageReturn : Z := -11.
Definition StringMeta_Tab : Z := -12.
Definition CRLF : Z := -13.
Definition Unsafe1Byte : Z := -14.
Definition Unsafe2Byte : Z := -15.
Definition Unsafe3Byte : Z := -16.
Definition LineContinuation_LineFeed : Z := -17.
Definition LineContinuation_CarriageReturn : Z := -18.
Definition LineContinuation_CRLF : Z := -19.

(** code_point.rs 213-258: constants *)
Definition LS_CLOSEPAREN : Z := 0xf7c0.
Definition LS_BANG : Z := 0xf7c1.
Definition LS_AT : Z := 0xf7c2.
Definition LS_PERCENT : Z := 0xf7c5.
Definition LS_CARET : Z := 0xf7c6.
Definition LS_AMP : Z := 0xf7c7.
Definition LS_STAR : Z := 0xf7c8.
Definition LS_OPENPAREN : Z := 0xf7c9.
Definition LS_UNDER : Z := 0xf7ca.
Definition LS_PLUS : Z := 0xf7cb.
Definition LS_SLASH : Z := 0xf7cc.
Definition LS_BACKTICK : Z := 0xf7cd.
Definition CODEPOINT_BOM : Z := 0xfeff.

(** code_point.rs 107-112 [from_u32] ([char::from_u32]): [None] for surrogates and
    values above 10FFFF *)
Definition from_u32 (v : Z) : option Z :=
  if between 0xd800 v 0xdfff || (0x10ffff <? v) then None else Some v.

(** code_point.rs 119-123 *)
Definition is_ascii (c : Z) : bool := between 0 c 0x7f.

(** read/wl_character.rs 14-38 [Escape] *)
Inductive escape := ENone | ERaw | ESingle | EHex2 | EHex4 | EHex6 | EOctal | ELongName.

(** read/wl_character.rs 40-46 [WLCharacter] *)
Record wlchar := mkwl { wc : Z; wesc : escape }.
Definition wl (c : Z) : wlchar := mkwl c ENone.

(** ** source.rs 1203-1276: predicates on source characters *)

(** 1204-1209 [isAlphaOrDigit]: Unicode [is_alphanumeric]; ASCII part concrete. *)
Definition src_isAlphaOrDigit (o : opts) (c : Z) : bool :=
  if is_ascii c then between 65 c 90 || between 97 c 122 || between 48 c 57
  else is_char c && o_alnum o c.
(** 1211-1216 [isHex] = [is_digit(16)] *)
Definition src_isHex (c : Z) : bool := between 48 c 57 || between 65 c 70 || between 97 c 102.
(** 1218-1223 [isOctal] *)
Definition src_isOctal (c : Z) : bool := between 48 c 55.
(** 1225-1231 [isUpper] *)
Definition src_isUpper (c : Z) : bool := between 65 c 90.
(** 1269-1276 [isMBUnsafeUTF8Sequence] (also wl_character.rs) *)
Definition isMBUnsafeUTF8Sequence (c : Z) : bool := zin c [Unsafe1Byte; Unsafe2Byte; Unsafe3Byte].

(** ** wl_character.rs 410-725: predicates on the code point of a WL character *)

Definition isControl (c : Z) : bool := is_ascii c && ((c <=? 0x1f) || (c =? 0x7f)).

Definition isLetterlike (c : Z) : bool :=
  between 65 c 90 || between 97 c 122 || (c =? 36) ||
  between 0 c 6 || (c =? 8) || between 0x0e c 0x1f.
Definition isStrangeLetterlike (c : Z) : bool := isLetterlike c && isControl c.
Definition isWhitespace (c : Z) : bool := zin c [32; 9; 11; 12].
Definition isStrangeWhitespace (c : Z) : bool := zin c [11; 12].
Definition isUpper (c : Z) : bool := between 65 c 90.
Definition isAlpha (c : Z) : bool := between 65 c 90 || between 97 c 122.
Definition isDigit (c : Z) : bool := between 48 c 57.
Definition isAlphaOrDigit (c : Z) : bool := between 65 c 90 || between 97 c 122 || between 48 c 57.
Definition isHex (c : Z) : bool := between 65 c 70 || between 97 c 102 || between 48 c 57.
Definition isOctal (c : Z) : bool := between 48 c 55.
Definition isSign (c : Z) : bool := zin c [45; 43].

Definition isMBLinearSyntax (c : Z) : bool :=
  zin c [LS_CLOSEPAREN; LS_BANG; LS_AT; LS_PERCENT; LS_CARET; LS_AMP; LS_STAR; LS_OPENPAREN;
         LS_UNDER; LS_PLUS; LS_SLASH; LS_BACKTICK; LinearSyntax_Space].
Definition isMBStringMeta (c : Z) : bool :=
  zin c [StringMeta_Open; StringMeta_Close; StringMeta_Backslash; StringMeta_DoubleQuote;
         StringMeta_Backspace; StringMeta_FormFeed; StringMeta_LineFeed;
         StringMeta_CarriageReturn; StringMeta_Tab].
Definition isMBLineContinuation (c : Z) : bool :=
  zin c [LineContinuation_LineFeed; LineContinuation_CarriageReturn; LineContinuation_CRLF].
(** code_point.rs 168-176 [is_line_continuation] *)
Definition is_line_continuation (c : Z) : bool :=
  (c <=? LineContinuation_LineFeed) && (LineContinuation_CRLF <=? c).
Definition isMBNewline (c : Z) : bool := ln_isMBNewline c.
Definition isMBStrangeNewline (c : Z) : bool := isMBNewline c && negb (c =? CRLF).
Definition isMBWhitespace (c : Z) : bool :=
  (c =? CP_LONGNAME_COMPATIBILITYNOBREAK) || ln_isMBWhitespace c.
Definition isMBStrangeWhitespace (c : Z) : bool := isMBWhitespace c.
Definition isMBPunctuation (c : Z) : bool := ln_isMBPunctuation c.
Definition isMBUninterpretable (c : Z) : bool := ln_isMBUninterpretable c.
Definition isMBLetterlike (c : Z) : bool :=
  negb (is_ascii c) && negb (isMBPunctuation c) && negb (c =? EndOfFile) && negb (c =? CRLF) &&
  negb (isMBLineContinuation c) && negb (isMBLinearSyntax c) && negb (isMBStringMeta c) &&
  negb (isMBWhitespace c) && negb (isMBNewline c) && negb (isMBUninterpretable c) &&
  negb (isMBUnsafeUTF8Sequence c).
Definition isMBStrangeLetterlike (c : Z) : bool :=
  isMBLetterlike c && negb (ln_isMBNotStrangeLetterlike c).

(** ** utils.rs *)

(** utils.rs 13-32 [isStrange] *)
Definition isStrange (c : Z) : bool :=
  between 0 c 8 || (c =? 11) || (c =? 12) || between 0x0e c 0x1a || between 0x1c c 0x1f || (c =? 0x7f).

(** utils.rs 34-184 [isMBStrange] *)
Definition isMBStrange (c : Z) : bool :=
  if is_ascii c then false
  else if zin c [0x200b; 0x200c; 0x200d; CP_LONGNAME_OPENCURLYQUOTE; CP_LONGNAME_CLOSECURLYQUOTE;
                 CP_LONGNAME_OPENCURLYDOUBLEQUOTE; CP_LONGNAME_CLOSECURLYDOUBLEQUOTE;
                 0x2061; 0x2063; 0x2064; CP_LONGNAME_RIGHTARROW; 0x279D; 0x29F4;
                 CP_LONGNAME_COMPATIBILITYNOBREAK; CP_LONGNAME_INVISIBLEAPPLICATION] then true
  else if between 0x80 c 0x9f then true
  else if c <=? 0xffff then false
  else between 0xf0000 c 0xffffd || between 0x100000 c 0x10fffd.

(** utils.rs 186-192 *)
Definition isStraySurrogate (c : Z) : bool := between 0xd800 c 0xdfff.

(** utils.rs 215-235 [toDigit] *)
Definition toDigit (b : Z) : Z :=
  if between 48 b 57 then b - 48
  else if between 65 b 90 then b - 55
  else if between 97 b 122 then b - 87
  else 99.
