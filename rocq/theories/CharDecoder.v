(** Source characters to WL characters: read/character_decoder.rs. *)
From Coq Require Import ZArith List Bool.
From Verif Require Import Base Source WLChar LongNames ByteDecoder.
Import ListNotations.
Local Open Scope Z_scope.

(** Run a loop with fuel for one more iteration than there are bytes left: every
    iteration of the loops below consumes at least one byte. *)
Definition with_fuel {A} (f : nat -> M A) : M A := fun s => f (S (length (rest (cur s)))) s.

(** [BufferAndLength::between(start, end)]: the bytes from [start] up to [fin]
    (source.rs 77-90) *)
Definition buf_between (start fin : list Z) : list Z :=
  firstn (length start - length fin) start.

Section WithOpts.
Context (o : opts).

Local Notation next := (next_source_char o).
Local Notation peekc := (peek_source_char o).

(** [session.check_issues && policy.contains(ENABLE_CHARACTER_DECODING_ISSUES)] *)
Definition issues_on (pol : policy) : bool := o_check_issues o && p_issues pol.

(** character_decoder.rs 1769-1856 [check_strange_syntax_issue] *)
Definition check_strange_syntax_issue (pol : policy) (point : Z) (start : loc) : M unit :=
  when_ (o_check_issues o)
    (let report_it :=
       e <- get_loc ;; b <- lift (loc_previous start) ;;
       report UnexpectedCharacter (if p_string pol then Remark else Warning) b e in
     if isStrange point then
       (if isStrangeWhitespace point then ret tt else report_it)
     else if isMBStrange point then
       (if isMBStrangeWhitespace point then ret tt else report_it)
     else ret tt).

(** character_decoder.rs 270-286: after the first upper case letter; returns [wellFormed] *)
Fixpoint longName_loop (fuel : nat) (pol : policy) (c : Z) : M bool :=
  match fuel with
  | O => out_of_fuel
  | S k =>
      if src_isAlphaOrDigit o c then
        next pol ;; c' <- peekc pol ;; longName_loop k pol c'
      else if c =? 93 then ret true
      else ret false
  end.

(** character_decoder.rs 237-562 [CharacterDecoder_handleLongName] *)
Definition handleLongName (open_square : pos) (pol : policy) : M wlchar :=
  assert_ (match rest open_square with b :: _ => b =? 91 | [] => false end) ;;
  start <- get_rest ;;
  c <- peekc pol ;;
  wellFormed <-
    (if src_isUpper c then
       next pol ;; c' <- peekc pol ;; with_fuel (fun k => longName_loop k pol c')
     else if c =? 93 then next pol ;; peekc pol ;; ret false
     else ret false) ;;
  if negb wellFormed then
    when_ (issues_on pol)
      (b <- lift (loc_previous (ploc open_square)) ;; e <- get_loc ;;
       report UnhandledCharacter Fatal b e) ;;
    seek open_square ;;
    ret (wl 92)
  else
    fin <- get_rest ;;
    let name := buf_between start fin in
    match longname_to_codepoint name with
    | None =>
        when_ (issues_on pol)
          (l <- get_loc ;;
           b <- lift (loc_previous (ploc open_square)) ;;
           if p_scan pol then
             b' <- lift (loc_previous b) ;;
             report UnrecognizedLongName Error b' (loc_next l)
           else report UnhandledCharacter Fatal b (loc_next l)) ;;
        seek open_square ;;
        ret (wl 92)
    | Some point =>
        next pol ;;
        when_ (issues_on pol) (check_strange_syntax_issue pol point (ploc open_square)) ;;
        ret (mkwl point (if isRaw name then ERaw else ELongName))
    end.

(** character_decoder.rs 575-606, 678-709, 781-840, 887-945: read [n] digits or fail *)
Fixpoint read_digits (n : nat) (isd : Z -> bool) (pol : policy) : M bool :=
  match n with
  | O => ret true
  | S k =>
      c <- peekc pol ;;
      if isd c then next pol ;; read_digits k isd pol
      else ret false
  end.

(** the issue and rewind of an ill-formed numeric escape (same four blocks) *)
Definition digits_fail (m : pos) (pol : policy) : M wlchar :=
  when_ (issues_on pol)
    (b <- lift (loc_previous (ploc m)) ;; e <- get_loc ;;
     report UnhandledCharacter Fatal b e) ;;
  seek m ;;
  ret (wl 92).

(** character_decoder.rs 650-655 and the three other copies *)
Definition canonical_point (v : Z) : Z :=
  if v =? 34 then StringMeta_DoubleQuote
  else if v =? 92 then StringMeta_Backslash
  else v.

(** value of the digit bytes at the front of [bs] *)
Fixpoint digits_value (shift : Z) (n : nat) (bs : list Z) (acc : Z) : Z :=
  match n with
  | O => acc
  | S k => digits_value shift k (tl bs) (Z.lor (Z.shiftl acc shift) (toDigit (hd 0 bs)))
  end.

Definition finish_digits (m : pos) (pol : policy) (v : Z) (e : escape) : M wlchar :=
  point <- unwrap_u32 v ;;
  let point := canonical_point point in
  check_strange_syntax_issue pol point (ploc m) ;;
  ret (mkwl point e).

(** character_decoder.rs 564-665 [CharacterDecoder_handle4Hex] *)
Definition handle4Hex (colon : pos) (pol : policy) : M wlchar :=
  assert_ (match rest colon with b :: _ => b =? 58 | [] => false end) ;;
  start <- get_rest ;;
  good <- read_digits 4 src_isHex pol ;;
  if negb good then digits_fail colon pol
  else finish_digits colon pol (digits_value 4 4 start 0) EHex4.

(** character_decoder.rs 667-765 [CharacterDecoder_handle2Hex] *)
Definition handle2Hex (dot : pos) (pol : policy) : M wlchar :=
  assert_ (match rest dot with b :: _ => b =? 46 | [] => false end) ;;
  start <- get_rest ;;
  good <- read_digits 2 src_isHex pol ;;
  if negb good then digits_fail dot pol
  else finish_digits dot pol (digits_value 4 2 start 0) EHex2.

(** character_decoder.rs 767-874 [CharacterDecoder_handleOctal] *)
Definition handleOctal (first_octal : pos) (pol : policy) : M wlchar :=
  assert_ (match rest first_octal with b :: _ => src_isOctal b | [] => false end) ;;
  good <- read_digits 2 src_isOctal pol ;;
  if negb good then digits_fail first_octal pol
  else finish_digits first_octal pol (digits_value 3 3 (rest first_octal) 0) EOctal.

(** character_decoder.rs 876-994 [CharacterDecoder_handle6Hex] *)
Definition handle6Hex (bar : pos) (pol : policy) : M wlchar :=
  assert_ (match rest bar with b :: _ => b =? 124 | [] => false end) ;;
  start <- get_rest ;;
  good <- read_digits 6 src_isHex pol ;;
  if negb good then digits_fail bar pol
  else
    let v := digits_value 4 6 start 0 in
    if 0x10ffff <? v then seek bar ;; ret (wl 92)
    else finish_digits bar pol v EHex6.

(** character_decoder.rs 1030-1042: consuming scan used only to decide well-formedness *)
Fixpoint backslash_loop (fuel : nat) (pol : policy) (c : Z) : M bool :=
  match fuel with
  | O => out_of_fuel
  | S k =>
      if src_isAlphaOrDigit o c then c' <- next pol ;; backslash_loop k pol c'
      else ret (c =? 93)
  end.

(** character_decoder.rs 996-1062 [CharacterDecoder_handleBackslash] *)
Definition handleBackslash (pol : policy) : M wlchar :=
  when_ (o_check_issues o)
    (reset_mark <- mark ;;
     c <- next pol ;;
     when_ (c =? 91)
       (startBuf <- get_rest ;;
        startLoc <- get_loc ;;
        c <- next pol ;;
        wellFormed <-
          (if src_isUpper c then
             c' <- next pol ;; with_fuel (fun k => backslash_loop (S k) pol c')
           else ret false) ;;
        when_ wellFormed
          (seek_loc startBuf startLoc ;;
           handleLongName reset_mark (with_scan pol) ;;
           ret tt)) ;;
     seek reset_mark) ;;
  ret (mkwl StringMeta_Backslash ESingle).

(** character_decoder.rs 1102-1124: scan [\Alpha]]; returns the characters read and
    whether the [\]] was found *)
Fixpoint unhandled_loop (fuel : nat) (pol : policy) (c : Z) : M (list Z * bool) :=
  match fuel with
  | O => out_of_fuel
  | S k =>
      if src_isAlphaOrDigit o c then
        next pol ;; c' <- peekc pol ;;
        r <- unhandled_loop k pol c' ;; ret (c :: fst r, snd r)
      else if c =? 93 then next pol ;; ret ([], true)
      else ret ([], false)
  end.

(** character_decoder.rs 1064-1369 [CharacterDecoder_handleUnhandledEscape].
    Simplification: the run of characters is looked up as code points rather than as
    their UTF-8 bytes; all table entries are ASCII, so the lookups agree. *)
Definition handleUnhandledEscape (unhandled : pos) (pol : policy) : M wlchar :=
  c <- peekc pol ;;
  next pol ;;
  when_ (issues_on pol)
    (b <- lift (loc_previous (ploc unhandled)) ;;
     e <- get_loc ;;
     if src_isUpper c then
       c' <- peekc pol ;;
       r <- with_fuel (fun k => unhandled_loop k pol c') ;;
       let found := match longname_to_codepoint (c :: fst r) with Some _ => snd r | None => false end in
       if found then e' <- get_loc ;; report UnhandledCharacter Fatal b e'
       else report UnhandledCharacter Fatal b e
     else if src_isHex c then report UnhandledCharacter Fatal b e
     else if (c =? EndOfFile) || isMBUnsafeUTF8Sequence c then ret tt
     else report UnhandledCharacter Fatal b e) ;;
  seek unhandled ;;
  ret (wl 92).

(** character_decoder.rs 138-222, 1371-: escapes that report a remark when read *)
Definition meta_with_issue (escaped : pos) (point : Z) : M wlchar :=
  when_ (o_check_issues o)
    (b <- lift (loc_previous (ploc escaped)) ;; e <- get_loc ;;
     report UnexpectedCharacter Remark b e) ;;
  ret (mkwl point ESingle).

Definition single (pol : policy) (point : Z) : M wlchar :=
  next pol ;; ret (mkwl point ESingle).

(** character_decoder.rs 1371-1716 [CharacterDecoder_handleUncommon] *)
Definition handleUncommon (escaped : pos) (pol : policy) : M wlchar :=
  c <- peekc pol ;;
  switchl c
    [ ([10], single pol LineContinuation_LineFeed);
      ([13], single pol LineContinuation_CarriageReturn);
      ([CRLF], single pol LineContinuation_CRLF);
      ([91], next pol ;; handleLongName escaped pol);
      ([58], next pol ;; handle4Hex escaped pol);
      ([46], next pol ;; handle2Hex escaped pol);
      ([124], next pol ;; handle6Hex escaped pol);
      ([48; 49; 50; 51; 52; 53; 54; 55], next pol ;; handleOctal escaped pol);
      ([98], next pol ;; meta_with_issue escaped StringMeta_Backspace);
      ([102], next pol ;; meta_with_issue escaped StringMeta_FormFeed);
      ([110], single pol StringMeta_LineFeed);
      ([114], single pol StringMeta_CarriageReturn);
      ([116], single pol StringMeta_Tab);
      ([33], single pol LS_BANG);
      ([37], single pol LS_PERCENT);
      ([38], single pol LS_AMP);
      ([40], single pol LS_OPENPAREN);
      ([41], single pol LS_CLOSEPAREN);
      ([42], single pol LS_STAR);
      ([43], single pol LS_PLUS);
      ([47], single pol LS_SLASH);
      ([64], single pol LS_AT);
      ([94], single pol LS_CARET);
      ([95], single pol LS_UNDER);
      ([96], single pol LS_BACKTICK);
      ([32], single pol LinearSyntax_Space) ]
    (handleUnhandledEscape escaped pol).

(** character_decoder.rs 79-235: [CharacterDecoder_nextWLCharacter] and the handler
    table (32-62); read.rs 186-191 [next_wolfram_char] *)
Definition next_wolfram_char (pol : policy) : M wlchar :=
  point <- next pol ;;
  if negb (point =? 92) then ret (wl point)
  else
    escaped <- mark ;;
    point <- peekc pol ;;
    switchl point
      [ ([34], single pol StringMeta_DoubleQuote);
        ([60], next pol ;; meta_with_issue escaped StringMeta_Open);
        ([62], next pol ;; meta_with_issue escaped StringMeta_Close);
        ([92], next pol ;; handleBackslash pol) ]
      (handleUncommon escaped pol).

(** read.rs 173-184 [peek_wolfram_char] *)
Definition peek_wolfram_char (pol : policy) : M wlchar := peek (next_wolfram_char pol).

End WithOpts.
