(** Bytes to source characters: read/byte_decoder.rs. *)
From Coq Require Import ZArith List Bool.
From Verif Require Import Base Source WLChar.
Import ListNotations.
Local Open Scope Z_scope.

Section WithOpts.
Context (o : opts).

(** byte_decoder.rs 801-881 [ByteDecoder_strangeWarning] (issue content only) *)
Definition strangeWarning (decoded : Z) (startLoc : loc) (pol : policy) : M unit :=
  endLoc <- get_loc ;;
  if p_string pol then report UnexpectedCharacter Remark startLoc endLoc
  else if isStrangeWhitespace decoded || isMBStrangeWhitespace decoded then
    sp <- lift (Span_new startLoc endLoc) ;; ret tt
  else report UnexpectedCharacter Warning startLoc endLoc.

(** byte_decoder.rs 883-926 [ByteDecoder_nonASCIIWarning] *)
Definition nonASCIIWarning (startLoc : loc) : M unit :=
  endLoc <- get_loc ;; report NonASCIICharacter Remark startLoc endLoc.

(** byte_decoder.rs 928-949 [ByteDecoder_validStrange] *)
Definition validStrange (decoded : Z) (pol : policy) : M Z :=
  src_increment ;;
  when_ (o_check_issues o)
    (l <- get_loc ;; startLoc <- lift (loc_previous l) ;; strangeWarning decoded startLoc pol) ;;
  ret decoded.

(** byte_decoder.rs 951-980 [ByteDecoder_validMB] *)
Definition validMB (decoded : Z) (pol : policy) : M Z :=
  src_increment ;;
  when_ (o_check_issues o)
    (l <- get_loc ;; startLoc <- lift (loc_previous l) ;;
     if isMBStrange decoded then strangeWarning decoded startLoc pol
     else when_ (o_normal o) (nonASCIIWarning startLoc)) ;;
  ret decoded.

(** byte_decoder.rs 982-1133: [ByteDecoder_incompleteByteSequence],
    [ByteDecoder_straySurrogate], [ByteDecoder_bom] share this body. *)
Definition unsafeSequence (errLoc : loc) (t : issue_tag) (u : unsafe_encoding) (errChar : Z) : M Z :=
  src_increment ;;
  when_ (o_check_issues o) (report t Fatal errLoc (loc_next errLoc)) ;;
  setUnsafeCharacterEncodingFlag u ;;
  ret errChar.

Definition incomplete1 (errLoc : loc) : M Z :=
  unsafeSequence errLoc IncompleteUTF8SequenceTag IncompleteUTF8Sequence Unsafe1Byte.
Definition incomplete2 (errLoc : loc) : M Z :=
  unsafeSequence errLoc IncompleteUTF8SequenceTag IncompleteUTF8Sequence Unsafe2Byte.
Definition incomplete3 (errLoc : loc) : M Z :=
  unsafeSequence errLoc IncompleteUTF8SequenceTag IncompleteUTF8Sequence Unsafe3Byte.
Definition straySurrogate (errLoc : loc) : M Z :=
  unsafeSequence errLoc StraySurrogateTag StraySurrogate Unsafe3Byte.
Definition bom (errLoc : loc) : M Z :=
  unsafeSequence errLoc BOMTag BOM Unsafe3Byte.

(** [CodePoint::from_u32(decoded).unwrap()] *)
Definition unwrap_u32 (v : Z) : M Z :=
  match from_u32 v with Some c => ret c | None => panic end.

(** byte_decoder.rs 198-245: two byte sequence *)
Definition two_byte (first : Z) (pol : policy) : M Z :=
  m <- mark ;;
  second <- nextByte ;;
  eof <- get_weof ;;
  if eof then incomplete1 (ploc m)
  else if negb (between 0x80 second 0xbf) then seek m ;; incomplete1 (ploc m)
  else
    decoded <- unwrap_u32 (Z.lor (Z.shiftl (Z.land first 0x1f) 6) (Z.land second 0x3f)) ;;
    validMB decoded pol.

(** byte_decoder.rs 249-326 (E0, second byte from A0) and 330-427 (E1..EF, second byte
    from 80, surrogate and BOM checks [checks = true]). *)
Definition three_byte (first lo : Z) (checks : bool) (pol : policy) : M Z :=
  m <- mark ;;
  second <- nextByte ;;
  eof <- get_weof ;;
  if eof then incomplete1 (ploc m)
  else if negb (between lo second 0xbf) then seek m ;; incomplete1 (ploc m)
  else
    m <- mark ;;
    third <- nextByte ;;
    eof <- get_weof ;;
    if eof then seek m ;; incomplete2 (ploc m)
    else if negb (between 0x80 third 0xbf) then seek m ;; incomplete2 (ploc m)
    else
      let decoded := Z.lor (Z.lor (Z.shiftl (Z.land first 0x0f) 12) (Z.shiftl (Z.land second 0x3f) 6))
                           (Z.land third 0x3f) in
      if checks && isStraySurrogate decoded then straySurrogate (ploc m)
      else
        decoded <- unwrap_u32 decoded ;;
        if checks && (decoded =? CODEPOINT_BOM) then bom (ploc m)
        else validMB decoded pol.

(** byte_decoder.rs 431-762: four byte sequences F0 (90..BF), F1..F3 (80..BF),
    F4 (80..8F). *)
Definition four_byte (first lo hi : Z) (pol : policy) : M Z :=
  m <- mark ;;
  second <- nextByte ;;
  eof <- get_weof ;;
  if eof then incomplete1 (ploc m)
  else if negb (between lo second hi) then seek m ;; incomplete1 (ploc m)
  else
    m <- mark ;;
    third <- nextByte ;;
    eof <- get_weof ;;
    if eof then seek m ;; incomplete2 (ploc m)
    else if negb (between 0x80 third 0xbf) then seek m ;; incomplete2 (ploc m)
    else
      m <- mark ;;
      fourth <- nextByte ;;
      eof <- get_weof ;;
      if eof then seek m ;; incomplete3 (ploc m)
      else if negb (between 0x80 fourth 0xbf) then seek m ;; incomplete3 (ploc m)
      else
        decoded <- unwrap_u32
          (Z.lor (Z.lor (Z.lor (Z.shiftl (Z.land first 0x07) 18) (Z.shiftl (Z.land second 0x3f) 12))
                        (Z.shiftl (Z.land third 0x3f) 6))
                 (Z.land fourth 0x3f)) ;;
        validMB decoded pol.

(** byte_decoder.rs 105-799 [ByteDecoder_nextSourceCharacter_uncommon] *)
Definition nextSourceCharacter_uncommon (pol : policy) : M Z :=
  first <- nextByte ;;
  if first =? 9 then src_tab o ;; ret 9
  else if first =? 13 then
    b <- currentByte ;;
    if b =? 10 then nextByte ;; src_windowsNewline ;; ret CRLF
    else
      src_newline ;;
      when_ (o_check_issues o && p_issues pol)
        (l <- get_loc ;; report UnexpectedCarriageReturn Warning l l) ;;
      ret 13
  else if between 0 first 8 || (first =? 11) || (first =? 12) || between 0x0e first 0x1f || (first =? 0x7f)
  then validStrange first pol
  else if between 0xc2 first 0xdf then two_byte first pol
  else if first =? 0xe0 then three_byte first 0xa0 false pol
  else if between 0xe1 first 0xef then three_byte first 0x80 true pol
  else if first =? 0xf0 then four_byte first 0x90 0xbf pol
  else if between 0xf1 first 0xf3 then four_byte first 0x80 0xbf pol
  else if first =? 0xf4 then four_byte first 0x80 0x8f pol
  else if first =? 0xff then
    eof <- get_weof ;;
    if eof then ret EndOfFile
    else l <- get_loc ;; incomplete1 l
  else l <- get_loc ;; incomplete1 l.

(** byte_decoder.rs 64-103 [ByteDecoder_nextSourceCharacter];
    read.rs 161-166 [next_source_char] *)
Definition next_source_char (pol : policy) : M Z :=
  first <- currentByte ;;
  if between 0x20 first 0x7e then nextByte ;; src_increment ;; ret first
  else if first =? 0x0a then nextByte ;; src_newline ;; ret first
  else nextSourceCharacter_uncommon pol.

(** read.rs 148-159 [peek_source_char] *)
Definition peek_source_char (pol : policy) : M Z := peek (next_source_char pol).

End WithOpts.
