(** The tokenizer: tokenize/tokenizer.rs, with the parts of tokenize/token.rs and read.rs
    it uses.  Debug assertions are modelled as panics. *)
From Coq Require Import ZArith List Bool.
From Verif Require Import Base Source WLChar GenTokenKind LongNames ByteDecoder CharDecoder TokenKind Format.
Import ListNotations.
Local Open Scope Z_scope.

(** token.rs 20-34 [Token].  [t_start] is the input from the first byte of the token on
    (the Rust slice's data pointer), [t_text] its bytes. *)
Record token := mktok { t_kind : Z; t_start : list Z; t_text : list Z; t_src : span }.

(** source.rs 118-140 [containsOnlyASCII], [containsTab] *)
Definition containsOnlyASCII (b : list Z) : bool := forallb (fun x => x <=? 0x7f) b.
Definition containsTab (b : list Z) : bool := existsb (Z.eqb 9) b.

(** token.rs 243-323 [Token::new2], the checks made in a debug build *)
Definition new2_check (k : Z) (text : list Z) (sp : span) : bool :=
  if k =? TK_Unknown then false
  else if (k =? TK_ToplevelNewline) || (k =? TK_InternalNewline) then true
  else if isEmpty k then
    match text with
    | [] => true
    | a :: b :: _ => (a =? 92) && ((b =? 10) || (b =? 13))
    | _ => false
    end
  else
    negb (zlen text =? 0) &&
    match sp_start sp, sp_end sp with
    | LineCol l1 c1, LineCol l2 c2 =>
        if (l1 =? l2) && negb (c2 - c1 =? zlen text)
        then negb (containsOnlyASCII text) || containsTab text
        else true
    | _, _ => true
    end.

Definition new2 (k : Z) (start text : list Z) (sp : span) : M token :=
  assert_ (new2_check k text sp) ;; ret (mktok k start text sp).

(** tokenizer.rs 357-371 [token] with 391-406 [get_token_span],
    [get_token_buffer_and_length] *)
Definition mk_token (k : Z) (start : pos) : M token :=
  r <- get_rest ;; e <- get_loc ;;
  assert_ (Nat.leb (length r) (length (rest start))) ;;
  sp <- lift (Span_new (ploc start) e) ;;
  new2 k (rest start) (buf_between (rest start) r) sp.

(** tokenizer.rs 373-389 [error_token_at] *)
Definition error_token_at (k : Z) (start : pos) : M token :=
  assert_ (isError k) ;; new2 k (rest start) [] (mkspan (ploc start) (ploc start)).

(** tokenizer.rs 410-424 *)
Definition addSimpleLineContinuation (l : loc) : M unit :=
  modlog (fun g => mklogs (l_flag g) (l_fatal g) (l_nonfatal g) (l_simple_lc g ++ [l]) (l_complex_lc g)
                          (l_embedded_newlines g) (l_embedded_tabs g)).
Definition addComplexLineContinuation (l : loc) : M unit :=
  modlog (fun g => mklogs (l_flag g) (l_fatal g) (l_nonfatal g) (l_simple_lc g) (l_complex_lc g ++ [l])
                          (l_embedded_newlines g) (l_embedded_tabs g)).
Definition addEmbeddedNewline (l : loc) : M unit :=
  modlog (fun g => mklogs (l_flag g) (l_fatal g) (l_nonfatal g) (l_simple_lc g) (l_complex_lc g)
                          (l_embedded_newlines g ++ [l]) (l_embedded_tabs g)).
Definition addEmbeddedTab (l : loc) : M unit :=
  modlog (fun g => mklogs (l_flag g) (l_fatal g) (l_nonfatal g) (l_simple_lc g) (l_complex_lc g)
                          (l_embedded_newlines g) (l_embedded_tabs g ++ [l])).

(** read.rs 53-59 [InputMark], including the ones made by [InputMark::new] without an
    end-of-file state *)
Record imark := mkimark { im_rest : list Z; im_weof : option bool; im_loc : loc }.
Definition imark_of (p : pos) : imark := mkimark (rest p) (Some (weof p)) (ploc p).
(** read.rs 221-234 [seek] *)
Definition seek_im (m : imark) : M unit :=
  match im_weof m with
  | Some w => seek (mkpos (im_rest m) w (im_loc m))
  | None => seek_loc (im_rest m) (im_loc m)
  end.

(** utils.rs 239-261 [ifASCIIWLCharacter] *)
Definition ifASCIIWLCharacter (b test : Z) : bool :=
  (0x7f <? b) || isAlphaOrDigit b || (b =? 93) || (b =? 92) || (b =? test).

(** [assert!(ifASCIIWLCharacter(buf[0], test))]; the index panics on an empty buffer *)
Definition assert_first (buf : list Z) (test : Z) : M unit :=
  match buf with [] => panic | b :: _ => assert_ (ifASCIIWLCharacter b test) end.

(** [policy.contains(INSIDE_SLOT)], [policy.contains(INSIDE_STRINGIFY_AS_TAG)]
    (source.rs 232-262) *)
Definition has_slot (pol : policy) : bool := p_tracklc pol && p_tagslot pol && p_intshort pol.
Definition has_tag (pol : policy) : bool := p_issues pol && p_tracklc pol && p_tagslot pol.

Definition letterlike (c : Z) : bool := isLetterlike c || isMBLetterlike c.
Definition is_newline_char (c : Z) : bool := zin c [10; 13; CRLF].

(** tokenizer.rs 449-463 [NumberTokenizationContext] *)
Record numctx := mkctx {
  InvalidBase : bool; UnrecognizedDigit : bool; NegativeExponent : bool; RealFlag : bool;
  NonZeroExponentDigitCount : Z; Base : Z }.
(** 2907-2916 *)
Definition ctx0 := mkctx false false false false 0 0.
Definition set_real (x : numctx) := mkctx (InvalidBase x) (UnrecognizedDigit x) (NegativeExponent x) true (NonZeroExponentDigitCount x) (Base x).
Definition set_neg (x : numctx) := mkctx (InvalidBase x) (UnrecognizedDigit x) true (RealFlag x) (NonZeroExponentDigitCount x) (Base x).
Definition set_unrec (x : numctx) := mkctx (InvalidBase x) true (NegativeExponent x) (RealFlag x) (NonZeroExponentDigitCount x) (Base x).
Definition set_base (x : numctx) (inv : bool) (b : Z) := mkctx inv (UnrecognizedDigit x) (NegativeExponent x) (RealFlag x) (NonZeroExponentDigitCount x) b.
Definition set_expcount (x : numctx) (n : Z) := mkctx (InvalidBase x) (UnrecognizedDigit x) (NegativeExponent x) (RealFlag x) n (Base x).

(** 2918-2958 [computeTok] *)
Definition computeTok (x : numctx) : Z :=
  if InvalidBase x then TK_Error_Number
  else if UnrecognizedDigit x then TK_Error_Number
  else if RealFlag x then TK_Real
  else if NegativeExponent x && negb (NonZeroExponentDigitCount x =? 0) then TK_Rational
  else TK_Integer.

(** 2960-2963 [HandledFractionalPart] *)
Inductive handled := Count (n : Z) | Bailout.

Section WithOpts.
Context (o : opts).

Local Notation nsrc := (next_source_char o).
Local Notation psrc := (peek_source_char o).
Local Notation nwl := (next_wolfram_char o).
Local Notation pwl := (peek_wolfram_char o).

(** tokenizer.rs 966-984: the inner [while] of [Tokenizer_nextWLCharacter] *)
Fixpoint skip_ws_loop (fuel : nat) (start : pos) (pol : policy) (c : wlchar) : M wlchar :=
  match fuel with
  | O => out_of_fuel
  | S k =>
      if isWhitespace (wc c) then
        when_ (o_compute_oob o && (wc c =? 9) && p_string pol) (addEmbeddedTab (ploc start)) ;;
        nwl pol ;;
        c' <- pwl pol ;;
        skip_ws_loop k start pol c'
      else ret c
  end.

(** tokenizer.rs 955-1006: the outer [loop] *)
Fixpoint lc_loop (fuel : nat) (start : pos) (pol : policy) (c : wlchar) : M wlchar :=
  match fuel with
  | O => out_of_fuel
  | S k =>
      if negb (is_line_continuation (wc c)) then ret c
      else
        c1 <- pwl pol ;;
        c2 <- with_fuel (fun n => skip_ws_loop n start pol c1) ;;
        when_ (o_compute_oob o && p_tracklc pol)
          (if p_string pol then addComplexLineContinuation (ploc start)
           else addSimpleLineContinuation (ploc start)) ;;
        nwl pol ;;
        lc_loop k start pol c2
  end.

(** tokenizer.rs 946-1007 [Tokenizer_nextWLCharacter] *)
Definition nextWL (start : pos) (pol : policy) : M wlchar :=
  c <- nwl pol ;; with_fuel (fun n => lc_loop (S n) start pol c).

(** tokenizer.rs 1009-1026 [Tokenizer_currentWLCharacter] *)
Definition currentWL (start : pos) (pol : policy) : M wlchar :=
  peek (nextWL start (without_tracklc pol)).

(** tokenizer.rs 4781-4825 [add_unexpected_char_issue] *)
Definition add_unexpected_char_issue (c : wlchar) (char_loc : loc) (tag : issue_tag) : M unit :=
  e <- get_loc ;; sp <- lift (Span_new char_loc e) ;;
  lift (certainCharacterReplacementActions c) ;;
  lift (match tag with UnexpectedNewlineCharacter => graphicalString c | _ => safeAndGraphicalString c end) ;;
  assert_ (match tag with
           | UnexpectedSpaceCharacter | UnexpectedLetterlikeCharacter | UnexpectedNewlineCharacter => true
           | _ => false end) ;;
  addIssue (mkissue tag Warning sp).

(** [SyntaxIssue(tag, …, severity, get_token_span(a))] *)
Definition report_from (tag : issue_tag) (sv : severity) (a : loc) : M unit :=
  e <- get_loc ;; report tag sv a e.

(** 1108-1135 *)
Definition handleStrangeWhitespace (start : pos) (c : wlchar) (pol : policy) : M token :=
  assert_ (isStrangeWhitespace (wc c)) ;;
  when_ (o_check_issues o) (add_unexpected_char_issue c (ploc start) UnexpectedSpaceCharacter) ;;
  mk_token TK_Whitespace start.

(** 1163-1211: the loop of [Tokenizer_handleComment] *)
Fixpoint comment_loop (fuel : nat) (start : pos) (pol : policy) (depth : Z) (c : Z) : M token :=
  match fuel with
  | O => out_of_fuel
  | S k =>
      if c =? 40 then
        c1 <- nsrc pol ;;
        if c1 =? 42 then c2 <- nsrc pol ;; comment_loop k start pol (depth + 1) c2
        else comment_loop k start pol depth c1
      else if c =? 42 then
        c1 <- nsrc pol ;;
        if c1 =? 41 then
          if depth - 1 =? 0 then mk_token TK_Comment start
          else c2 <- nsrc pol ;; comment_loop k start pol (depth - 1) c2
        else comment_loop k start pol depth c1
      else if c =? EndOfFile then mk_token TK_Error_UnterminatedComment start
      else if is_newline_char c then
        when_ (o_compute_oob o) (addEmbeddedNewline (ploc start)) ;;
        c1 <- nsrc pol ;; comment_loop k start pol depth c1
      else if c =? 9 then
        when_ (o_compute_oob o) (addEmbeddedTab (ploc start)) ;;
        c1 <- nsrc pol ;; comment_loop k start pol depth c1
      else c1 <- nsrc pol ;; comment_loop k start pol depth c1
  end.

(** 1137-1212 [Tokenizer_handleComment] *)
Definition handleComment (start : pos) (c : Z) (pol : policy) : M token :=
  assert_ (c =? 42) ;;
  nsrc pol ;;
  let pol := with_string pol in
  c1 <- nsrc pol ;;
  with_fuel (fun n => comment_loop (S n) start pol 1 c1).

(** 1227-1253 *)
Fixpoint blob_loop (fuel : nat) (start : pos) (pol : policy) (depth : Z) (c : wlchar) : M token :=
  match fuel with
  | O => out_of_fuel
  | S k =>
      if wc c =? LS_OPENPAREN then
        c1 <- nextWL start pol ;; blob_loop k start pol (depth + 1) c1
      else if wc c =? LS_CLOSEPAREN then
        if depth - 1 =? 0 then mk_token TK_LinearSyntaxBlob start
        else c1 <- nextWL start pol ;; blob_loop k start pol (depth - 1) c1
      else if wc c =? EndOfFile then mk_token TK_Error_UnterminatedLinearSyntaxBlob start
      else c1 <- nextWL start pol ;; blob_loop k start pol depth c1
  end.

(** 1214-1254 [Tokenizer_handleMBLinearSyntaxBlob] *)
Definition handleMBLinearSyntaxBlob (start : pos) (c : wlchar) (pol : policy) : M token :=
  assert_ (wc c =? LS_OPENPAREN) ;;
  c1 <- nextWL start pol ;;
  with_fuel (fun n => blob_loop (S n) start pol 1 c1).

(** 1362-1419 and 1437-1494: the issues about one character of a symbol segment; [ok] is
    [isAlpha] for the first character and [isAlphaOrDigit] afterwards *)
Definition segment_issues (c : wlchar) (charLoc : loc) (pol : policy) (ok : Z -> bool) : M unit :=
  when_ (o_check_issues o)
    (if wc c =? 36 then when_ (has_slot pol) (report_from UndocumentedSlotSyntax Warning charLoc)
     else if isStrangeLetterlike (wc c) then
       add_unexpected_char_issue c charLoc UnexpectedLetterlikeCharacter
     else if isMBStrangeLetterlike (wc c) then
       add_unexpected_char_issue c charLoc UnexpectedLetterlikeCharacter
     else if negb (ok (wc c)) then
       when_ (has_tag pol) (report_from UnexpectedCharacter Warning charLoc)
     else ret tt).

(** 1425-1505 *)
Fixpoint segment_loop (fuel : nat) (start : pos) (pol : policy) (charLoc : loc) (c : wlchar) : M wlchar :=
  match fuel with
  | O => out_of_fuel
  | S k =>
      if isDigit (wc c) then
        nextWL start pol ;;
        l <- get_loc ;;
        c1 <- currentWL start pol ;; segment_loop k start pol l c1
      else if letterlike (wc c) then
        nextWL start pol ;;
        segment_issues c charLoc pol isAlphaOrDigit ;;
        l <- get_loc ;;
        c1 <- currentWL start pol ;; segment_loop k start pol l c1
      else if wc c =? 96 then nextWL start pol ;; ret c
      else ret c
  end.

(** 1352-1508 [Tokenizer_handleSymbolSegment] *)
Definition handleSymbolSegment (start : pos) (charLoc : loc) (c : wlchar) (pol : policy) : M wlchar :=
  assert_ (letterlike (wc c)) ;;
  segment_issues c charLoc pol isAlpha ;;
  l <- get_loc ;;
  c1 <- currentWL start pol ;;
  with_fuel (fun n => segment_loop n start pol l c1).

(** 1290-1331 *)
Fixpoint symbol_loop (fuel : nat) (start : pos) (pol : policy) (c : wlchar) : M token :=
  match fuel with
  | O => out_of_fuel
  | S k =>
      if negb (wc c =? 96) then mk_token (if has_slot pol then TK_String else TK_Symbol) start
      else
        when_ (o_check_issues o && has_slot pol) (report_from UndocumentedSlotSyntax Warning (ploc start)) ;;
        c1 <- currentWL start pol ;;
        if letterlike (wc c1) then
          l <- get_loc ;;
          nextWL start pol ;;
          c2 <- handleSymbolSegment start l c1 pol ;;
          symbol_loop k start pol c2
        else mk_token TK_Error_ExpectedLetterlike start
  end.

(** 1260-1343 [Tokenizer_handleSymbol] *)
Definition handleSymbol (start : pos) (c : wlchar) (pol : policy) : M token :=
  assert_ ((wc c =? 96) || letterlike (wc c)) ;;
  c1 <- (if letterlike (wc c) then handleSymbolSegment start (ploc start) c pol else ret c) ;;
  with_fuel (fun n => symbol_loop n start pol c1).

(** 1620-1648 *)
Fixpoint string_loop (fuel : nat) (start : pos) (pol : policy) : M token :=
  match fuel with
  | O => out_of_fuel
  | S k =>
      c <- nextWL start pol ;;
      if wc c =? 34 then mk_token TK_String start
      else if wc c =? EndOfFile then mk_token TK_Error_UnterminatedString start
      else
        when_ (o_compute_oob o)
          (if is_newline_char (wc c) then addEmbeddedNewline (ploc start)
           else if wc c =? 9 then addEmbeddedTab (ploc start) else ret tt) ;;
        string_loop k start pol
  end.

(** 1510-1649 [Tokenizer_handleString]; the FAST_STRING_SCAN branch (1535-1610) is
    disabled because COMPUTE_SOURCE is on (feature.rs). *)
Definition handleString (start : pos) (c : wlchar) (pol : policy) : M token :=
  assert_ (wc c =? 34) ;;
  when_ (o_check_issues o && has_slot pol) (report_from UndocumentedSlotSyntax Warning (ploc start)) ;;
  with_fuel (fun n => string_loop n start (with_string pol)).

(** 1651-1690 [Tokenizer_handleString_stringifyAsTag] *)
Definition handleString_stringifyAsTag (start : pos) (c : wlchar) (pol : policy) : M token :=
  if letterlike (wc c) then
    l <- get_loc ;;
    handleSymbolSegment start l c pol ;;
    mk_token TK_String start
  else new2 TK_Error_ExpectedTag (rest start) [] (mkspan (ploc start) (ploc start)).

(** 1842-1888: loop of [Tokenizer_handleFileOpsBrackets]; [None] is
    [UnterminatedFileString] *)
Fixpoint brackets_loop (fuel : nat) (pol : policy) (depth : Z) (c : Z) : M (option Z) :=
  match fuel with
  | O => out_of_fuel
  | S k =>
      if zin c [32; 9; 11; 12; 10; 13; CRLF] then ret None
      else if c =? EndOfFile then ret None
      else if c =? 91 then nsrc pol ;; c1 <- psrc pol ;; brackets_loop k pol (depth + 1) c1
      else if c =? 93 then
        nsrc pol ;; c1 <- psrc pol ;;
        if depth - 1 =? 0 then ret (Some c1) else brackets_loop k pol (depth - 1) c1
      else if isMBWhitespace c || isMBNewline c then ret None
      else nsrc pol ;; c1 <- psrc pol ;; brackets_loop k pol depth c1
  end.

(** 1827-1889 [Tokenizer_handleFileOpsBrackets] *)
Definition handleFileOpsBrackets (c : Z) (pol : policy) : M (option Z) :=
  assert_ (c =? 91) ;;
  c1 <- psrc pol ;;
  with_fuel (fun n => brackets_loop n pol 1 c1).

(** 1711-1717 and 1757-1763 *)
Definition file_char (c : Z) : bool :=
  isAlphaOrDigit c || zin c [96; 47; 46; 92; 33; 45; 95; 58; 42; 126; 63].

(** 1750-1804 *)
Fixpoint file_loop (fuel : nat) (start : pos) (pol : policy) (c : Z) : M token :=
  match fuel with
  | O => out_of_fuel
  | S k =>
      if file_char c then nsrc pol ;; c1 <- psrc pol ;; file_loop k start pol c1
      else if c =? 91 then
        nsrc pol ;;
        r <- handleFileOpsBrackets c pol ;;
        match r with
        | Some c1 => file_loop k start pol c1
        | None => mk_token TK_Error_UnterminatedFileString start
        end
      else mk_token TK_String start
  end.

(** 1695-1805 [Tokenizer_handleString_stringifyAsFile] *)
Definition handleString_stringifyAsFile (start : pos) (c : Z) (pol : policy) : M token :=
  if file_char c || (c =? 36) then
    c1 <- psrc pol ;; with_fuel (fun n => file_loop n start pol c1)
  else if c =? 91 then
    r <- handleFileOpsBrackets c pol ;;
    match r with
    | Some c1 => with_fuel (fun n => file_loop n start pol c1)
    | None => mk_token TK_Error_UnterminatedFileString start
    end
  else error_token_at TK_Error_ExpectedFile start.

(** 3072-3102 [Tokenizer_backupAndWarn] *)
Definition backupAndWarn (reset : imark) : M unit :=
  when_ (o_check_issues o) (report Ambiguous Formatting (im_loc reset) (im_loc reset)) ;;
  seek_im reset.

(** 3113-3135 and 3146-3168 *)
Fixpoint count_loop (fuel : nat) (start : pos) (pol : policy) (p : Z -> bool) (count : Z) (c : wlchar) : M (Z * wlchar) :=
  match fuel with
  | O => out_of_fuel
  | S k =>
      if negb (p (wc c)) then ret (count, c)
      else
        nextWL start pol ;;
        c1 <- currentWL start pol ;;
        count_loop k start pol p (count + 1) c1
  end.

(** 3104-3135 [Tokenizer_handleZeros] *)
Definition handleZeros (start : pos) (pol : policy) (c : wlchar) : M (Z * wlchar) :=
  assert_ (wc c =? 48) ;;
  c1 <- currentWL start pol ;;
  with_fuel (fun n => count_loop n start pol (Z.eqb 48) 1 c1).

(** 3137-3168 [Tokenizer_handleDigits] *)
Definition handleDigits (start : pos) (pol : policy) (c : wlchar) : M (Z * wlchar) :=
  assert_ (isDigit (wc c)) ;;
  c1 <- currentWL start pol ;;
  with_fuel (fun n => count_loop n start pol isDigit 1 c1).

(** 3180-3210 *)
Fixpoint alnum_loop (fuel : nat) (start : pos) (pol : policy) (base : Z) (x : numctx) (count : Z) (c : wlchar)
  : M (Z * wlchar * numctx) :=
  match fuel with
  | O => out_of_fuel
  | S k =>
      if negb (isAlphaOrDigit (wc c)) then ret (count, c, x)
      else if (base =? 0) && negb (isDigit (wc c)) then ret (count, c, x)
      else
        let x' := if negb (base =? 0) && (base <=? toDigit (wc c)) then set_unrec x else x in
        nextWL start pol ;;
        c1 <- currentWL start pol ;;
        alnum_loop k start pol base x' (count + 1) c1
  end.

(** 3170-3211 [Tokenizer_handleAlphaOrDigits] *)
Definition handleAlphaOrDigits (start : pos) (c : wlchar) (base : Z) (pol : policy) (x : numctx)
  : M (Z * wlchar * numctx) :=
  assert_ (isAlphaOrDigit (wc c)) ;;
  with_fuel (fun n => alnum_loop n start pol base x 0 c).

(** 2998-3070 [Tokenizer_handlePossibleFractionalPartPastDot] *)
Definition handlePastDot (start : pos) (dot_mark : imark) (c : wlchar) (base : Z) (pol : policy) (x : numctx)
  : M (handled * wlchar * numctx) :=
  if wc c =? 46 then
    backupAndWarn dot_mark ;;
    c1 <- currentWL start pol ;;
    ret (Bailout, c1, x)
  else if isAlphaOrDigit (wc c) then
    r <- handleAlphaOrDigits start c base pol x ;;
    let '(h, c1, x1) := r in
    when_ ((0 <? h) && o_check_issues o && (wc c1 =? 46))
      (report UnexpectedImplicitTimes Error (im_loc dot_mark) (im_loc dot_mark)) ;;
    ret (Count h, c1, x1)
  else ret (Count 0, c, x).

(** 2965-2996 [Tokenizer_handlePossibleFractionalPart] *)
Definition handlePossibleFractionalPart (start : pos) (dot_mark : imark) (c : wlchar) (base : Z) (pol : policy) (x : numctx)
  : M (handled * wlchar * numctx) :=
  assert_ (wc c =? 46) ;;
  c1 <- currentWL start pol ;;
  handlePastDot start dot_mark c1 base pol x.

(** 2756-2904: from [assert!(c.to_point() == '*')] to the end of [Tokenizer_handleNumber];
    [star] is the mark at the star ([starBuf] is its buffer) *)
Definition number_exponent (start : pos) (pol : policy) (x : numctx) (star : pos) : M token :=
  assert_first (rest star) 42 ;;
  c <- currentWL start pol ;;
  if negb (wc c =? 94) then seek star ;; mk_token (computeTok x) start
  else
    nextWL start pol ;;
    c1 <- currentWL start pol ;;
    r <- (if (wc c1 =? 43) || (wc c1 =? 45) then
            nextWL start pol ;;
            c2 <- currentWL start pol ;;
            ret (c2, if wc c1 =? 45 then set_neg x else x)
          else ret (c1, x)) ;;
    let '(c2, x1) := r in
    if negb (isDigit (wc c2)) then mk_token TK_Error_Number start
    else
      c3 <- (if wc c2 =? 48 then r2 <- handleZeros start pol c2 ;; ret (snd r2) else ret c2) ;;
      r3 <- (if isDigit (wc c3) then
               r4 <- handleDigits start pol c3 ;; ret (snd r4, set_expcount x1 (fst r4))
             else ret (c3, x1)) ;;
      let '(c4, x2) := r3 in
      if negb (wc c4 =? 46) then mk_token (computeTok x2) start
      else
        dot <- mark ;;
        assert_first (rest dot) 46 ;;
        nextWL start pol ;;
        c5 <- currentWL start pol ;;
        r5 <- handlePastDot start (imark_of dot) c5 (Base x2) pol x2 ;;
        let '(h, _, x3) := r5 in
        match h with
        | Bailout => mk_token (computeTok x3) start
        | Count _ => mk_token TK_Error_Number start
        end.

(** 2704-2752: the last [match] of the backquote part *)
Definition number_after_precision (start : pos) (pol : policy) (x : numctx) (accuracy supplied : bool) (c : wlchar) : M token :=
  if wc c =? 42 then
    if accuracy && negb supplied then mk_token TK_Error_Number start
    else
      star <- mark ;;
      assert_first (rest star) 42 ;;
      nextWL start pol ;;
      number_exponent start pol x star
  else if accuracy && negb supplied then mk_token TK_Error_Number start
  else mk_token (computeTok x) start.

(** 2550-2702: [match c.to_point() { Char('.') => … }] of the backquote part *)
Definition number_precision_dot (start : pos) (pol : policy) (x : numctx) (accuracy sign supplied : bool)
  (sign_mark : option pos) (c : wlchar) : M token :=
  if wc c =? 46 then
    dot <- mark ;;
    assert_first (rest dot) 46 ;;
    let past (c1 : wlchar) : M token :=
      r <- handlePastDot start (imark_of dot) c1 0 pol x ;;
      let '(h, c2, x1) := r in
      match h with
      | Bailout =>
          if supplied then mk_token (computeTok x1) start
          else if sign then
            match sign_mark with
            | Some m => backupAndWarn (imark_of m) ;; mk_token (computeTok x1) start
            | None => panic
            end
          else panic
      | Count n =>
          let supplied' := if n =? 0 then supplied else true in
          if negb supplied' then mk_token TK_Error_Number start
          else number_after_precision start pol x1 accuracy supplied' c2
      end in
    if negb (sign || supplied) then
      nextWL start pol ;;
      c1 <- currentWL start pol ;;
      if negb (isDigit (wc c1)) then
        if accuracy then mk_token TK_Error_Number start
        else if isSign (wc c1) then nextWL start pol ;; mk_token TK_Error_Number start
        else backupAndWarn (imark_of dot) ;; mk_token (computeTok x) start
      else past c1
    else
      nextWL start pol ;;
      c1 <- currentWL start pol ;;
      past c1
  else number_after_precision start pol x accuracy supplied c.

(** 2515-2548: optional digits after the sign *)
Definition number_precision_digits (start : pos) (pol : policy) (x : numctx) (accuracy sign : bool)
  (sign_mark : option pos) (c : wlchar) : M token :=
  if isDigit (wc c) then
    r <- handleDigits start pol c ;;
    let '(n, c1) := r in
    if (wc c1 =? 46) || (wc c1 =? 42) then
      number_precision_dot start pol x accuracy sign (0 <? n) sign_mark c1
    else mk_token (computeTok x) start
  else number_precision_dot start pol x accuracy sign false sign_mark c.

(** 2372-2513: [if c.to_point() == '`' { … }] up to the sign *)
Definition number_backquote (start : pos) (pol : policy) (x : numctx) : M token :=
  let x := set_real x in
  c <- currentWL start pol ;;
  r <- (if wc c =? 96 then nextWL start pol ;; c1 <- currentWL start pol ;; ret (c1, true)
        else ret (c, false)) ;;
  let '(c1, accuracy) := r in
  if (wc c1 =? 45) || (wc c1 =? 43) then
    sm <- mark ;;
    match rest sm with
    | [] => panic
    | b :: _ => assert_ (ifASCIIWLCharacter b 45 || ifASCIIWLCharacter b 43)
    end ;;
    nextWL start pol ;;
    c2 <- currentWL start pol ;;
    if isDigit (wc c2) || (wc c2 =? 46) then
      when_ (o_check_issues o && negb accuracy) (report UnexpectedSign Warning (ploc sm) (ploc sm)) ;;
      number_precision_digits start pol x accuracy true (Some sm) c2
    else if accuracy then mk_token TK_Error_Number start
    else backupAndWarn (imark_of sm) ;; mk_token (computeTok x) start
  else number_precision_digits start pol x accuracy false None c1.

(** A star: [starBuf = …; star_mark = …; assert!(…)], consumed, then 2756 onwards *)
Definition number_star (start : pos) (pol : policy) (x : numctx) : M token :=
  star <- mark ;;
  assert_first (rest star) 42 ;;
  nextWL start pol ;;
  number_exponent start pol x star.

(** The repeated [match c { '`' | '*' => …, _ => return computeTok }] of 2290-2368,
    followed by 2370-2756 *)
Definition number_tail (start : pos) (pol : policy) (x : numctx) (c : wlchar) : M token :=
  if wc c =? 96 then nextWL start pol ;; number_backquote start pol x
  else if wc c =? 42 then number_star start pol x
  else mk_token (computeTok x) start.

(** 2250-2368: [if c.to_point() == '.' { … }], the dot already consumed *)
Definition number_fraction (start : pos) (pol : policy) (x : numctx) (leading : Z) (lead_mark : imark) (c : wlchar) : M token :=
  r <- handlePossibleFractionalPart start lead_mark c (Base x) pol x ;;
  let '(h, c1, x1) := r in
  match h with
  | Bailout =>
      if leading =? 0 then mk_token TK_Error_Number start else mk_token (computeTok x1) start
  | Count n =>
      if (n =? 0) && (leading =? 0) then mk_token TK_Error_Number start
      else number_tail start pol (set_real x1) c1
  end.

(** 2091-2123: the base in front of [^^]; returns (InvalidBase, Base) *)
Definition number_base (nonZeroStart caret : list Z) : res (bool * Z) :=
  if Nat.eqb (length nonZeroStart) (length caret) then Ok (true, 0)
  else
    let txt := buf_between nonZeroStart caret in
    match txt with
    | [] => Panic
    | [a] => let b := toDigit a in Ok (negb (between 2 b 36), b)
    | [a; a'] => let b := toDigit a * 10 + toDigit a' in Ok (negb (between 2 b 36), b)
    | _ => Ok (true, 0)
    end.

(** 2080-2247: after the first [^] has been consumed *)
Definition number_caret (start : pos) (pol : policy) (nonZeroStart : list Z) (caret : pos) : M token :=
  c <- currentWL start pol ;;
  if negb (wc c =? 94) then seek caret ;; mk_token (computeTok ctx0) start
  else
    nextWL start pol ;;
    b <- lift (number_base nonZeroStart (rest caret)) ;;
    let x := set_base ctx0 (fst b) (snd b) in
    c1 <- currentWL start pol ;;
    if isAlphaOrDigit (wc c1) then
      r <- handleAlphaOrDigits start c1 (Base x) pol x ;;
      let '(n, c2, x1) := r in
      lead_mark <- mark ;;
      if wc c2 =? 46 then
        nextWL start pol ;; number_fraction start pol x1 n (imark_of lead_mark) c2
      else number_tail start pol x1 c2
    else if wc c1 =? 46 then
      lead_mark <- mark ;;
      nextWL start pol ;;
      number_fraction start pol x 0 (imark_of lead_mark) c1
    else if wc c1 =? EndOfFile then
      nextWL start pol ;; currentWL start pol ;; mk_token TK_Error_Number start
    else mk_token TK_Error_Number start.

(** 1910-2904 [Tokenizer_handleNumber] *)
Definition handleNumber (start : pos) (c : wlchar) (pol : policy) : M token :=
  assert_ (isDigit (wc c) || (wc c =? 46)) ;;
  if isDigit (wc c) then
    r <- (if wc c =? 48 then
            r <- handleZeros start pol c ;;
            nz <- get_rest ;;
            ret (fst r, snd r, nz)
          else ret (0, c, rest start)) ;;
    let '(zeros, c1, nonZeroStart) := r in
    m1 <- mark ;;
    r2 <- (if isDigit (wc c1) then
             r2 <- handleDigits start pol c1 ;;
             m2 <- mark ;;
             ret (zeros + fst r2, snd r2, m2)
           else ret (zeros, c1, m1)) ;;
    let '(leading, c2, lead_mark) := r2 in
    if p_intshort pol then
      when_ (o_check_issues o && (wc c2 =? 46)) (l <- get_loc ;; report_from Ambiguous Formatting l) ;;
      mk_token (computeTok ctx0) start
    else if wc c2 =? 94 then
      caret <- mark ;;
      assert_first (rest caret) 94 ;;
      nextWL start pol ;;
      number_caret start pol nonZeroStart caret
    else if wc c2 =? 46 then
      nextWL start pol ;;
      number_fraction start pol ctx0 leading (imark_of lead_mark) c2
    else number_tail start pol ctx0 c2
  else
    (* [InputMark::new(offset_of(token_start.buf), token_start.loc)] *)
    number_fraction start pol ctx0 0 (mkimark (rest start) None (ploc start)) c.

(** 3213-3274 *)
Definition handleColon (start : pos) (c : wlchar) (pol : policy) : M token :=
  assert_ (wc c =? 58) ;;
  c1 <- currentWL start pol ;;
  if wc c1 =? 58 then
    nextWL start pol ;;
    c2 <- currentWL start pol ;;
    if wc c2 =? 91 then nextWL start pol ;; mk_token TK_ColonColonOpenSquare start
    else mk_token TK_ColonColon start
  else if wc c1 =? 61 then nextWL start pol ;; mk_token TK_ColonEqual start
  else if wc c1 =? 62 then nextWL start pol ;; mk_token TK_ColonGreater start
  else mk_token TK_Colon start.

(** 3276-3311 *)
Definition handleOpenParen (start : pos) (c : wlchar) (pol : policy) : M token :=
  assert_ (wc c =? 40) ;;
  c1 <- psrc pol ;;
  if (match wesc c with ENone => true | _ => false end) && (c1 =? 42) then handleComment start c1 pol
  else mk_token TK_OpenParen start.

(** 3313-3362 *)
Definition handleDot (start : pos) (c : wlchar) (pol : policy) : M token :=
  assert_ (wc c =? 46) ;;
  c1 <- currentWL start pol ;;
  if isDigit (wc c1) then handleNumber start c pol
  else if wc c1 =? 46 then
    nextWL start pol ;;
    c2 <- currentWL start pol ;;
    if wc c2 =? 46 then nextWL start pol ;; mk_token TK_DotDotDot start
    else mk_token TK_DotDot start
  else mk_token TK_Dot start.

(** 3364-3431 *)
Definition handleEqual (start : pos) (c : wlchar) (pol : policy) : M token :=
  assert_ (wc c =? 61) ;;
  c1 <- currentWL start pol ;;
  if wc c1 =? 61 then
    nextWL start pol ;;
    c2 <- currentWL start pol ;;
    if wc c2 =? 61 then nextWL start pol ;; mk_token TK_EqualEqualEqual start
    else mk_token TK_EqualEqual start
  else if wc c1 =? 33 then
    m <- mark ;;
    nextWL start pol ;;
    c2 <- currentWL start pol ;;
    if wc c2 =? 61 then nextWL start pol ;; mk_token TK_EqualBangEqual start
    else backupAndWarn (imark_of m) ;; mk_token TK_Equal start
  else mk_token TK_Equal start.

(** 3433-3522 *)
Definition handleUnder (start : pos) (c : wlchar) (pol : policy) : M token :=
  assert_ (wc c =? 95) ;;
  c1 <- currentWL start pol ;;
  if wc c1 =? 95 then
    nextWL start pol ;;
    c2 <- currentWL start pol ;;
    if wc c2 =? 95 then nextWL start pol ;; mk_token TK_UnderUnderUnder start
    else mk_token TK_UnderUnder start
  else if wc c1 =? 46 then
    nextWL start pol ;;
    when_ (o_check_issues o)
      (l <- get_loc ;;
       c2 <- currentWL start pol ;;
       when_ (wc c2 =? 46) (report UnexpectedDot Error l l)) ;;
    mk_token TK_UnderDot start
  else mk_token TK_Under start.

(** 3524-3606 *)
Definition handleLess (start : pos) (c : wlchar) (pol : policy) : M token :=
  assert_ (wc c =? 60) ;;
  c1 <- currentWL start pol ;;
  if wc c1 =? 124 then nextWL start pol ;; mk_token TK_LessBar start
  else if wc c1 =? 60 then nextWL start pol ;; mk_token TK_LessLess start
  else if wc c1 =? 62 then nextWL start pol ;; mk_token TK_LessGreater start
  else if wc c1 =? 61 then nextWL start pol ;; mk_token TK_LessEqual start
  else if wc c1 =? 45 then
    m <- mark ;;
    nextWL start pol ;;
    c2 <- currentWL start pol ;;
    if wc c2 =? 62 then nextWL start pol ;; mk_token TK_LessMinusGreater start
    else backupAndWarn (imark_of m) ;; mk_token TK_Less start
  else mk_token TK_Less start.

(** 3608-3658 *)
Definition handleGreater (start : pos) (c : wlchar) (pol : policy) : M token :=
  assert_ (wc c =? 62) ;;
  c1 <- currentWL start pol ;;
  if wc c1 =? 62 then
    nextWL start pol ;;
    c2 <- currentWL start pol ;;
    if wc c2 =? 62 then nextWL start pol ;; mk_token TK_GreaterGreaterGreater start
    else mk_token TK_GreaterGreater start
  else if wc c1 =? 61 then nextWL start pol ;; mk_token TK_GreaterEqual start
  else mk_token TK_Greater start.

(** 3660-3798 *)
Definition handleMinus (start : pos) (c : wlchar) (pol : policy) : M token :=
  assert_ (wc c =? 45) ;;
  c1 <- currentWL start pol ;;
  if wc c1 =? 62 then nextWL start pol ;; mk_token TK_MinusGreater start
  else if wc c1 =? 45 then
    nextWL start pol ;;
    when_ (o_check_issues o)
      (l <- get_loc ;;
       c2 <- currentWL start pol ;;
       if wc c2 =? 62 then report Ambiguous Error (ploc start) l
       else if wc c2 =? 61 then report Ambiguous Formatting l l
       else ret tt) ;;
    mk_token TK_MinusMinus start
  else if wc c1 =? 61 then nextWL start pol ;; mk_token TK_MinusEqual start
  else mk_token TK_Minus start.

(** 3800-3898 *)
Definition handleBar (start : pos) (c : wlchar) (pol : policy) : M token :=
  assert_ (wc c =? 124) ;;
  c1 <- currentWL start pol ;;
  if wc c1 =? 62 then
    nextWL start pol ;;
    when_ (o_check_issues o)
      (l <- get_loc ;;
       c2 <- currentWL start pol ;;
       when_ (wc c2 =? 61) (report Ambiguous Formatting l l)) ;;
    mk_token TK_BarGreater start
  else if wc c1 =? 124 then nextWL start pol ;; mk_token TK_BarBar start
  else if wc c1 =? 45 then
    m <- mark ;;
    nextWL start pol ;;
    c2 <- currentWL start pol ;;
    if wc c2 =? 62 then nextWL start pol ;; mk_token TK_BarMinusGreater start
    else backupAndWarn (imark_of m) ;; mk_token TK_Bar start
  else mk_token TK_Bar start.

(** An operator character that may be doubled: 3900-3925 [Semi], 3966-3993 [Hash],
    4032-4059 [Amp], 4324-4349 [Tilde], 4351-4376 [Question] *)
Definition handle_double (ch one two : Z) (start : pos) (c : wlchar) (pol : policy) : M token :=
  assert_ (wc c =? ch) ;;
  c1 <- currentWL start pol ;;
  if wc c1 =? ch then nextWL start pol ;; mk_token two start
  else mk_token one start.
Definition handleSemi := handle_double 59 TK_Semi TK_SemiSemi.
Definition handleHash := handle_double 35 TK_Hash TK_HashHash.
Definition handleAmp := handle_double 38 TK_Amp TK_AmpAmp.
Definition handleTilde := handle_double 126 TK_Tilde TK_TildeTilde.
Definition handleQuestion := handle_double 63 TK_Question TK_QuestionQuestion.

(** 3927-3964 *)
Definition handleBang (start : pos) (c : wlchar) (pol : policy) : M token :=
  assert_ (wc c =? 33) ;;
  c1 <- currentWL start pol ;;
  if wc c1 =? 61 then nextWL start pol ;; mk_token TK_BangEqual start
  else if wc c1 =? 33 then nextWL start pol ;; mk_token TK_BangBang start
  else mk_token TK_Bang start.

(** 4012-4024 *)
Fixpoint percent_loop (fuel : nat) (start : pos) (pol : policy) (c : wlchar) : M unit :=
  match fuel with
  | O => out_of_fuel
  | S k =>
      if negb (wc c =? 37) then ret tt
      else nextWL start pol ;; c1 <- currentWL start pol ;; percent_loop k start pol c1
  end.

(** 3995-4030 *)
Definition handlePercent (start : pos) (c : wlchar) (pol : policy) : M token :=
  assert_ (wc c =? 37) ;;
  c1 <- currentWL start pol ;;
  if wc c1 =? 37 then
    c2 <- currentWL start pol ;;
    with_fuel (fun n => percent_loop n start pol c2) ;;
    mk_token TK_PercentPercent start
  else mk_token TK_Percent start.

(** 4061-4198 *)
Definition handleSlash (start : pos) (c : wlchar) (pol : policy) : M token :=
  assert_ (wc c =? 47) ;;
  c1 <- currentWL start pol ;;
  if wc c1 =? 64 then nextWL start pol ;; mk_token TK_SlashAt start
  else if wc c1 =? 59 then nextWL start pol ;; mk_token TK_SlashSemi start
  else if wc c1 =? 46 then
    m <- mark ;;
    nextWL start pol ;;
    c2 <- currentWL start pol ;;
    if negb (isDigit (wc c2)) then mk_token TK_SlashDot start
    else backupAndWarn (imark_of m) ;; mk_token TK_Slash start
  else if wc c1 =? 47 then
    nextWL start pol ;;
    c2 <- currentWL start pol ;;
    if wc c2 =? 46 then nextWL start pol ;; mk_token TK_SlashSlashDot start
    else if wc c2 =? 64 then nextWL start pol ;; mk_token TK_SlashSlashAt start
    else if wc c2 =? 61 then nextWL start pol ;; mk_token TK_SlashSlashEqual start
    else mk_token TK_SlashSlash start
  else if wc c1 =? 58 then nextWL start pol ;; mk_token TK_SlashColon start
  else if wc c1 =? 61 then nextWL start pol ;; mk_token TK_SlashEqual start
  else if wc c1 =? 42 then nextWL start pol ;; mk_token TK_SlashStar start
  else mk_token TK_Slash start.

(** 4200-4249 *)
Definition handleAt (start : pos) (c : wlchar) (pol : policy) : M token :=
  assert_ (wc c =? 64) ;;
  c1 <- currentWL start pol ;;
  if wc c1 =? 64 then
    nextWL start pol ;;
    c2 <- currentWL start pol ;;
    if wc c2 =? 64 then nextWL start pol ;; mk_token TK_AtAtAt start
    else mk_token TK_AtAt start
  else if wc c1 =? 42 then nextWL start pol ;; mk_token TK_AtStar start
  else mk_token TK_At start.

(** 4251-4322 *)
Definition handlePlus (start : pos) (c : wlchar) (pol : policy) : M token :=
  assert_ (wc c =? 43) ;;
  c1 <- currentWL start pol ;;
  if wc c1 =? 43 then
    nextWL start pol ;;
    when_ (o_check_issues o)
      (c2 <- currentWL start pol ;;
       when_ (wc c2 =? 61) (l <- get_loc ;; report Ambiguous Formatting l l)) ;;
    mk_token TK_PlusPlus start
  else if wc c1 =? 61 then nextWL start pol ;; mk_token TK_PlusEqual start
  else mk_token TK_Plus start.

(** 4378-4425 *)
Definition handleStar (start : pos) (c : wlchar) (pol : policy) : M token :=
  assert_ (wc c =? 42) ;;
  c1 <- currentWL start pol ;;
  if wc c1 =? 61 then nextWL start pol ;; mk_token TK_StarEqual start
  else if wc c1 =? 42 then nextWL start pol ;; mk_token TK_StarStar start
  else if wc c1 =? 41 then nextWL start pol ;; mk_token TK_Error_UnexpectedCommentCloser start
  else mk_token TK_Star start.

(** 4427-4476 *)
Definition handleCaret (start : pos) (c : wlchar) (pol : policy) : M token :=
  assert_ (wc c =? 94) ;;
  c1 <- currentWL start pol ;;
  if wc c1 =? 58 then
    nextWL start pol ;;
    c2 <- currentWL start pol ;;
    if wc c2 =? 61 then nextWL start pol ;; mk_token TK_CaretColonEqual start
    else mk_token TK_Error_ExpectedEqual start
  else if wc c1 =? 61 then nextWL start pol ;; mk_token TK_CaretEqual start
  else mk_token TK_Caret start.

(** 4512-4533 *)
Fixpoint badname_loop (fuel : nat) (start : pos) (pol : policy) (reset : pos) (c : wlchar) : M unit :=
  match fuel with
  | O => out_of_fuel
  | S k =>
      if isAlphaOrDigit (wc c) then
        m <- mark ;; c1 <- nextWL start pol ;; badname_loop k start pol m c1
      else if wc c =? 93 then ret tt
      else seek reset
  end.

(** 4556-4567 and the three loops like it: [for _ in 0..n] *)
Fixpoint baddigits_loop (n : nat) (start : pos) (pol : policy) (p : Z -> bool) (reset : pos) (c : wlchar) : M unit :=
  match n with
  | O => ret tt
  | S k =>
      if p (wc c) then
        m <- mark ;; c1 <- nextWL start pol ;; baddigits_loop k start pol p m c1
      else seek reset
  end.

(** 4478-4650 *)
Definition handleUnhandledBackslash (start : pos) (c : wlchar) (pol : policy) : M token :=
  assert_ (wc c =? 92) ;;
  c1 <- nextWL start pol ;;
  let digits n p :=
    m <- mark ;; c2 <- nextWL start pol ;; baddigits_loop n start pol p m c2 in
  (if wc c1 =? 91 then
     m <- mark ;;
     c2 <- nextWL start pol ;;
     if isUpper (wc c2) then
       m2 <- mark ;;
       c3 <- nextWL start pol ;;
       with_fuel (fun n => badname_loop (S n) start pol m2 c3)
     else ret tt
   else if wc c1 =? 58 then digits 4%nat isHex
   else if wc c1 =? 46 then digits 2%nat isHex
   else if between 48 (wc c1) 55 then digits 3%nat isOctal
   else if wc c1 =? 124 then digits 6%nat isHex
   else ret tt) ;;
  mk_token TK_Error_UnhandledCharacter start.

(** 4662-4684 *)
Definition handleMBStrangeNewline (start : pos) (c : wlchar) (pol : policy) : M token :=
  assert_ (isMBStrangeNewline (wc c)) ;;
  when_ (o_check_issues o) (add_unexpected_char_issue c (ploc start) UnexpectedNewlineCharacter) ;;
  mk_token (newline_with_policy pol) start.

(** 4686-4705 *)
Definition handleMBStrangeWhitespace (start : pos) (c : wlchar) (pol : policy) : M token :=
  assert_ (isMBStrangeWhitespace (wc c)) ;;
  when_ (o_check_issues o) (add_unexpected_char_issue c (ploc start) UnexpectedSpaceCharacter) ;;
  mk_token TK_Whitespace start.

(** 4707-4726 *)
Definition handleMBPunctuation (start : pos) (c : wlchar) (pol : policy) : M token :=
  assert_ (isMBPunctuation (wc c)) ;;
  assert_ (is_char (wc c)) ;;
  k <- lift (LongNameCodePointToOperator (wc c)) ;;
  mk_token k start.

(** 4728-4779; the arms left out are [todo!()] *)
Definition naked_linear_syntax_kind (c : Z) : res Z :=
  switch c
    [ (LS_CLOSEPAREN, Ok TK_LinearSyntax_CloseParen); (LS_AT, Ok TK_LinearSyntax_At);
      (LS_PERCENT, Ok TK_LinearSyntax_Percent); (LS_CARET, Ok TK_LinearSyntax_Caret);
      (LS_AMP, Ok TK_LinearSyntax_Amp); (LS_STAR, Ok TK_LinearSyntax_Star);
      (LS_UNDER, Ok TK_LinearSyntax_Under); (LS_PLUS, Ok TK_LinearSyntax_Plus);
      (LS_SLASH, Ok TK_LinearSyntax_Slash); (LS_BACKTICK, Ok TK_LinearSyntax_BackTick);
      (LinearSyntax_Space, Ok TK_LinearSyntax_Space) ]
    Panic.
Definition handleNakedMBLinearSyntax (start : pos) (c : wlchar) (pol : policy) : M token :=
  assert_ (isMBLinearSyntax (wc c)) ;;
  k <- lift (naked_linear_syntax_kind (wc c)) ;;
  mk_token k start.

(** 548-799 [Tokenizer_nextToken_uncommon] *)
Definition nextToken_uncommon (start : pos) (c : wlchar) (pol : policy) : M token :=
  let p := wc c in
  if p =? EndOfFile then mk_token TK_EndOfFile start
  else if zin p [Unsafe1Byte; Unsafe2Byte; Unsafe3Byte] then mk_token TK_Error_UnsafeCharacterEncoding start
  else if (p =? 96) || between 97 p 122 || between 0 p 6 || (p =? 8) || between 14 p 31 then handleSymbol start c pol
  else if zin p [7; 127] then mk_token TK_Error_UnhandledCharacter start
  else if p =? 9 then mk_token TK_Whitespace start
  else if zin p [11; 12] then handleStrangeWhitespace start c pol
  else if p =? 13 then mk_token (newline_with_policy pol) start
  else if p =? 40 then handleOpenParen start c pol
  else if p =? 41 then mk_token TK_CloseParen start
  else if p =? 43 then handlePlus start c pol
  else if p =? 94 then handleCaret start c pol
  else if p =? 61 then handleEqual start c pol
  else if p =? 59 then handleSemi start c pol
  else if p =? 58 then handleColon start c pol
  else if p =? 35 then handleHash start c pol
  else if p =? 38 then handleAmp start c pol
  else if p =? 33 then handleBang start c pol
  else if p =? 37 then handlePercent start c pol
  else if p =? 39 then mk_token TK_SingleQuote start
  else if p =? 42 then handleStar start c pol
  else if p =? 46 then handleDot start c pol
  else if p =? 47 then handleSlash start c pol
  else if p =? 60 then handleLess start c pol
  else if p =? 62 then handleGreater start c pol
  else if p =? 63 then handleQuestion start c pol
  else if p =? 64 then handleAt start c pol
  else if p =? 92 then handleUnhandledBackslash start c pol
  else if p =? 95 then handleUnder start c pol
  else if p =? 124 then handleBar start c pol
  else if p =? 126 then handleTilde start c pol
  else if p =? LS_BANG then mk_token TK_LinearSyntax_Bang start
  else if p =? LS_OPENPAREN then handleMBLinearSyntaxBlob start c pol
  else if isMBLinearSyntax p then handleNakedMBLinearSyntax start c pol
  else if isMBUninterpretable p then mk_token TK_Error_UnhandledCharacter start
  else if isMBStrangeWhitespace p then handleMBStrangeWhitespace start c pol
  else if isMBWhitespace p then mk_token TK_Whitespace start
  else if isMBStrangeNewline p then handleMBStrangeNewline start c pol
  else if isMBNewline p then mk_token (newline_with_policy pol) start
  else if isMBPunctuation p then handleMBPunctuation start c pol
  else if isMBStringMeta p then mk_token TK_Error_UnhandledCharacter start
  else assert_ (isMBLetterlike p) ;; handleSymbol start c pol.

(** 485-518 [TOKENIZER_HANDLER_TABLE], 525-546 [Tokenizer_nextToken] *)
Definition dispatch (start : pos) (c : wlchar) (pol : policy) : M token :=
  let p := wc c in
  if negb (between 0 p 127) then nextToken_uncommon start c pol
  else if p =? 10 then mk_token (newline_with_policy pol) start
  else if p =? 32 then mk_token TK_Whitespace start
  else if p =? 34 then handleString start c pol
  else if (p =? 36) || between 65 p 90 || between 97 p 122 then handleSymbol start c pol
  else if p =? 44 then mk_token TK_Comma start
  else if p =? 45 then handleMinus start c pol
  else if between 48 p 57 then handleNumber start c pol
  else if p =? 91 then mk_token TK_OpenSquare start
  else if p =? 93 then mk_token TK_CloseSquare start
  else if p =? 123 then mk_token TK_OpenCurly start
  else if p =? 125 then mk_token TK_CloseCurly start
  else nextToken_uncommon start c pol.

Definition nextToken (pol : policy) : M token :=
  start <- mark ;;
  c <- nextWL start pol ;;
  dispatch start c pol.

(** 801-845 [Tokenizer_nextToken_stringifyAsTag] *)
Definition nextToken_stringifyAsTag : M token :=
  start <- mark ;;
  c <- nextWL start INSIDE_STRINGIFY_AS_TAG ;;
  if wc c =? EndOfFile then error_token_at TK_Error_ExpectedTag start
  else if is_newline_char (wc c) then error_token_at TK_Error_ExpectedTag start
  else if wc c =? 34 then handleString start c INSIDE_STRINGIFY_AS_TAG
  else handleString_stringifyAsTag start c INSIDE_STRINGIFY_AS_TAG.

(** 850-915 [Tokenizer_nextToken_stringifyAsFile] *)
Definition nextToken_stringifyAsFile : M token :=
  start <- mark ;;
  c <- nsrc INSIDE_STRINGIFY_AS_FILE ;;
  if c =? EndOfFile then error_token_at TK_Error_ExpectedFile start
  else if is_newline_char c then mk_token (newline_with_policy INSIDE_STRINGIFY_AS_FILE) start
  else if (c =? 32) || (c =? 9) then mk_token TK_Whitespace start
  else if c =? 34 then handleString start (wl c) INSIDE_STRINGIFY_AS_FILE
  else handleString_stringifyAsFile start c INSIDE_STRINGIFY_AS_FILE.

(** 297-321 [peek_token_with]; [inside_group] is [!GroupStack.is_empty()] *)
Definition peek_token_with (inside_group : bool) (pol : policy) : M token :=
  peek (nextToken (if inside_group then without_toplevel pol else pol)).
(** 290-295 [peek_token] *)
Definition peek_token (inside_group : bool) : M token := peek_token_with inside_group TOPLEVEL.
(** 347-349 [next_token] *)
Definition next_token : M token := nextToken TOPLEVEL.
(** 917-939 *)
Definition peek_token_as_tag : M token := peek nextToken_stringifyAsTag.
Definition peek_token_as_file : M token := peek nextToken_stringifyAsFile.

(** token.rs [TokenRef::skip] *)
Definition skip (t : token) : M unit :=
  fun s => Ok (tt, mkst (mkpos (skipn (length (t_text t)) (t_start t)) (t_kind t =? TK_EndOfFile) (sp_end (t_src t))) (lg s)).
(** token.rs [TokenRef::reset] *)
Definition reset (t : token) : M unit := seek_loc (t_start t) (sp_start (t_src t)).

(** lib.rs [FirstLineBehavior] *)
Inductive first_line := NotScript | CheckFirst | Script.

(** 196-233 and 240-274: the loops *)
Fixpoint skip_line_loop (fuel : nat) : M unit :=
  match fuel with
  | O => out_of_fuel
  | S k =>
      t <- peek_token false ;;
      if t_kind t =? TK_EndOfFile then ret tt
      else if t_kind t =? TK_ToplevelNewline then skip t
      else skip t ;; skip_line_loop k
  end.

(** 168-277 [handle_first_line] *)
Definition handle_first_line (b : first_line) : M unit :=
  match b with
  | NotScript => ret tt
  | CheckFirst | Script =>
      t <- peek_token false ;;
      if negb (t_kind t =? TK_Hash) then ret tt
      else
        skip t ;;
        t2 <- peek_token false ;;
        if negb (t_kind t2 =? TK_Bang) then ret tt
        else skip t2 ;; with_fuel skip_line_loop
  end.

(** lib.rs [tokenize_bytes]: the loop, up to [EndOfFile] *)
Fixpoint tokens_loop (fuel : nat) : M (list token) :=
  match fuel with
  | O => out_of_fuel
  | S k =>
      t <- peek_token false ;;
      if t_kind t =? TK_EndOfFile then ret []
      else skip t ;; ts <- tokens_loop k ;; ret (t :: ts)
  end.

(** iter.rs [tokens]: [next_token] until [EndOfFile] *)
Fixpoint next_tokens_loop (fuel : nat) : M (list token) :=
  match fuel with
  | O => out_of_fuel
  | S k =>
      t <- next_token ;;
      if t_kind t =? TK_EndOfFile then ret []
      else ts <- next_tokens_loop k ;; ret (t :: ts)
  end.

(** 137-166 [Tokenizer::new] followed by the token loop *)
Definition run_tokens (b : first_line) : M (list token) :=
  handle_first_line b ;; with_fuel tokens_loop.

Definition tokenize_raw (b : first_line) (input : list Z) : res (list token * st) :=
  run_tokens b (reader_new o input).

End WithOpts.
