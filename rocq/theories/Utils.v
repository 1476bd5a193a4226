(** Small pure helpers: utils.rs, the span operations of source.rs, the option codes of
    lib.rs, the names of issue.rs and tokenizer.rs, the ordering of issues, and the
    line utilities of error.rs.  Paths are relative to
    /repo/crates/wolfram-parser/src. *)
From Coq Require Import String ZArith List Bool Lia.
From Verif Require Import Base Source Tokenizer.
Import ListNotations.
Local Open Scope Z_scope.

(** utils.rs 503-524: the loop of [split_by_pairs].  The pair (slice, right_index) is
    represented by the part [slice[..right_index]] already examined ([cur], which is
    never empty, with its last element [last]) and the rest.  The predicate may
    panic. *)
Fixpoint split_by_pairs_from {T} (pred : T -> T -> res bool) (cur : list T) (last : T)
         (l : list T) : res (list (list T)) :=
  match l with
  | [] => Ok [cur]
  | next :: l' =>
      rbind (pred last next) (fun b =>
        if b then split_by_pairs_from pred (cur ++ [next]) next l'
        else rmap (cons cur) (split_by_pairs_from pred [next] next l'))
  end.

(** utils.rs 486-502 [split_by_pairs] *)
Definition split_by_pairs {T} (pred : T -> T -> res bool) (l : list T) : res (list (list T)) :=
  match l with
  | [] => Ok []
  | x :: l' => split_by_pairs_from pred [x] x l'
  end.

(** utils.rs 717-722 [is_interval_member] *)
Definition is_interval_member (a b : Z * Z) : bool :=
  (fst a <=? fst b) && (snd b <=? snd a).

(** utils.rs 725-746 [intersection]; the two assertions are panics.  The debug assertion
    cannot fail by construction. *)
Definition intersection (a b : Z * Z) : res (option (Z * Z)) :=
  let '(a, b) := if fst a <? fst b then (a, b) else (b, a) in
  let '(a_start, a_end) := a in
  let '(b_start, b_end) := b in
  if negb (a_start <=? a_end) then Panic
  else if negb (b_start <=? b_end) then Panic
  else
    let highest_start := Z.max a_start b_start in
    let lowest_end := Z.min a_end b_end in
    if lowest_end <? highest_start then Ok None
    else Ok (Some (highest_start, lowest_end)).

(** source.rs 681-683 [CharacterSpan::contains_span] *)
Definition char_contains_span (self other : Z * Z) : bool := is_interval_member self other.

(** source.rs 685-687 [CharacterSpan::intersects] *)
Definition char_intersects (self other : Z * Z) : res bool :=
  rmap (fun r => match r with Some _ => true | None => false end) (intersection self other).

(** source.rs 695-708 [CharacterSpan::to_rust_range]; a zero start panics, as does the
    subtraction for a zero end. *)
Definition to_rust_range (s : Z * Z) : res (Z * Z) :=
  if (0 <? fst s) && (0 <? snd s) then Ok (fst s - 1, snd s - 1) else Panic.

(** source.rs 439-457 [SpanKind] *)
Inductive span_kind :=
| LineColumnSpan (start_line start_col end_line end_col : Z)
| CharacterSpan (a b : Z).

(** source.rs 793-812 [Span::kind] *)
Definition kind_of_span (s : span) : res span_kind :=
  match sp_start s, sp_end s with
  | CharIdx a, CharIdx b => Ok (CharacterSpan a b)
  | LineCol l1 c1, LineCol l2 c2 => Ok (LineColumnSpan l1 c1 l2 c2)
  | _, _ => Panic
  end.

(** source.rs 845-881 [LineColumnSpan::contains] *)
Definition lc_contains (l1 c1 l2 c2 line col : Z) : bool :=
  if negb ((l1 <=? line) && (line <=? l2)) then false
  else if (line =? l1) && (l1 =? l2) then (c1 <=? col) && (col <=? c2)
  else if line =? l1 then c1 <=? col
  else if line =? l2 then col <=? c2
  else true.

(** source.rs 897-901 [LineColumnSpan::overlaps] *)
Definition lc_overlaps (l1 c1 l2 c2 : Z) (m1 d1 m2 d2 : Z) : bool :=
  lc_contains l1 c1 l2 c2 m1 d1 || lc_contains l1 c1 l2 c2 m2 d2.

(** source.rs 769-791 [Span::overlaps] *)
Definition span_overlaps (self other : span) : res bool :=
  rbind (kind_of_span self) (fun k1 =>
  rbind (kind_of_span other) (fun k2 =>
    match k1, k2 with
    | LineColumnSpan l1 c1 l2 c2, LineColumnSpan m1 d1 m2 d2 =>
        Ok (lc_overlaps l1 c1 l2 c2 m1 d1 m2 d2)
    | CharacterSpan a b, CharacterSpan c d => char_intersects (a, b) (c, d)
    | _, _ => Panic
    end)).

(** tokenize/token.rs 91-97 [TokenSource::between] for [Span]: from the start of one span
    to the end of another; the starts must be ordered and so must the result. *)
Definition Span_between (a b : span) : res span :=
  match loc_leb (sp_start a) (sp_start b) with
  | Some true => Span_new (sp_start a) (sp_end b)
  | _ => Panic
  end.

(** source.rs 904-915 [LineColumnSpan::column_width]: debug assertion on the lines, then
    an unsigned subtraction. *)
Definition column_width (l1 c1 l2 c2 : Z) : res Z :=
  if negb (l1 =? l2) then Panic else if c2 <? c1 then Panic else Ok (c2 - c1).

(** lib.rs 220-258 option enumerations ([FirstLineBehavior] is in Tokenizer.v) *)
Inductive encoding_mode := EncNormal | EncBox.
Inductive stringify_mode := StrNormal | StrTag | StrFile.

(** lib.rs 713-725 *)
Definition first_line_of_i32 (v : Z) : option first_line :=
  match v with 0 => Some NotScript | 1 => Some CheckFirst | 2 => Some Script | _ => None end.
(** lib.rs 727-738 *)
Definition encoding_of_i32 (v : Z) : option encoding_mode :=
  match v with 0 => Some EncNormal | 1 => Some EncBox | _ => None end.
(** lib.rs 740-752 *)
Definition stringify_of_i32 (v : Z) : option stringify_mode :=
  match v with 0 => Some StrNormal | 1 => Some StrTag | 2 => Some StrFile | _ => None end.
(** lib.rs 754-765 *)
Definition convention_of_i32 (v : Z) : option convention :=
  match v with 0 => Some ConvLineColumn | 1 => Some ConvCharacterIndex | _ => None end.

(** The discriminants ([= 0], [= 1], ..) the same enumerations are declared with,
    lib.rs 200-258 and source.rs 351-364. *)
Definition first_line_code (v : first_line) : Z :=
  match v with NotScript => 0 | CheckFirst => 1 | Script => 2 end.
Definition encoding_code (v : encoding_mode) : Z :=
  match v with EncNormal => 0 | EncBox => 1 end.
Definition stringify_code (v : stringify_mode) : Z :=
  match v with StrNormal => 0 | StrTag => 1 | StrFile => 2 end.
Definition convention_code (v : convention) : Z :=
  match v with ConvLineColumn => 0 | ConvCharacterIndex => 1 end.

Local Open Scope string_scope.

(** issue.rs 79-112 [IssueTag::as_str] *)
Definition tag_as_str (t : issue_tag) : string :=
  match t with
  | Ambiguous => "Ambiguous"
  | UnhandledCharacter => "UnhandledCharacter"
  | UnexpectedCharacter => "UnexpectedCharacter"
  | UnexpectedCarriageReturn => "UnexpectedCarriageReturn"
  | UnexpectedSpaceCharacter => "UnexpectedSpaceCharacter"
  | UnexpectedNewlineCharacter => "UnexpectedNewlineCharacter"
  | UnexpectedDot => "UnexpectedDot"
  | UnexpectedSign => "UnexpectedSign"
  | UnexpectedImplicitTimes => "UnexpectedImplicitTimes"
  | UnexpectedLetterlikeCharacter => "UnexpectedLetterlikeCharacter"
  | UnrecognizedLongName => "UnrecognizedLongName"
  | UndocumentedSlotSyntax => "UndocumentedSlotSyntax"
  | NonASCIICharacter => "NonASCIICharacter"
  | IncompleteUTF8SequenceTag => "IncompleteUTF8Sequence"
  | StraySurrogateTag => "StraySurrogate"
  | BOMTag => "BOM"
  | SyntaxUndocumentedMessageName => "SyntaxUndocumentedMessageName"
  | PrefixNotNot => "PrefixNotNot"
  | StrangeCall => "StrangeCall"
  | StrangeCallSlotSequence => "StrangeCallSlotSequence"
  end.

(** A Rust [match] on string literals: the first arm whose literal is equal. *)
Fixpoint string_match {A} (s : string) (arms : list (string * A)) : option A :=
  match arms with
  | [] => None
  | (k, v) :: r => if String.eqb s k then Some v else string_match s r
  end.

(** issue.rs 115-148 [IssueTag::from_str] *)
Definition tag_from_str (s : string) : option issue_tag :=
  string_match s
    [ ("Ambiguous", Ambiguous);
      ("UnhandledCharacter", UnhandledCharacter);
      ("UnexpectedCharacter", UnexpectedCharacter);
      ("UnexpectedCarriageReturn", UnexpectedCarriageReturn);
      ("UnexpectedSpaceCharacter", UnexpectedSpaceCharacter);
      ("UnexpectedNewlineCharacter", UnexpectedNewlineCharacter);
      ("UnexpectedDot", UnexpectedDot);
      ("UnexpectedSign", UnexpectedSign);
      ("UnexpectedImplicitTimes", UnexpectedImplicitTimes);
      ("UnexpectedLetterlikeCharacter", UnexpectedLetterlikeCharacter);
      ("UnrecognizedLongName", UnrecognizedLongName);
      ("UndocumentedSlotSyntax", UndocumentedSlotSyntax);
      ("NonASCIICharacter", NonASCIICharacter);
      ("IncompleteUTF8Sequence", IncompleteUTF8SequenceTag);
      ("StraySurrogate", StraySurrogateTag);
      ("BOM", BOMTag);
      ("SyntaxUndocumentedMessageName", SyntaxUndocumentedMessageName);
      ("PrefixNotNot", PrefixNotNot);
      ("StrangeCall", StrangeCall);
      ("StrangeCallSlotSequence", StrangeCallSlotSequence) ].

(** issue.rs 152-161 [Severity::as_str] *)
Definition severity_as_str (v : severity) : string :=
  match v with
  | Formatting => "Formatting" | Remark => "Remark" | Warning => "Warning"
  | Error => "Error" | Fatal => "Fatal"
  end.

(** issue.rs 164-175 [Severity::from_str] *)
Definition severity_from_str (s : string) : option severity :=
  string_match s
    [ ("Formatting", Formatting); ("Remark", Remark); ("Warning", Warning);
      ("Error", Error); ("Fatal", Fatal) ].

(** tokenizer.rs 77-87 [UnsafeCharacterEncoding::as_str] *)
Definition unsafe_as_str (v : unsafe_encoding) : string :=
  match v with
  | IncompleteUTF8Sequence => "IncompleteUTF8Sequence"
  | StraySurrogate => "StraySurrogate"
  | BOM => "BOM"
  end.

(** tokenizer.rs 89-101 [UnsafeCharacterEncoding::from_str] *)
Definition unsafe_from_str (s : string) : option unsafe_encoding :=
  string_match s
    [ ("IncompleteUTF8Sequence", IncompleteUTF8Sequence);
      ("StraySurrogate", StraySurrogate); ("BOM", BOM) ].

(** tokenizer.rs 115-120 [missing_reason] *)
Definition missing_reason (v : unsafe_encoding) : string :=
  "UnsafeCharacterEncoding_" ++ unsafe_as_str v.

(** [str::trim_start_matches] with a string pattern: drop the pattern from the front as
    often as it occurs there. *)
Fixpoint trim_start_matches (fuel : nat) (p s : string) : string :=
  match fuel with
  | O => s
  | S f => if prefix p s
           then trim_start_matches f p (substring (String.length p) (String.length s) s)
           else s
  end.

(** tokenizer.rs 103-113 [from_missing_reason].  The fuel is the length of the string:
    each round drops a non-empty prefix. *)
Definition from_missing_reason (s : string) : option unsafe_encoding :=
  if negb (prefix "UnsafeCharacterEncoding_" s) then None
  else unsafe_from_str (trim_start_matches (String.length s) "UnsafeCharacterEncoding_" s).

Local Close Scope string_scope.

(** source.rs 376-389 [Source].  Box positions are never compared by [<]; they are
    represented by their index list. *)
Inductive source := SrcSpan (s : span) | SrcBox (pos : list Z) | SrcUnknown.

(** source.rs 1151-1169 [partial_cmp] of locations; [None] for different conventions. *)
Definition loc_cmp (a b : loc) : option comparison :=
  match a, b with
  | LineCol l1 c1, LineCol l2 c2 =>
      Some (match Z.compare l1 l2 with Eq => Z.compare c1 c2 | r => r end)
  | CharIdx i, CharIdx j => Some (Z.compare i j)
  | _, _ => None
  end.

(** source.rs 1183-1196 [partial_cmp] of spans (by start) and of sources *)
Definition source_cmp (a b : source) : option comparison :=
  match a, b with
  | SrcSpan s, SrcSpan t => loc_cmp (sp_start s) (sp_start t)
  | _, _ => None
  end.

(** issue.rs 25-50: the derived [Ord] of [IssueTag] is the order of declaration. *)
Definition tag_rank (t : issue_tag) : Z :=
  match t with
  | Ambiguous => 0 | UnhandledCharacter => 1 | UnexpectedCharacter => 2
  | UnexpectedCarriageReturn => 3 | UnexpectedSpaceCharacter => 4
  | UnexpectedNewlineCharacter => 5 | UnexpectedDot => 6 | UnexpectedSign => 7
  | UnexpectedImplicitTimes => 8 | UnexpectedLetterlikeCharacter => 9
  | UnrecognizedLongName => 10 | UndocumentedSlotSyntax => 11 | NonASCIICharacter => 12
  | IncompleteUTF8SequenceTag => 13 | StraySurrogateTag => 14 | BOMTag => 15
  | SyntaxUndocumentedMessageName => 16 | PrefixNotNot => 17 | StrangeCall => 18
  | StrangeCallSlotSequence => 19
  end.

(** issue.rs 228-250 [Issue::cmp].  An issue is represented by the two fields the
    comparison reads: its source and its tag. *)
Definition issue_cmp (a b : source * issue_tag) : comparison :=
  match source_cmp (fst a) (fst b) with
  | Some Lt => Lt
  | _ => CompOpp (Z.compare (tag_rank (snd a)) (tag_rank (snd b)))
  end.

(** A [&str] is represented by its list of characters (code points) in the line
    utilities below.

    error.rs 756-795: the loop of [split_lines_keep_sep]; [line] is
    [input[start..index]]. *)
Fixpoint split_lines_from (line : list Z) (input : list Z) : list (list Z * list Z) :=
  match input with
  | [] => match line with [] => [] | _ => [(line, [])] end
  | c :: r =>
      if c =? 10 then (line, [10]) :: split_lines_from [] r
      else if c =? 13 then
        match r with
        | d :: r' => if d =? 10 then (line, [13; 10]) :: split_lines_from [] r'
                     else (line, [13]) :: split_lines_from [] r
        | [] => (line, [13]) :: split_lines_from [] r
        end
      else split_lines_from (line ++ [c]) r
  end.

(** error.rs 740-795 [split_lines_keep_sep] *)
Definition split_lines_keep_sep (input : list Z) : list (list Z * list Z) :=
  match input with
  | [] => [([], [])]
  | _ => split_lines_from [] input
  end.
