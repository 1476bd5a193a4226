(** Locations, spans, policies, options, issues, reader state and the state monad.
    Models source.rs, issue.rs (data only) and read.rs. *)
From Coq Require Import ZArith List Bool Lia.
From Verif Require Import Base.
Import ListNotations.
Local Open Scope Z_scope.

(** source.rs 413-425 [Location]: line/column (both NonZeroU32) or character index.
    Simplification: unbounded integers. *)
Inductive loc : Type :=
| LineCol : Z -> Z -> loc
| CharIdx : Z -> loc.

(** source.rs 351-364 [SourceConvention] *)
Inductive convention := ConvLineColumn | ConvCharacterIndex.

(** byte_decoder.rs 1136-1144 [newSourceLocation] *)
Definition newSourceLocation (c : convention) : loc :=
  match c with
  | ConvLineColumn => LineCol 1 1
  | ConvCharacterIndex => CharIdx 1
  end.

(** source.rs 1151-1181: [partial_cmp] of locations, as [<=].
    Mixed conventions panic there; that is the [None] case. *)
Definition loc_leb (a b : loc) : option bool :=
  match a, b with
  | LineCol l1 c1, LineCol l2 c2 => Some ((l1 <? l2) || ((l1 =? l2) && (c1 <=? c2)))
  | CharIdx i, CharIdx j => Some (i <=? j)
  | _, _ => None
  end.

Definition loc_eqb (a b : loc) : bool :=
  match a, b with
  | LineCol l1 c1, LineCol l2 c2 => (l1 =? l2) && (c1 =? c2)
  | CharIdx i, CharIdx j => i =? j
  | _, _ => false
  end.

(** source.rs 404-410 [Span] *)
Record span := mkspan { sp_start : loc; sp_end : loc }.

Definition span_eqb (a b : span) : bool :=
  loc_eqb (sp_start a) (sp_start b) && loc_eqb (sp_end a) (sp_end b).

(** source.rs 728-732 [Span::new]: [assert!(start <= end)] *)
Definition Span_new (a b : loc) : res span :=
  match loc_leb a b with
  | Some true => Ok (mkspan a b)
  | _ => Panic
  end.

(** source.rs 622-639 [Location::next] *)
Definition loc_next (l : loc) : loc :=
  match l with
  | LineCol a b => LineCol a (b + 1)
  | CharIdx i => CharIdx (i + 1)
  end.

(** source.rs 641-664 [Location::previous]: column 0 panics; for an index only a
    debug assertion [index >= 1] is made (and u32 underflow), both a panic here when
    the result would be negative. *)
Definition loc_previous (l : loc) : res loc :=
  match l with
  | LineCol a b => if b - 1 =? 0 then Panic else Ok (LineCol a (b - 1))
  | CharIdx i => if 1 <=? i then Ok (CharIdx (i - 1)) else Panic
  end.

(** source.rs 154-292 [NextPolicy] bit set, one Boolean per bit. *)
Record policy := mkpolicy {
  p_issues : bool;          (* ENABLE_CHARACTER_DECODING_ISSUES 0x01 *)
  p_tracklc : bool;         (* TRACK_LC 0x02 *)
  p_toplevel : bool;        (* RETURN_TOPLEVELNEWLINE 0x04 *)
  p_string : bool;          (* STRING_OR_COMMENT 0x08 *)
  p_tagslot : bool;         (* TAGSLOT_BEHAVIOR_FOR_STRINGS 0x10 *)
  p_intshort : bool;        (* INTEGER_SHORT_CIRCUIT 0x20 *)
  p_scan : bool             (* SCAN_FOR_UNRECOGNIZEDLONGNAMES 0x40 *)
}.

(** source.rs 307-333: the named policies. *)
Definition TOPLEVEL := mkpolicy true true true false false false false.
Definition INSIDE_STRINGIFY_AS_TAG := mkpolicy true true false false true false false.
Definition INSIDE_STRINGIFY_AS_FILE := mkpolicy false false true false false false false.
Definition INSIDE_SLOT := mkpolicy false true false false true true false.
Definition INSIDE_SLOTSEQUENCE := mkpolicy true true false false false true false.
Definition INSIDE_OUT := mkpolicy true true false false false true false.

Definition without_issues (p : policy) : policy :=
  mkpolicy false (p_tracklc p) (p_toplevel p) (p_string p) (p_tagslot p) (p_intshort p) (p_scan p).
Definition without_tracklc (p : policy) : policy :=
  mkpolicy (p_issues p) false (p_toplevel p) (p_string p) (p_tagslot p) (p_intshort p) (p_scan p).
Definition with_tracklc (p : policy) : policy :=
  mkpolicy (p_issues p) true (p_toplevel p) (p_string p) (p_tagslot p) (p_intshort p) (p_scan p).
Definition without_toplevel (p : policy) : policy :=
  mkpolicy (p_issues p) (p_tracklc p) false (p_string p) (p_tagslot p) (p_intshort p) (p_scan p).
Definition with_string (p : policy) : policy :=
  mkpolicy (p_issues p) (p_tracklc p) (p_toplevel p) true (p_tagslot p) (p_intshort p) (p_scan p).
(** [policy | ENABLE_CHARACTER_DECODING_ISSUES | SCAN_FOR_UNRECOGNIZEDLONGNAMES] *)
Definition with_scan (p : policy) : policy :=
  mkpolicy true (p_tracklc p) (p_toplevel p) (p_string p) (p_tagslot p) (p_intshort p) true.

(** issue.rs 26-50 [IssueTag] *)
Inductive issue_tag :=
| Ambiguous | UnhandledCharacter | UnexpectedCharacter | UnexpectedCarriageReturn
| UnexpectedSpaceCharacter | UnexpectedNewlineCharacter | UnexpectedDot | UnexpectedSign
| UnexpectedImplicitTimes | UnexpectedLetterlikeCharacter | UnrecognizedLongName
| UndocumentedSlotSyntax | NonASCIICharacter | IncompleteUTF8SequenceTag | StraySurrogateTag
| BOMTag | SyntaxUndocumentedMessageName | PrefixNotNot | StrangeCall | StrangeCallSlotSequence.

(** issue.rs 53-59 [Severity] *)
Inductive severity := Formatting | Remark | Warning | Error | Fatal.

(** issue.rs 232-262 [Issue].  Simplification: message text, confidence value, code
    actions and descriptions are functions of the input around the span and are not
    represented; equality is on (tag, severity, span). *)
Record issue := mkissue { i_tag : issue_tag; i_sev : severity; i_src : span }.

Definition issue_tag_eq_dec : forall a b : issue_tag, {a = b} + {a <> b}.
Proof. decide equality. Defined.
Definition severity_eq_dec : forall a b : severity, {a = b} + {a <> b}.
Proof. decide equality. Defined.
Definition loc_eq_dec : forall a b : loc, {a = b} + {a <> b}.
Proof. decide equality; apply Z.eq_dec. Defined.
Definition span_eq_dec : forall a b : span, {a = b} + {a <> b}.
Proof. decide equality; apply loc_eq_dec. Defined.
Definition issue_eq_dec : forall a b : issue, {a = b} + {a <> b}.
Proof. decide equality; [apply span_eq_dec | apply severity_eq_dec | apply issue_tag_eq_dec]. Defined.

Definition issue_mem (i : issue) (l : list issue) : bool :=
  existsb (fun j => if issue_eq_dec i j then true else false) l.

(** tokenizer.rs 76-83 [UnsafeCharacterEncoding] *)
Inductive unsafe_encoding := IncompleteUTF8Sequence | StraySurrogate | BOM.

(** The options that the reader copies from lib.rs [ParseOptions] (read.rs 76-103).
    [o_alnum] is Rust's Unicode [char::is_alphanumeric] restricted to non-ASCII
    characters, left arbitrary. *)
Record opts := mkopts {
  o_conv : convention;
  o_tab_width : Z;
  o_check_issues : bool;
  o_compute_oob : bool;
  o_normal : bool;            (* encoding_mode == EncodingMode::Normal *)
  o_alnum : Z -> bool
}.

(** read.rs 53-59 [InputMark] (offset as the list of remaining bytes, end-of-file
    state, location); also the part of [Reader] that moves. *)
Record pos := mkpos { rest : list Z; weof : bool; ploc : loc }.

(** The part of [Reader] / [Tokenizer] that is only ever appended to: issues, unsafe
    flag (read.rs 47-50) and the tracked source locations (tokenizer.rs 52-74
    [TrackedSourceLocations]; sets, here insert-order lists). *)
Record logs := mklogs {
  l_flag : option unsafe_encoding;
  l_fatal : list issue;
  l_nonfatal : list issue;
  l_simple_lc : list loc;
  l_complex_lc : list loc;
  l_embedded_newlines : list loc;
  l_embedded_tabs : list loc
}.

Record st := mkst { cur : pos; lg : logs }.

Definition logs0 := mklogs None [] [] [] [] [] [].

(** read.rs 76-103 [Reader::new] *)
Definition reader_new (o : opts) (input : list Z) : st :=
  mkst (mkpos input false (newSourceLocation (o_conv o))) logs0.

(** Start of the program logic: state and error monad. *)
Definition M (A : Type) := st -> res (A * st).

Definition ret {A} (a : A) : M A := fun s => Ok (a, s).
Definition bind {A B} (m : M A) (f : A -> M B) : M B :=
  fun s => match m s with
           | Ok (a, s') => f a s'
           | Panic => Panic
           | OutOfFuel => OutOfFuel
           end.
Definition panic {A} : M A := fun _ => Panic.
Definition out_of_fuel {A} : M A := fun _ => OutOfFuel.
Definition lift {A} (r : res A) : M A :=
  fun s => match r with Ok a => Ok (a, s) | Panic => Panic | OutOfFuel => OutOfFuel end.

Declare Scope monad_scope.
Delimit Scope monad_scope with monad.
Notation "x <- m ;; k" := (bind m (fun x => k)) (at level 61, m at next level, right associativity) : monad_scope.
Notation "m ;; k" := (bind m (fun _ => k)) (at level 61, right associativity) : monad_scope.
Open Scope monad_scope.

(** read.rs 211-217 [Reader::mark] *)
Definition mark : M pos := fun s => Ok (cur s, s).
(** read.rs 221-234 [Reader::seek] for a mark made by [mark] *)
Definition seek (p : pos) : M unit := fun s => Ok (tt, mkst p (lg s)).
(** read.rs 221-234 [Reader::seek] for a mark made by [InputMark::new]: the end-of-file
    state is left as it is. *)
Definition seek_loc (bs : list Z) (l : loc) : M unit :=
  fun s => Ok (tt, mkst (mkpos bs (weof (cur s)) l) (lg s)).
(** [session.SrcLoc] *)
Definition get_loc : M loc := fun s => Ok (ploc (cur s), s).
Definition set_loc (l : loc) : M unit :=
  fun s => Ok (tt, mkst (mkpos (rest (cur s)) (weof (cur s)) l) (lg s)).
Definition get_weof : M bool := fun s => Ok (weof (cur s), s).
(** [session.buffer()] (read.rs 106-131; the offset is never past the end because it
    is only moved by [nextByte] and [seek]) *)
Definition get_rest : M (list Z) := fun s => Ok (rest (cur s), s).

Definition modlog (f : logs -> logs) : M unit := fun s => Ok (tt, mkst (cur s) (f (lg s))).

(** read.rs 240-245 [setUnsafeCharacterEncodingFlag] *)
Definition set_flag_log (u : unsafe_encoding) (l : logs) : logs :=
  mklogs (Some u) (l_fatal l) (l_nonfatal l) (l_simple_lc l) (l_complex_lc l)
         (l_embedded_newlines l) (l_embedded_tabs l).
Definition setUnsafeCharacterEncodingFlag (u : unsafe_encoding) : M unit := modlog (set_flag_log u).

(** read.rs 247-278 [addIssue] *)
Definition addIssue_log (i : issue) (l : logs) : logs :=
  match i_sev i with
  | Fatal =>
      if (10 <=? zlen (l_fatal l)) then l
      else if issue_mem i (l_fatal l) then l
      else mklogs (l_flag l) (l_fatal l ++ [i]) (l_nonfatal l) (l_simple_lc l) (l_complex_lc l)
                  (l_embedded_newlines l) (l_embedded_tabs l)
  | _ =>
      if issue_mem i (l_nonfatal l) then l
      else mklogs (l_flag l) (l_fatal l) (l_nonfatal l ++ [i]) (l_simple_lc l) (l_complex_lc l)
                  (l_embedded_newlines l) (l_embedded_tabs l)
  end.
Definition addIssue (i : issue) : M unit := modlog (addIssue_log i).

(** [addIssue] of an issue over [Span::new(a, b)] *)
Definition report (t : issue_tag) (sv : severity) (a b : loc) : M unit :=
  sp <- lift (Span_new a b) ;; addIssue (mkissue t sv sp).

(** byte_decoder.rs 1148-1196 [SourceManager] *)
Definition loc_newline (l : loc) : loc :=
  match l with
  | LineCol a _ => LineCol (a + 1) 1
  | CharIdx i => CharIdx (i + 1)
  end.
Definition loc_windowsNewline (l : loc) : loc :=
  match l with
  | LineCol a _ => LineCol (a + 1) 1
  | CharIdx i => CharIdx (i + 2)
  end.
(** 1173-1186: division by a zero tab width panics *)
Definition loc_tab (tw : Z) (l : loc) : res loc :=
  match l with
  | LineCol a b => if tw =? 0 then Panic else Ok (LineCol a (tw * ((b - 1) / tw) + 1 + tw))
  | CharIdx i => Ok (CharIdx (i + 1))
  end.
Definition loc_increment (l : loc) : loc := loc_next l.

Definition src_newline : M unit := l <- get_loc ;; set_loc (loc_newline l).
Definition src_windowsNewline : M unit := l <- get_loc ;; set_loc (loc_windowsNewline l).
Definition src_tab (o : opts) : M unit :=
  l <- get_loc ;; l' <- lift (loc_tab (o_tab_width o) l) ;; set_loc l'.
Definition src_increment : M unit := l <- get_loc ;; set_loc (loc_increment l).

(** byte_buffer.rs 11-29 [ByteBuffer_nextByte] *)
Definition nextByte : M Z :=
  fun s => match rest (cur s) with
           | [] => Ok (255, mkst (mkpos [] true (ploc (cur s))) (lg s))
           | b :: r => Ok (b, mkst (mkpos r (weof (cur s)) (ploc (cur s))) (lg s))
           end.
(** byte_buffer.rs 31-42 [ByteBuffer_currentByte] *)
Definition currentByte : M Z :=
  fun s => match rest (cur s) with
           | [] => Ok (255, s)
           | b :: _ => Ok (b, s)
           end.

(** mark; run; seek back: the shape of every peek (read.rs 148-159, 173-184,
    tokenizer.rs 297-321). *)
Definition peek {A} (m : M A) : M A :=
  p <- mark ;; a <- m ;; seek p ;; ret a.

Definition when_ (b : bool) (m : M unit) : M unit := if b then m else ret tt.
Definition assert_ (b : bool) : M unit := if b then ret tt else panic.
