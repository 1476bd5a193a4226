(** Specification of the lexical grammar of plain text: operators, blanks, names and numbers.
    Nothing here depends on the tokenizer. *)
From Coq Require Import String ZArith List Bool.
From Verif Require Import Base GenTokenKind GenLongNames LongNames SpecText SpecReader SpecTokenizer.
Import ListNotations.
Local Open Scope Z_scope.

(** ** Operators *)

(** Every operator written in ASCII, with the kind of its token. *)
Definition operators : list (list Z * Z) := map (fun e => (bytes_of_string (fst e), snd e))
  [ ("+", TK_Plus); ("++", TK_PlusPlus); ("+=", TK_PlusEqual);
    ("-", TK_Minus); ("--", TK_MinusMinus); ("-=", TK_MinusEqual); ("->", TK_MinusGreater);
    ("*", TK_Star); ("**", TK_StarStar); ("*=", TK_StarEqual); ("*)", TK_Error_UnexpectedCommentCloser);
    ("/", TK_Slash); ("/=", TK_SlashEqual); ("/@", TK_SlashAt); ("/;", TK_SlashSemi); ("/.", TK_SlashDot);
    ("/:", TK_SlashColon); ("/*", TK_SlashStar); ("//", TK_SlashSlash); ("//.", TK_SlashSlashDot);
    ("//@", TK_SlashSlashAt); ("//=", TK_SlashSlashEqual);
    ("^", TK_Caret); ("^=", TK_CaretEqual); ("^:=", TK_CaretColonEqual); ("^:", TK_Error_ExpectedEqual);
    ("=", TK_Equal); ("==", TK_EqualEqual); ("===", TK_EqualEqualEqual); ("=!=", TK_EqualBangEqual);
    (":", TK_Colon); ("::", TK_ColonColon); ("::[", TK_ColonColonOpenSquare); (":=", TK_ColonEqual); (":>", TK_ColonGreater);
    (";", TK_Semi); (";;", TK_SemiSemi); ("#", TK_Hash); ("##", TK_HashHash); ("&", TK_Amp); ("&&", TK_AmpAmp);
    ("!", TK_Bang); ("!!", TK_BangBang); ("!=", TK_BangEqual); ("%", TK_Percent); ("'", TK_SingleQuote); (",", TK_Comma);
    (".", TK_Dot); ("..", TK_DotDot); ("...", TK_DotDotDot);
    ("<", TK_Less); ("<|", TK_LessBar); ("<<", TK_LessLess); ("<>", TK_LessGreater); ("<=", TK_LessEqual); ("<->", TK_LessMinusGreater);
    (">", TK_Greater); (">>", TK_GreaterGreater); (">>>", TK_GreaterGreaterGreater); (">=", TK_GreaterEqual);
    ("?", TK_Question); ("??", TK_QuestionQuestion); ("@", TK_At); ("@@", TK_AtAt); ("@@@", TK_AtAtAt); ("@*", TK_AtStar);
    ("(", TK_OpenParen); (")", TK_CloseParen); ("[", TK_OpenSquare); ("]", TK_CloseSquare); ("{", TK_OpenCurly); ("}", TK_CloseCurly);
    ("_", TK_Under); ("__", TK_UnderUnder); ("___", TK_UnderUnderUnder); ("_.", TK_UnderDot);
    ("|", TK_Bar); ("||", TK_BarBar); ("|>", TK_BarGreater); ("|->", TK_BarMinusGreater); ("~", TK_Tilde); ("~~", TK_TildeTilde);
    (* blanks are tokens of one character *)
    (" ", TK_Whitespace) ]%string ++
  [ ([9], TK_Whitespace); ([11], TK_Whitespace); ([12], TK_Whitespace);
    ([7], TK_Error_UnhandledCharacter); ([127], TK_Error_UnhandledCharacter) ].

(** [starts_with p e]: [e] has a first byte, and it satisfies [p]. *)
Definition starts_with (p : Z -> Prop) (e : list Z) : Prop := exists b r, e = b :: r /\ p b.

(** The operator [op] is not read as such in front of [e]: a dot and a slash-dot in front of
    a digit, a parenthesis in front of a star, a percent sign in front of another. *)
Definition unless (op e : list Z) : Prop :=
  ((op = [46] \/ op = [47; 46]) /\ starts_with digit_byte e) \/
  (op = [40] /\ starts_with (eq 42) e) \/ (op = [37] /\ starts_with (eq 37) e).

(** [op] is the longest operator the text [op ++ e] begins with. *)
Definition longest_operator (op : list Z) (k : Z) (e : list Z) : Prop :=
  In (op, k) operators /\ ~ unless op e /\
  forall op' k' e', In (op', k') operators -> op ++ e = op' ++ e' -> ~ unless op' e' -> (length op' <= length op)%nat.

(** A line break: a line feed, a carriage return, or both. *)
Definition line_break (w e : list Z) : Prop :=
  w = [10] \/ w = [13; 10] \/ w = [13] /\ ~ starts_with (eq 10) e.

(** ** Characters that are tokens by themselves *)

(** The characters of a name [\[Name]]: those whose kind is called LongName_Name, the
    blanks, the line breaks and the characters that mean nothing in a program. *)
Definition blank_names : list (list Z) := map bytes_of_string
  [ "NonBreakingSpace"; "ThickSpace"; "ThinSpace"; "VeryThinSpace"; "MediumSpace"; "NoBreak"; "SpaceIndicator"; "InvisibleSpace";
    "NegativeVeryThinSpace"; "NegativeThinSpace"; "NegativeMediumSpace"; "NegativeThickSpace"; "AutoSpace"; "Continuation"; "RoundSpaceIndicator";
    "PageBreakAbove"; "PageBreakBelow"; "DiscretionaryPageBreakAbove"; "DiscretionaryPageBreakBelow"; "AlignmentMarker"; "COMPATIBILITYNoBreak" ]%string.
Definition line_break_names : list (list Z) := map bytes_of_string
  [ "LineSeparator"; "ParagraphSeparator"; "IndentingNewLine"; "DiscretionaryLineSeparator"; "DiscretionaryParagraphSeparator" ]%string.
Definition unhandled_names : list (list Z) := map bytes_of_string
  [ "SkeletonIndicator"; "LeftSkeleton"; "RightSkeleton"; "ErrorIndicator" ]%string.

Inductive named_kind (line_break : Z) (name : list Z) : Z -> Prop :=
| nk_operator : forall k s, In (k, s) KINDS -> bytes_of_string s = bytes_of_string "LongName_" ++ name -> named_kind line_break name k
| nk_blank : In name blank_names -> named_kind line_break name TK_Whitespace
| nk_line_break : In name line_break_names -> named_kind line_break name line_break
| nk_unhandled : In name unhandled_names -> named_kind line_break name TK_Error_UnhandledCharacter.

(** The ways to write the character [p]: itself, by a name and by its number. *)
Inductive spelling (p : Z) : list Z -> Prop :=
| sp_literal : spelling p (utf8 p)
| sp_name : forall name, In (name, p) LN_TABLE -> spelling p (92 :: 91 :: name ++ [93])
| sp_hex2 : forall ds, hex_string 2 ds -> SpecText.number 16 ds = p -> spelling p (92 :: 46 :: ds)
| sp_hex4 : forall ds, hex_string 4 ds -> SpecText.number 16 ds = p -> spelling p (92 :: 58 :: ds)
| sp_hex6 : forall ds, hex_string 6 ds -> SpecText.number 16 ds = p -> spelling p (92 :: 124 :: ds)
| sp_octal : forall ds, octal_string 3 ds -> SpecText.number 8 ds = p -> spelling p (92 :: ds).

(** ** Names *)

(** Letters, dollar signs, and every character beyond ASCII that does not stand alone. *)
Definition letter (b : Z) : Prop := 65 <= b <= 90 \/ 97 <= b <= 122 \/ b = 36.
Definition stands_alone (p : Z) : Prop := exists name k, In (name, p) LN_TABLE /\ named_kind 0 name k.
Definition box_characters : list Z := [0xF7C0; 0xF7C1; 0xF7C2; 0xF7C5; 0xF7C6; 0xF7C7; 0xF7C8; 0xF7C9; 0xF7CA; 0xF7CB; 0xF7CC; 0xF7CD].
Definition wide_letter (p : Z) : Prop := scalar p /\ 128 <= p /\ p <> BOM_CHAR /\ ~ In p box_characters /\ ~ stands_alone p.
Inductive letter_text : list Z -> Prop :=
| lt_ascii : forall b, letter b -> letter_text [b]
| lt_wide : forall p w, wide_letter p -> spelling p w -> letter_text w.

(** letters and digits; a letter first *)
Inductive name_part : list Z -> Prop :=
| np_nil : name_part []
| np_letter : forall x w, letter_text x -> name_part w -> name_part (x ++ w)
| np_digit : forall d w, digit_byte d -> name_part w -> name_part (d :: w).
Definition name (w : list Z) : Prop := exists x r, w = x ++ r /\ letter_text x /\ name_part r.

(** names joined by backquotes; there may be one in front *)
Inductive symbol_text : list Z -> Prop :=
| sym_name : forall w, name w -> symbol_text w
| sym_context : forall w r, name w -> symbol_text r -> symbol_text (w ++ 96 :: r).
Definition symbol (w : list Z) : Prop := symbol_text w \/ exists r, w = 96 :: r /\ symbol_text r.

(** No letter follows: the end of the input, a printable ASCII character or blank that is
    neither a letter, a dollar sign nor a backslash, or a character that stands alone. *)
Definition no_letter (e : list Z) : Prop :=
  e = [] \/ (exists b r, e = b :: r /\ (9 <= b <= 13 \/ 32 <= b < 127) /\ ~ letter b /\ b <> 92) \/
  exists p w r, e = w ++ r /\ stands_alone p /\ spelling p w.
(** ... and neither a digit nor a backquote: this ends a name. *)
Definition ends_name (e : list Z) : Prop := no_letter e /\ ~ starts_with (fun b => digit_byte b \/ b = 96) e.

(** ** Numbers *)
Definition digits (ds : list Z) : Prop := ds <> [] /\ Forall digit_byte ds.
Definition alnum (b : Z) : Prop := digit_byte b \/ 65 <= b <= 90 \/ 97 <= b <= 122.
Definition digit_value (b : Z) : Z := if b <=? 57 then b - 48 else if b <=? 90 then b - 55 else b - 87.
Fixpoint decimal_from (v : Z) (ds : list Z) : Z := match ds with [] => v | d :: r => decimal_from (10 * v + (d - 48)) r end.
Definition decimal : list Z -> Z := decimal_from 0.

(** [mantissa w base ds real]: [w] is a number in base [base] (10 without one) with the digits
    [ds]; [real] if it has a dot. *)
Inductive mantissa : list Z -> option Z -> list Z -> bool -> Prop :=
| man_int : forall ds, digits ds -> mantissa ds None ds false
| man_frac : forall ds fs, digits ds -> Forall digit_byte fs -> mantissa (ds ++ 46 :: fs) None (ds ++ fs) true
| man_dot : forall fs, digits fs -> mantissa (46 :: fs) None fs true
| man_base : forall bs ds, digits bs -> ds <> [] -> Forall alnum ds ->
    mantissa (bs ++ [94; 94] ++ ds) (Some (decimal bs)) ds false
| man_base_frac : forall bs ds fs, digits bs -> Forall alnum ds -> Forall alnum fs -> ds ++ fs <> [] ->
    mantissa (bs ++ [94; 94] ++ ds ++ 46 :: fs) (Some (decimal bs)) (ds ++ fs) true.

Definition sign (w : list Z) : Prop := w = [] \/ w = [43] \/ w = [45].
(** a decimal number with at least one digit *)
Inductive decimal_text : list Z -> Prop :=
| dec_int : forall ds, digits ds -> decimal_text ds
| dec_frac : forall ds fs, digits ds -> Forall digit_byte fs -> decimal_text (ds ++ 46 :: fs)
| dec_dot : forall fs, digits fs -> decimal_text (46 :: fs).

(** the precision or accuracy; nothing: [false] *)
Inductive precision : list Z -> bool -> Prop :=
| prec_none : precision [] false
| prec_machine : precision [96] true
| prec_some : forall s d, sign s -> decimal_text d -> precision (96 :: s ++ d) true
| acc_some : forall s d, sign s -> decimal_text d -> precision (96 :: 96 :: s ++ d) true.

(** the exponent; [true]: negative and not zero *)
Inductive exponent : list Z -> bool -> Prop :=
| exp_none : exponent [] false
| exp_plus : forall s ds, s = [] \/ s = [43] -> digits ds -> exponent (42 :: 94 :: s ++ ds) false
| exp_minus : forall ds neg, digits ds -> (neg = true <-> decimal ds <> 0) -> exponent (42 :: 94 :: 45 :: ds) neg.

(** the digits are digits of the base *)
Definition digits_fit (base : option Z) (ds : list Z) : Prop :=
  match base with None => True | Some b => Forall (fun d => digit_value d < b) ds end.

(** [number w k]: [w] is a number whose token has kind [k]. *)
Inductive number : list Z -> Z -> Prop :=
| num_of : forall m base ds real p pr x neg k, mantissa m base ds real -> precision p pr -> exponent x neg ->
    (forall b, base = Some b -> 2 <= b <= 36) ->
    (digits_fit base ds -> k = if real || pr then TK_Real else if neg then TK_Rational else TK_Integer) ->
    (~ digits_fit base ds -> k = TK_Error_Number) ->
    number (m ++ p ++ x) k.

(** What may follow the number [w]: the end of the input, or a byte that cannot continue it.
    That is not a digit, dot, backquote or backslash, nor a letter if [w] names its base, nor a
    star or caret in front of a caret or backslash, nor, if [w] ends with a backquote, a sign
    in front of a digit, dot or backslash. *)
Definition after_number (w e : list Z) : Prop :=
  e = [] \/ exists b r, e = b :: r /\ ~ digit_byte b /\ ~ In b [46; 96; 92] /\
    ((exists u v, w = u ++ [94; 94] ++ v) -> ~ alnum b) /\
    (b = 42 \/ b = 94 -> ~ starts_with (fun c => c = 94 \/ c = 92) r) /\
    (last w 0 = 96 -> b = 43 \/ b = 45 -> ~ starts_with (fun c => digit_byte c \/ c = 46 \/ c = 92) r).

(** A number whose base is not between 2 and 36 is an error, whatever its digits. *)
Definition bad_base (w : list Z) : Prop := exists bs, w = bs ++ [94; 94] /\ digits bs /\ ~ (2 <= decimal bs <= 36).
