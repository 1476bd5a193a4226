(** Printing of source and WL characters: the [Display] implementations in source.rs
    1297-1483 and read/wl_character.rs 160-385, byte_encoder.rs 5-32.  The output is the
    list of code points written. *)
From Coq Require Import String Ascii ZArith List Bool.
From Verif Require Import Base Source GenLongNames LongNames WLChar.
Import ListNotations.
Local Open Scope Z_scope.

(** byte_encoder.rs 5-32 [encodeBytes] *)
Definition encodeBytes (c : Z) : res (list Z) :=
  if is_char c then Ok [c]
  else switchl c [ ([CRLF], Ok [13; 10]); ([Unsafe1Byte; Unsafe2Byte; Unsafe3Byte], Ok [0xfffd]) ] Panic.

(** wl_character.rs 748-759 [fromDigit] *)
Definition fromDigit (d : Z) : Z := if d <? 10 then 48 + d else 87 + d.

Definition rapp (a b : res (list Z)) : res (list Z) := rbind a (fun x => rbind b (fun y => Ok (x ++ y))).
Fixpoint rconcat (l : list (res (list Z))) : res (list Z) :=
  match l with [] => Ok [] | a :: r => rapp a (rconcat r) end.

(** [n] digits of [i], most significant first (wl_character.rs 240-380: the successive
    [% base] and [/= base]) *)
Fixpoint digits_of (base : Z) (n : nat) (i : Z) : list Z :=
  match n with
  | O => []
  | S k => digits_of base k (i / base) ++ [fromDigit (i mod base)]
  end.

(** wl_character.rs 183-214: the character printed after the backslash of an
    [Escape::Single] *)
Definition single_char (i : Z) : option (list Z) :=
  switchl i
    [ ([StringMeta_Backspace], Some [98]); ([StringMeta_FormFeed], Some [102]);
      ([StringMeta_LineFeed], Some [110]); ([StringMeta_CarriageReturn], Some [114]);
      ([StringMeta_Tab], Some [116]); ([StringMeta_Open], Some [60]); ([StringMeta_Close], Some [62]);
      ([StringMeta_DoubleQuote], Some [34]); ([StringMeta_Backslash], Some [92]);
      ([LineContinuation_LineFeed], Some [10]); ([LineContinuation_CarriageReturn], Some [13]);
      ([LineContinuation_CRLF], Some [13; 10]);
      ([LS_BANG], Some [33]); ([LS_PERCENT], Some [37]); ([LS_AMP], Some [38]); ([LS_OPENPAREN], Some [40]);
      ([LS_CLOSEPAREN], Some [41]); ([LS_STAR], Some [42]); ([LS_PLUS], Some [43]); ([LS_SLASH], Some [47]);
      ([LS_AT], Some [64]); ([LS_CARET], Some [94]); ([LS_UNDER], Some [95]); ([LS_BACKTICK], Some [96]);
      ([LinearSyntax_Space], Some [32]) ]
    None.

(** wl_character.rs 241-248 and the same lines of the other numeric arms:
    [i.as_char().unwrap()] after mapping back the escaped quote and backslash *)
Definition numeric_value (i : Z) : option Z :=
  if i =? StringMeta_DoubleQuote then Some 34
  else if i =? StringMeta_Backslash then Some 92
  else if is_char i then Some i else None.

(** wl_character.rs 160-385 [Display for WLCharacter], given the printing of source
    characters *)
Definition display_wl (format_char : Z -> res (list Z)) (c : wlchar) : res (list Z) :=
  let i := wc c in
  let numeric base n lead :=
    match numeric_value i with
    | Some v => rconcat (format_char 92 :: map format_char (lead ++ digits_of base n v))
    | None => Panic
    end in
  match wesc c with
  | ENone | ERaw => format_char i
  | ESingle =>
      rapp (format_char 92)
        (match single_char i with
         | Some l => rconcat (map format_char l)
         | None => Panic
         end)
  | ELongName =>
      match codepoint_to_longname i with
      | Some n => rconcat (map format_char (92 :: 91 :: bytes_of_string n ++ [93]))
      | None => Panic
      end
  | EOctal => numeric 8 3%nat []
  | EHex2 => numeric 16 2%nat [46]
  | EHex4 => numeric 16 4%nat [58]
  | EHex6 => numeric 16 6%nat [124]
  end.

(** source.rs 1297-1314, plain *)
Definition display_src_plain (c : Z) : res (list Z) :=
  if c =? EndOfFile then Panic else encodeBytes c.

(** source.rs 1315-1483, graphical ("alternate"): specials are printed as a WL character,
    whose characters are printed graphically in turn.  The nesting is at most three deep;
    the fuel counts it. *)
Fixpoint display_src_graphical (fuel : nat) (c : Z) : res (list Z) :=
  match fuel with
  | O => OutOfFuel
  | S k =>
      let wlc p e := display_wl (display_src_graphical k) (mkwl p e) in
      if c =? EndOfFile then Panic
      else if c =? 8 then wlc StringMeta_Backspace ESingle
      else if c =? 12 then wlc StringMeta_FormFeed ESingle
      else if c =? 9 then wlc StringMeta_Tab ESingle
      else if c =? 10 then wlc StringMeta_LineFeed ESingle
      else if c =? 13 then wlc StringMeta_CarriageReturn ESingle
      else if zin c [StringMeta_LineFeed; StringMeta_CarriageReturn; StringMeta_Tab] then Panic
      else if zin c [StringMeta_DoubleQuote; StringMeta_Backslash] then wlc c ESingle
      else if c =? CRLF then rapp (wlc StringMeta_CarriageReturn ESingle) (wlc StringMeta_LineFeed ESingle)
      else if zin c [LS_BANG; LS_PERCENT; LS_AMP; LS_OPENPAREN; LS_CLOSEPAREN; LS_STAR; LS_PLUS; LS_SLASH;
                     LS_AT; LS_CARET; LS_UNDER; LS_BACKTICK] then wlc c ESingle
      else if c =? LinearSyntax_Space then Panic
      else if c =? 0x1b then wlc c ELongName
      else if between 0 c 0x1f || (c =? 0x7f) || between 0x80 c 0x9f then wlc c EHex2
      else if negb (is_char c) then Panic
      else if (0x7f <? c) && (match codepoint_to_longname c with Some _ => true | None => false end)
           then wlc c ELongName
      else if 0xffff <? c then wlc c EHex6
      else if 0xff <? c then wlc c EHex4
      else if 0x7f <? c then wlc c EHex2
      else encodeBytes c
  end.

Definition graphical_fuel : nat := 3.

(** [format!("{}", c)] *)
Definition display_plain (c : wlchar) : res (list Z) := display_wl display_src_plain c.
(** wl_character.rs 388-396 [graphicalString] *)
Definition graphicalString (c : wlchar) : res (list Z) := display_wl (display_src_graphical graphical_fuel) c.
(** wl_character.rs 398-413 [safeAndGraphicalString] *)
Definition safeAndGraphicalString (c : wlchar) : res (list Z) :=
  match wesc c with
  | ENone => rapp (Ok [34]) (rapp (display_plain c) (rapp (Ok [34; 32; 40]) (rapp (graphicalString c) (Ok [41]))))
  | _ => display_plain c
  end.

(** utils.rs 274-400 [certainCharacterReplacementActions]: the texts it formats (the
    replacement itself is a constant string).  Simplification: the actions are not kept. *)
Definition certainCharacterReplacementActions (c : wlchar) : res unit :=
  let other p := rbind (safeAndGraphicalString c) (fun _ => rmap (fun _ => tt) (safeAndGraphicalString (wl p))) in
  switchl (wc c)
    [ ([CP_LONGNAME_COMPATIBILITYNOBREAK], other 0x2060);
      ([CP_LONGNAME_RIGHTARROW; 0x279D], other 0xF522);
      ([0x29F4], other 0xF51F);
      ([0x2061], other 0xF76D);
      ([0x2063], other 0xF765);
      ([0x2064], other 0xF39E);
      ([0x200b], other 0xF360) ]
    (Ok tt).
