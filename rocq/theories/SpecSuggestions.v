(** What is reported about a character of the text, and what may be suggested. *)
From Coq Require Import ZArith List Bool.
From Verif Require Import Base Source WLChar LongNames GenAscii ByteDecoder CharDecoder Link SpecText SpecReader.
Import ListNotations.
Local Open Scope Z_scope.

(** Characters that are not expected in a text: controls other than tab and line ends, and
    U+007F to U+009F; joiners, curly quotes, invisible operators, arrows that look like a rule,
    two characters of the private use area, and planes 15 and 16. *)
Definition unexpected (c : Z) : bool :=
  (0 <=? c) && (c <? 0x20) && negb (existsb (Z.eqb c) [9; 10; 13]) || (0x7f <=? c) && (c <=? 0x9f) ||
  existsb (Z.eqb c) [0x200b; 0x200c; 0x200d; 0x2018; 0x2019; 0x201c; 0x201d; 0x2061; 0x2063; 0x2064; 0x2192; 0x279d; 0x29f4; 0xf3a2; 0xf76d] ||
  (0xf0000 <=? c) && (c <=? 0xffffd) || (0x100000 <=? c) && (c <=? 0x10fffd).

(** How it is reported, if it is: [lenient] inside of strings and comments. *)
Definition reported_as (normal lenient : bool) (c : Z) : option (issue_tag * severity) :=
  if unexpected c then
    if lenient then Some (UnexpectedCharacter, Remark)
    else if existsb (Z.eqb c) [11; 12; 0xf3a2] then None else Some (UnexpectedCharacter, Warning)
  else if (0x80 <=? c) && normal then Some (NonASCIICharacter, Remark) else None.

(** The text [t] is plain, and is read as the one character [p], written as an escape,
    wherever it stands. *)
Definition spells (t : list Z) (p : Z) : Prop :=
  Forall (fun b => 0 <= b < 0x80) t /\
  forall o pol input s r, 0 < o_tab_width o -> reachable o input s -> p_scan pol = false -> rest (cur s) = t ++ r ->
    exists e s', e <> ENone /\ next_wolfram_char o pol s = Ok (mkwl p e, s') /\ rest (cur s') = r.

(** Backspace and form feed have escapes of their own, read as characters of a string. *)
Definition in_a_string (c : Z) : Z := if c =? 8 then StringMeta_Backspace else if c =? 12 then StringMeta_FormFeed else c.

(** What is meant instead of it *)
Definition meant : list (Z * Z) :=
  [(0xf3a2, 0x2060); (0x2192, 0xf522); (0x279d, 0xf522); (0x29f4, 0xf51f); (0x2061, 0xf76d); (0x2063, 0xf765); (0x2064, 0xf39e); (0x200b, 0xf360)].

(** A suggestion about [c]: another spelling of it, plain characters that look like it, or what
    was meant.  Deleting is suggested for one character only. *)
Definition looks_like (c : Z) (t : list Z) : Prop := exists ts, In (c, ts) ASCII_REPLACEMENTS /\ In t ts.
Definition suggestion (c : Z) (as_meant : list Z -> Z -> Prop) (k : action_kind) : Prop :=
  match k with
  | ReplaceText t => spells t (in_a_string c) \/ (Forall (fun b => 0 <= b < 0x80) t /\ looks_like c t) \/ exists p, In (c, p) meant /\ as_meant t p
  | DeleteText => c = 0x2061
  | InsertText _ => False
  end.

(** An issue about the character [c] at [sp]: everything that is suggested is about that very place. *)
Definition issue_about (c : Z) (as_meant : list Z -> Z -> Prop) (tag : issue_tag) (sev : severity) (sp : span) (w : wissue) : Prop :=
  wi_tag w = tag /\ wi_sev w = sev /\ wi_src w = SSpan sp /\
  Forall (fun a => ac_src a = sp /\ suggestion c as_meant (ac_kind a)) (wi_actions w) /\
  (forall p, In (c, p) meant -> exists t, as_meant t p /\ In (ReplaceText t) (map ac_kind (wi_actions w))).
(** All that looks like it is offered. *)
Definition offers_plain (c : Z) (w : wissue) : Prop := forall t, looks_like c t -> In (ReplaceText t) (map ac_kind (wi_actions w)).
(** Another spelling is offered. *)
Definition offers_spelling (c : Z) (w : wissue) : Prop := exists t, spells t (in_a_string c) /\ In (ReplaceText t) (map ac_kind (wi_actions w)).
Definition as_itself (t : list Z) (p : Z) : Prop := t = utf8 p.

(** ** Characters written as escapes *)
Definition by_name (e : escape) : bool := match e with ELongName | ERaw => true | _ => false end.
Definition by_number (e : escape) : bool := match e with EHex2 | EHex4 | EHex6 | EOctal => true | _ => false end.
(** An escape is reported for the same characters, except for blanks, and the escape character itself. *)
Definition escaped_reported (c : Z) : bool := unexpected c && negb (existsb (Z.eqb c) [11; 12; 27; 0xf3a2]).
(** What was meant is suggested in the way the character was written. *)
Definition as_meant_by (e : escape) : list Z -> Z -> Prop := match e with ENone => as_itself | _ => spells end.
