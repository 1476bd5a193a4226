(** Operators that need a space behind them. *)
From Coq Require Import String ZArith List Bool.
From Verif Require Import Base Source WLChar GenTokenKind TokenKind Tokenizer LongNames Link SpecText.
Import ListNotations.
Local Open Scope string_scope.
Local Open Scope list_scope.
Local Open Scope Z_scope.

Definition bytes_ (s : string) : list Z := bytes_of_string s.
(** The operators, and the characters that crowd them: an equals sign, a greater sign, a dot *)
Definition OPERATORS : list (string * Z) := [("++", TK_PlusPlus); ("--", TK_MinusMinus); ("|>", TK_BarGreater); ("_.", TK_UnderDot)].
Definition CROWDS : list (string * Z) := [("++", 61); ("--", 61); ("--", 62); ("|>", 61); ("_.", 46)].
(** a character that may stand behind: visible or a blank, and no backslash *)
Definition plain_char (d : Z) : Prop := 32 <= d <= 126 /\ d <> 92.

(** What the reader keeps of an issue *)
Definition kept (w : wissue) (i : issue) : Prop := wi_src w = SSpan (i_src i) /\ wi_tag w = i_tag i /\ wi_sev w = i_sev i.
(** The text once the action is carried out, when the operator [a] takes the place [sp] and [r] is behind it *)
Definition carried_out (x : action) (sp : span) (a r text : list Z) : Prop :=
  match ac_kind x with
  | InsertText y => ac_src x = mkspan (sp_end sp) (sp_end sp) /\ text = a ++ y ++ r
  | ReplaceText y => ac_src x = sp /\ text = y ++ r
  | DeleteText => ac_src x = sp /\ text = r
  end.

(** Operators of one character, [a], in front of a character [b] that begins a longer operator with it
    unless the character [d] behind that rules it out: =! is only part of =!=, <- of <->, |- of |->, and /.
    in front of a digit is a division *)
Definition SPLITS : list (Z * Z * Z) := [(61, 33, TK_Equal); (60, 45, TK_Less); (124, 45, TK_Bar); (47, 46, TK_Slash)].
Definition rules_out (a d : Z) : Prop := (a = 61 /\ d <> 61) \/ ((a = 60 \/ a = 124) /\ d <> 62) \/ (a = 47 /\ 48 <= d <= 57).
