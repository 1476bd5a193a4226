(** What is said and suggested about operators that are written without a space and could be read in
    another way: tokenizer.rs 3467-3511, 3700-3779, 3818-3851, 4268-4299.  As in Suggestions.v, Tokenizer.v
    keeps of an issue its tag, severity and place; here it is built whole. *)
From Coq Require Import String ZArith List Bool.
From Verif Require Import Base Source WLChar Link Suggestions Spelling.
Import ListNotations.
Local Open Scope string_scope.
Local Open Scope list_scope.
Local Open Scope Z_scope.

Definition insert_space (l : loc) : action := insert_bytes (lit "Insert space") (Span_at l) (lit " ").
Definition format_issue (msg : list Z) (l : loc) : wissue :=
  mk_wissue "CodeParser`FormatIssue" Ambiguous msg Formatting (SSpan (Span_at l)) 100 [insert_space l] [] [].

(** 3477-3508: something like a_..b *)
Definition dot_issue (l : loc) : wissue :=
  syntax_issue UnexpectedDot (lit "Suspicious syntax.") Error (Span_at l) 95 [insert_space l] [].
(** 3706-3747: something like a-->0 *)
Definition arrow_issue (start l : loc) : wissue :=
  syntax_issue Ambiguous (lit "``-->`` is ambiguous syntax.") Error (mkspan start l) 95
    [replace_bytes (lit "Replace with ``->``") (mkspan start l) (lit "-"); insert_space l] [].
(** 3748-3775: something like a--=0 *)
Definition minus_issue (l : loc) : wissue := format_issue (lit "Put a space between ``--`` and ``=`` to reduce ambiguity") l.
(** 3823-3848: something like <||>=0 *)
Definition bar_issue (l : loc) : wissue := format_issue (lit "Put a space between ``|>`` and ``=`` to reduce ambiguity") l.
(** 4271-4298: something like a++=0 *)
Definition plus_issue (l : loc) : wissue := format_issue (lit "Put a space between ``++`` and ``=`` to reduce ambiguity") l.

(** The issue about the operator [a] from [start] to [l], in front of the character [d] *)
Definition spacing_issue (a : string) (d : Z) (start l : loc) : option wissue :=
  if String.eqb a "++" then if d =? 61 then Some (plus_issue l) else None
  else if String.eqb a "--" then if d =? 62 then Some (arrow_issue start l) else if d =? 61 then Some (minus_issue l) else None
  else if String.eqb a "|>" then if d =? 61 then Some (bar_issue l) else None
  else if String.eqb a "_." then if d =? 46 then Some (dot_issue l) else None
  else None.

(** 3072-3102 [Tokenizer_backupAndWarn]: something like a=!b, a<-b, a|-b or a/.5, where [l] is the place
    behind the first character *)
Definition split_issue (l : loc) : wissue := format_issue (lit "Ambiguous syntax.") l.
