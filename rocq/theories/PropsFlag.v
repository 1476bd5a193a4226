(** C74: a parse reports an unsafe encoding exactly for malformed bytes. *)
From Coq Require Import String.
From Coq Require Import ZArith List Bool.
From Verif Require Import Base Source SpecText SpecReader PropsReader Tokenizer Cst Parser SpecParse ErrorReparse PropsTokenizer PropsParser ParserFlag.
Import ListNotations.
Local Open Scope Z_scope.

Theorem C74_parse : forall o dbg b input l s', 0 < o_tab_width o -> parse_cst_seq o dbg b input = Ok (l, s') ->
  (l_flag (lg (tz s')) = None <-> well_formed_no_bom input).
Proof. exact public_flag. Qed.
Print Assumptions C74_parse.

(** Before anything missing is looked for, too. *)
Theorem C74_parse_raw : forall o dbg b input l s', 0 < o_tab_width o -> parse_cst_raw o dbg keep b input = Ok (l, s') ->
  (l_flag (lg (tz s')) = None <-> well_formed_no_bom input).
Proof. exact parse_flag. Qed.
Print Assumptions C74_parse_raw.

Local Open Scope string_scope.
Local Open Scope list_scope.
Local Open Scope Z_scope.
Definition flag_of (input : list Z) : option (option unsafe_encoding) :=
  match parse_cst_seq default_opts false NotScript input with Ok (_, s) => Some (l_flag (lg (tz s))) | _ => None end.
(** the malformed byte may be in a comment, in a string, behind the last expression *)
Example C74_cases :
  flag_of (text "f[x] + {1, 2}") = Some None /\
  flag_of (text "f[x] (* " ++ [0xE2; 0x82; 0xAC] ++ text " *)") = Some None /\
  flag_of (text "f[x] (* " ++ [0xE2; 0x82] ++ text " *) + 1") = Some (Some IncompleteUTF8Sequence) /\
  flag_of (text "f[x]; " ++ [0xED; 0xA0; 0x80]) = Some (Some StraySurrogate) /\
  flag_of (text "a" ++ [0xEF; 0xBB; 0xBF]) = Some (Some BOM).
Proof. vm_compute. repeat split. Qed.
