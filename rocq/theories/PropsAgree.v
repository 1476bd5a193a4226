(** Properties C64 and C65: what a parse does not depend on.  Statements only; the proofs are in
    ParserAgree.v.  Specification: SpecAgree.v ([alike]), SpecTokenizer.v ([same_places],
    [same_lexeme]) and SpecRepair.v ([complete]). *)
From Coq Require Import String ZArith List Bool Lia.
From Verif Require Import Base Source WLChar GenTokenKind GenPrec GenOps GenParselets TokenKind Parselets LongNames ByteDecoder CharDecoder Tokenizer Cst SpecCst
  SpecText SpecReader SpecTokenizer PropsReader PropsTokenizer Parser SpecParser SpecParse ParserTheorems CstProofs PropsParser ErrorReparse SpecReparse SpecRepair RepairProofs
  PropsRepair ParserLogic ParserAgree SpecAgree.
Import ListNotations.
Local Open Scope Z_scope.

(** C64.  Which issues are collected, whether further data is recorded and the encoding mode do
    not change the tree; the source convention and the tab width change only the spans in it. *)
Theorem C64_same_trees : forall o1 o2 dbg b input l1 l2 s1 s2, 0 < o_tab_width o1 -> same_places o1 o2 ->
  parse_cst_raw o1 dbg keep b input = Ok (l1, s1) -> parse_cst_raw o2 dbg keep b input = Ok (l2, s2) -> l1 = l2.
Proof. exact trees_same_places. Qed.
Print Assumptions C64_same_trees.
Theorem C64_same_shapes : forall o1 o2 dbg b input l1 l2 s1 s2, 0 < o_tab_width o1 -> 0 < o_tab_width o2 ->
  parse_cst_raw o1 dbg keep b input = Ok (l1, s1) -> parse_cst_raw o2 dbg keep b input = Ok (l2, s2) -> Forall2 (alike same_lexeme) l1 l2.
Proof. exact trees_same_lexemes. Qed.
Print Assumptions C64_same_shapes.
(** The same of the public parser, repair included. *)
Theorem C64_public_trees : forall o1 o2 dbg b input l1 l2 s1 s2, 0 < o_tab_width o1 -> same_places o1 o2 -> o_alnum o1 = o_alnum o2 ->
  parse_cst_seq o1 dbg b input = Ok (l1, s1) -> parse_cst_seq o2 dbg b input = Ok (l2, s2) -> l1 = l2.
Proof. exact public_same_places. Qed.
Print Assumptions C64_public_trees.
Theorem C64_public_shapes : forall o1 o2 dbg b input l1 l2 s1 s2, 0 < o_tab_width o1 -> 0 < o_tab_width o2 -> complete l1 ->
  parse_cst_seq o1 dbg b input = Ok (l1, s1) -> parse_cst_seq o2 dbg b input = Ok (l2, s2) -> Forall2 (alike same_lexeme) l1 l2.
Proof. exact public_same_lexemes. Qed.
Print Assumptions C64_public_shapes.

Definition other_opts : opts := mkopts ConvCharacterIndex 8 false false false (o_alnum default_opts).
Definition quiet_opts : opts := mkopts (o_conv default_opts) (o_tab_width default_opts) false false false (o_alnum default_opts).
Example C64_case : exists l s l' s', public "f[x_] := {a, \[Alpha] + 2;;	3 (* c *)}" = Ok (l, s) /\
  parse_cst_seq other_opts true NotScript (text "f[x_] := {a, \[Alpha] + 2;;	3 (* c *)}") = Ok (l', s') /\ l <> l'.
Proof.
  destruct (public "f[x_] := {a, \[Alpha] + 2;;	3 (* c *)}") as [[l s]| |] eqn:E; [|vm_compute in E; discriminate|vm_compute in E; discriminate].
  destruct (parse_cst_seq other_opts true NotScript (text "f[x_] := {a, \[Alpha] + 2;;	3 (* c *)}")) as [[l' s']| |] eqn:E'; [|vm_compute in E'; discriminate|vm_compute in E'; discriminate].
  exists l, s, l', s'. split; auto. split; auto. intros <-. revert E E'. vm_compute. intros E E'. injection E as <- _. discriminate.
Qed.
Example C64_case_places : same_places default_opts quiet_opts /\ o_alnum default_opts = o_alnum quiet_opts /\
  exists l s l' s', parse_cst_seq default_opts true NotScript (lines ["{a, (* "; "b"]%string) = Ok (l, s) /\
    parse_cst_seq quiet_opts true NotScript (lines ["{a, (* "; "b"]%string) = Ok (l', s').
Proof.
  split; [split; reflexivity|]. split; [reflexivity|].
  destruct (parse_cst_seq default_opts true NotScript (lines ["{a, (* "; "b"]%string)) as [[l s]| |] eqn:E; [|vm_compute in E; discriminate|vm_compute in E; discriminate].
  destruct (parse_cst_seq quiet_opts true NotScript (lines ["{a, (* "; "b"]%string)) as [[l' s']| |] eqn:E'; [|vm_compute in E'; discriminate|vm_compute in E'; discriminate].
  exists l, s, l', s'. auto.
Qed.
(** Of an incomplete input the source convention changes what is kept: here the repair keeps one
    more token when places are counted in characters. *)
Theorem C64_incomplete_refuted : exists o1 o2 input l1 l2 s1 s2, 0 < o_tab_width o1 /\ o_tab_width o2 = o_tab_width o1 /\
  parse_cst_seq o1 true NotScript input = Ok (l1, s1) /\ parse_cst_seq o2 true NotScript input = Ok (l2, s2) /\ ~ Forall2 (alike same_lexeme) l1 l2.
Proof.
  set (o2 := mkopts ConvCharacterIndex (o_tab_width default_opts) true true true (o_alnum default_opts)).
  exists default_opts, o2, (lines ["f := {a,"; "g = 1"]%string).
  destruct (parse_cst_seq default_opts true NotScript (lines ["f := {a,"; "g = 1"]%string)) as [[l s]| |] eqn:E; [|vm_compute in E; discriminate|vm_compute in E; discriminate].
  destruct (parse_cst_seq o2 true NotScript (lines ["f := {a,"; "g = 1"]%string)) as [[l' s']| |] eqn:E'; [|vm_compute in E'; discriminate|vm_compute in E'; discriminate].
  exists l, l', s, s'. split; [reflexivity|]. split; [reflexivity|]. split; auto. split; auto. intros F.
  assert (K : map (fun n => length (toks n)) l = map (fun n => length (toks n)) l').
  { clear - F. induction F as [|x y l l' H F IH]; auto. cbn [map]. f_equal; auto. destruct (alike_nodes _ _ _ H) as [_ T]. clear - T. induction T; cbn; auto. }
  revert E E' K. vm_compute. intros E E'. injection E as <- _. injection E' as <- _. vm_compute. discriminate.
Qed.
Print Assumptions C64_incomplete_refuted.

(** C65.  A parse can be resumed between two expressions: what follows the text of the
    expressions before is parsed as if it stood alone. *)
Theorem C65_resume : forall o dbg b input s0 l1 l2 s1 ts r l2' s2, 0 < o_tab_width o -> handle_first_line o b (reader_new o input) = Ok (tt, s0) ->
  parse_cst_raw o dbg keep b input = Ok (l1 ++ l2, s1) -> all_tokens l1 ts -> rest (cur s0) = concat (map t_text ts) ++ r ->
  parse_cst_raw o dbg keep NotScript r = Ok (l2', s2) -> Forall2 (alike same_lexeme) l2 l2'.
Proof. exact parse_resumes. Qed.
Print Assumptions C65_resume.
Theorem C65_public_resume : forall o dbg b input s0 l1 l2 s1 ts r l2' s2, 0 < o_tab_width o -> handle_first_line o b (reader_new o input) = Ok (tt, s0) ->
  parse_cst_seq o dbg b input = Ok (l1 ++ l2, s1) -> complete (l1 ++ l2) -> all_tokens l1 ts -> rest (cur s0) = concat (map t_text ts) ++ r ->
  parse_cst_seq o dbg NotScript r = Ok (l2', s2) -> Forall2 (alike same_lexeme) l2 l2'.
Proof. exact public_resumes. Qed.
Print Assumptions C65_public_resume.
Example C65_case : exists l1 l2 s1 ts l2' s2 s0, handle_first_line default_opts NotScript (reader_new default_opts (lines ["a = 1;"; "f[b]"; "c + d"]%string)) = Ok (tt, s0) /\
  parse_cst_raw default_opts true keep NotScript (lines ["a = 1;"; "f[b]"; "c + d"]%string) = Ok (l1 ++ l2, s1) /\ all_tokens l1 ts /\
  rest (cur s0) = concat (map t_text ts) ++ lines ["f[b]"; "c + d"]%string /\
  parse_cst_raw default_opts true keep NotScript (lines ["f[b]"; "c + d"]%string) = Ok (l2', s2) /\ length l2' = 4%nat.
Proof.
  destruct (parse_cst_raw default_opts true keep NotScript (lines ["a = 1;"; "f[b]"; "c + d"]%string)) as [[l s]| |] eqn:E; [|vm_compute in E; discriminate|vm_compute in E; discriminate].
  destruct (parse_cst_raw default_opts true keep NotScript (lines ["f[b]"; "c + d"]%string)) as [[l' s']| |] eqn:E'; [|vm_compute in E'; discriminate|vm_compute in E'; discriminate].
  exists (firstn 2 l), (skipn 2 l), s, (leaves (firstn 2 l)), l', s', (reader_new default_opts (lines ["a = 1;"; "f[b]"; "c + d"]%string)).
  split; [reflexivity|]. split; [rewrite firstn_skipn; reflexivity|]. split; [apply all_tokens_leaves; reflexivity|].
  split; [|split; auto].
  - revert E. vm_compute. intros E. injection E as <- _. reflexivity.
  - revert E'. vm_compute. intros E'. injection E' as <- _. reflexivity.
Qed.
