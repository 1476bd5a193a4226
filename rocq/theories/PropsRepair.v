(** Properties C62 and C63: what the public entry points of the parser return.  Statements only;
    the proofs are in ParserRepair.v and RepairProofs.v.  Specification: SpecRepair.v, SpecParse.v,
    SpecCst.v and SpecReparse.v. *)
From Coq Require Import String ZArith List Bool Lia.
From Verif Require Import Base Source WLChar GenTokenKind GenPrec GenOps GenParselets TokenKind Parselets LongNames ByteDecoder CharDecoder Tokenizer Cst SpecCst
  SpecText SpecReader SpecTokenizer PropsReader PropsTokenizer Parser SpecParser SpecParse ParserTheorems CstProofs PropsParser ErrorReparse SpecReparse SpecRepair RepairProofs.
Import ListNotations.
Local Open Scope Z_scope.

Definition public (s : string) : res (list cst * pst) := parse_cst_seq default_opts true NotScript (text s).
Definition lines (l : list string) : list Z := concat (map (fun s => text s ++ [10]) l).

(** C62.  The public parser returns the tree of the parser proper, patched: only comments and
    strings without end and groups without closing bracket differ ([patched] in
    SpecRepair.v).  The session ends in the same state. *)
Theorem C62_patched : forall o dbg b input l s, 0 < o_tab_width o -> parse_cst_seq o dbg b input = Ok (l, s) ->
  exists l0, parse_cst_raw o dbg keep b input = Ok (l0, s) /\ Forall2 patched l0 l.
Proof. exact public_patched. Qed.
Print Assumptions C62_patched.
(** Where nothing is missing the two are the same, so that what C29, C33, C34, C44, C45 and
    C60 say of the parser proper they say of the public one. *)
Theorem C62_complete : forall o dbg b input l s, 0 < o_tab_width o -> complete l ->
  (parse_cst_seq o dbg b input = Ok (l, s) <-> parse_cst_raw o dbg keep b input = Ok (l, s)).
Proof. exact public_complete. Qed.
Print Assumptions C62_complete.
Theorem C62_complete_single : forall o dbg b input n s, 0 < o_tab_width o -> complete [n] ->
  (parse_cst o dbg b input = Ok (n, s) <-> parse_cst_raw o dbg keep b input = Ok ([n], s)).
Proof.
  intros o dbg b input n s Ht C. rewrite <- (public_complete o dbg b input [n] s Ht C). unfold parse_cst. split; intros H.
  - destruct (parse_cst_seq o dbg b input) as [[l s1]| |]; cbn [rbind] in H; try discriminate. destruct l as [|m [|? ?]]; try discriminate. injection H as -> ->. reflexivity.
  - rewrite H. reflexivity.
Qed.
Print Assumptions C62_complete_single.
(** For instance C29 and C33. *)
Theorem C62_lossless : forall o dbg b input l s' ts, 0 < o_tab_width o ->
  parse_cst_seq o dbg b input = Ok (l, s') -> complete l -> all_tokens l ts ->
  exists s0 script tail e, handle_first_line o b (reader_new o input) = Ok (tt, s0) /\ (b = NotScript -> script = []) /\
    input = script ++ rest (cur s0) /\ rest (cur s0) = concat (map t_text ts) ++ tail /\ starts_continuation tail /\
    in_a_row (ploc (cur s0)) ts e.
Proof. intros o dbg b input l s' ts Ht H C. apply (proj1 (public_complete _ _ _ _ _ _ Ht C)) in H. apply (C29_lossless o dbg b input l s' ts Ht H). Qed.
Print Assumptions C62_lossless.
Theorem C62_shapes : forall o dbg b input l s', 0 < o_tab_width o -> parse_cst_seq o dbg b input = Ok (l, s') -> complete l ->
  Forall (everywhere node_ok) l /\ Forall (fun n => trivia_leaf n = true \/ operand n = true) l /\ settled (parts l).
Proof. intros o dbg b input l s' Ht H C. apply (proj1 (public_complete _ _ _ _ _ _ Ht C)) in H. apply (C33_shapes o dbg b input l s' Ht H). Qed.
Print Assumptions C62_shapes.

(** The repair of an incomplete input can abort where the parser proper does not: a bracket left
    open in text that is not UTF-8, or a comment left open before an empty line. *)
Theorem C62_total_refuted : exists input input' l s l' s', ~ has_surrogate_escape input /\ ~ has_surrogate_escape input' /\
  parse_cst_raw default_opts true keep NotScript input = Ok (l, s) /\ parse_cst_seq default_opts true NotScript input = Panic /\
  parse_cst_raw default_opts true keep NotScript input' = Ok (l', s') /\ parse_cst_seq default_opts true NotScript input' = Panic.
Proof.
  exists (text "{a " ++ [255]), (text "(* a" ++ [10; 10]).
  destruct (parse_cst_raw default_opts true keep NotScript (text "{a " ++ [255])) as [[l s]| |] eqn:E1; [|vm_compute in E1; discriminate|vm_compute in E1; discriminate].
  destruct (parse_cst_raw default_opts true keep NotScript (text "(* a" ++ [10; 10])) as [[l' s']| |] eqn:E2; [|vm_compute in E2; discriminate|vm_compute in E2; discriminate].
  exists l, s, l', s'. split; [apply no_numeric_escape_ok; vm_compute; reflexivity|]. split; [apply no_numeric_escape_ok; vm_compute; reflexivity|].
  split; [reflexivity|]. split; [vm_compute; reflexivity|]. split; [reflexivity|]. vm_compute. reflexivity.
Qed.
Print Assumptions C62_total_refuted.

Definition completeb (l : list cst) : bool :=
  forallb (fun n => match n with Op KGroupMissingCloser _ _ | Call _ true _ _ => false | _ => true end) (flat_map nodes l) &&
  forallb (fun t => negb (zin (t_kind t) OPEN_KINDS)) (flat_map toks l).
Lemma completeb_ok : forall l, completeb l = true -> complete l.
Proof.
  intros l H. unfold completeb in H. apply andb_prop in H as [H1 H2]. rewrite forallb_forall in H1, H2. split.
  - apply Forall_forall. intros n Hn. apply everywhere_nodes. apply Forall_forall. intros g Hg. intros [(op & ch & ->)|(h & op & ch & ->)].
    + specialize (H1 _ ltac:(apply in_flat_map; eauto)). discriminate.
    + specialize (H1 _ ltac:(apply in_flat_map; eauto)). discriminate.
  - intros ts A. apply all_tokens_leaves in A. subst ts. apply Forall_forall. intros t Hin U. specialize (H2 _ Hin). apply open_kinds, zin_in in U. rewrite U in H2. discriminate.
Qed.
(** a complete input *)
Example C62_hypotheses : exists l s, public "f[x_, y] := {a + 2 b^c, ""d""} (* e *)" = Ok (l, s) /\ complete l.
Proof.
  destruct (public "f[x_, y] := {a + 2 b^c, ""d""} (* e *)") as [[l s]| |] eqn:E; [|vm_compute in E; discriminate|vm_compute in E; discriminate].
  exists l, s. split; auto. apply completeb_ok. revert E. vm_compute. intros E. injection E as <- _. reflexivity.
Qed.
(** an incomplete one: the group is cut after the line before the next statement, and its
    contents are no longer grouped *)
Example C62_case : rendered (parse_cst_raw default_opts true keep NotScript (lines ["f := {a + b,"; "  c"; "g = 1"]%string)) =
    Some [text "(f := <!{((a + b)," ++ [10] ++ text "  ((c" ++ [10] ++ text "g) = 1))" ++ [10] ++ text ">)"] /\
  rendered (parse_cst_seq default_opts true NotScript (lines ["f := {a + b,"; "  c"; "g = 1"]%string)) =
    Some [text "(f := <!{a + b," ++ [10] ++ text "  c" ++ [10] ++ text ">)"].
Proof. split; vm_compute; reflexivity. Qed.

(** C63.  Debug assertions only abort: a parse they let through has the result it has without
    them. *)
Theorem C63_debug_assertions : forall o b input x, parse_cst_seq o true b input = Ok x -> parse_cst_seq o false b input = Ok x.
Proof. exact public_debug. Qed.
Print Assumptions C63_debug_assertions.
Theorem C63_converse_refuted : exists o b input x, parse_cst_seq o false b input = Ok x /\ parse_cst_seq o true b input = Panic.
Proof.
  exists default_opts, NotScript, (text "a\[InvisibleComma]b").
  destruct (parse_cst_seq default_opts false NotScript (text "a\[InvisibleComma]b")) as [x| |] eqn:E; [|vm_compute in E; discriminate|vm_compute in E; discriminate].
  exists x. split; [reflexivity|vm_compute; reflexivity].
Qed.
Print Assumptions C63_converse_refuted.
