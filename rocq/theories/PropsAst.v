(** C53: abstract syntax does not depend on the layout.  C55: names, strings and numbers are kept. *)
From Coq Require Import String.
From Coq Require Import ZArith List Bool Permutation.
From Verif Require Import Base Source LongNames GenTokenKind GenOps TokenKind Tokenizer SpecText SpecReader SpecTokenizer Cst SpecCst CstProofs Parser SpecParser SpecParse PropsReader
  Ast Abstract SpecAbstract SpecMove SpecItems AbstractProofs AbstractTheorems AbstractSame AbstractLayout PropsAbstract.
Import ListNotations.
Local Open Scope string_scope.
Local Open Scope list_scope.
Local Open Scope Z_scope.

(** ** C53 *)

(** Two inputs whose trees, without blanks, comments and positions, are the same, give the
    same abstract trees, without positions; or both give none. *)
Theorem C53_layout : forall o1 dbg1 b1 input1 l1 s1 l1' o2 dbg2 b2 input2 l2 s2 l2' a,
  0 < o_tab_width o1 -> well_formed_no_bom input1 -> parse_cst_raw o1 dbg1 keep b1 input1 = Ok (l1, s1) -> aggregate_cst_seq l1 = Ok l1' ->
  0 < o_tab_width o2 -> well_formed_no_bom input2 -> parse_cst_raw o2 dbg2 keep b2 input2 = Ok (l2, s2) -> aggregate_cst_seq l2 = Ok l2' ->
  map forget l1' = map forget l2' ->
  rmap (map forget_ast) (to_ast a l1) = rmap (map forget_ast) (to_ast a l2).
Proof. exact same_layout. Qed.
Print Assumptions C53_layout.

(** A tree at other positions, in the same order, gives the abstract tree at these positions. *)
Theorem C53_shift : forall h, in_order h -> forall a n, abstract_cst a (shift h n) = rmap (shift_ast h) (abstract_cst a n).
Proof. exact abstract_shift. Qed.
Print Assumptions C53_shift.

Definition parsed (s : string) : res (list cst) :=
  rbind (parse_cst_raw default_opts true keep NotScript (bytes_of_string s)) (fun '(l, _) => aggregate_cst_seq l).
(** Newlines in brackets, blanks and comments. *)
Definition newline : string := String (Ascii.Ascii false true false true false false false false) EmptyString.
Example C53_layout_case :
  rmap (map forget) (parsed "f[a-2,b]:=x;-1") = rmap (map forget) (parsed ("f[ a (* c *) - 2," ++ newline ++ "  b ] :=  x ; - 1")) /\
  parsed "f[a-2,b]:=x;-1" <> parsed ("f[ a (* c *) - 2," ++ newline ++ "  b ] :=  x ; - 1") /\
  (exists l, ast_of release "f[a-2,b]:=x;-1" = Ok l /\ length l = 1%nat).
Proof. split; [vm_compute; reflexivity|]. split; [vm_compute; discriminate|]. eexists. split; [vm_compute; reflexivity|reflexivity]. Qed.
(** The text ten lines lower. *)
Definition lower (l : loc) : loc := match l with LineCol line col => LineCol (line + 10) col | l => l end.
Lemma lower_in_order : in_order lower.
Proof.
  intros a b. destruct a as [l1 c1|i1], b as [l2 c2|i2]; try reflexivity. cbn.
  replace (l1 + 10 <? l2 + 10) with (l1 <? l2); [replace (l1 + 10 =? l2 + 10) with (l1 =? l2); [reflexivity|]|].
  - destruct (Z.eqb_spec l1 l2), (Z.eqb_spec (l1 + 10) (l2 + 10)); auto; exfalso; auto with zarith.
  - apply eq_true_iff_eq. rewrite !Z.ltb_lt. apply Z.add_lt_mono_r.
Qed.

(** ** C55 *)

(** The names written in the input, those put in where an operand is missing, the strings
    and the numbers are those of the abstract tree, each as often, names and strings at the
    same place. *)
Theorem C55_kept : forall o dbg b input l s' l' a asts,
  0 < o_tab_width o -> well_formed_no_bom input -> parse_cst_raw o dbg keep b input = Ok (l, s') -> aggregate_cst_seq l = Ok l' ->
  (forall n, In n l' -> keeps_names a n) -> to_ast a l = Ok asts ->
  Forall2 (fun n t => forall ts, tokens_of n ts -> Permutation (flat_map token_items ts) (ast_items t)) l' asts.
Proof. exact names_kept. Qed.
Print Assumptions C55_kept.

(** The three exceptions are ones. *)
Definition items_of (s : string) : res (list item * list item) :=
  rbind (parsed s) (fun l => rbind (ast_of release s) (fun ts => Ok (flat_map (fun n => flat_map token_items (toks n)) l, flat_map ast_items ts))).
Theorem C55_kept_refuted : Forall (fun s => exists x y, items_of s = Ok (x, y) /\ (length y < length x)%nat)
  ["{CodeParser`Comma[a, b]}"; "-(0 ] x)"; "Plus@a + b"].
Proof. repeat (apply Forall_cons; [eexists; eexists; split; [vm_compute; reflexivity|cbn; auto with arith]|]). apply Forall_nil. Qed.
Print Assumptions C55_kept_refuted.

Definition spread := "f[x_, #1, ""s"", 2.5] := -a/b - 3*(c; ) ~ g ~ h::tag".
Example C55_kept_case : exists l l' s', parse_cst_raw default_opts true keep NotScript (bytes_of_string spread) = Ok (l, s') /\ aggregate_cst_seq l = Ok l' /\
  length l' = 1%nat /\ (forall n, In n l' -> keeps_names release n) /\ exists t, to_ast release l = Ok [t] /\ length (ast_items t) = 13%nat.
Proof.
  eexists. eexists. eexists. split; [vm_compute; reflexivity|]. split; [vm_compute; reflexivity|]. split; [reflexivity|]. split.
  - intros n [<-|[]]. split.
    + intros ts t Ht Hin. apply tokens_of_det in Ht. subst ts. vm_compute in Hin. repeat (destruct Hin as [<-|Hin]; [intros [K X]; try discriminate K; discriminate X|]). contradiction.
    + intros ns m Hp Hm. apply preorder_det in Hp. subst ns. vm_compute in Hm.
      repeat (destruct Hm as [<-|Hm]; [split; [intros (_ & ? & ? & ? & ? & X & _); discriminate X|intros (? & ? & ? & ? & ? & X & Y); try discriminate X; try (injection X as <- <- <- <- <-; discriminate Y)]|]). contradiction.
  - eexists. split; [vm_compute; reflexivity|]. vm_compute. reflexivity.
Qed.
