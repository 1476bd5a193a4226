(** C71: the errors in an abstract tree. *)
From Coq Require Import String.
From Coq Require Import ZArith List Bool Permutation.
From Verif Require Import Base Source LongNames GenTokenKind GenOps TokenKind Tokenizer SpecText SpecReader SpecTokenizer Cst SpecCst CstProofs Parser SpecParser SpecParse PropsReader
  Ast Abstract AbstractProofs AbstractShape SpecAbstract SpecItems AbstractTheorems PropsAbstract PropsAst AbstractErrors SpecErrors.
Import ListNotations.
Local Open Scope string_scope.
Local Open Scope list_scope.
Local Open Scope Z_scope.

(** The error nodes of the abstract tree are the errors of the tree it comes from: each of them
    once, of the same kind and at the same place, and no others. *)
Theorem C71_errors : forall o dbg b input l s' l' a asts,
  0 < o_tab_width o -> well_formed_no_bom input -> parse_cst_raw o dbg keep b input = Ok (l, s') -> aggregate_cst_seq l = Ok l' ->
  (forall n, In n l' -> forall ns m, preorder n ns -> In m ns -> ~ hidden m) -> to_ast a l = Ok asts ->
  Forall2 (fun n t => Permutation (flaws n) (ast_flaws t)) l' asts.
Proof.
  intros o dbg b input l s' l' a asts T W E A K Et. unfold to_ast in Et. rewrite A in Et. cbn [rbind] in Et. apply mapr_Ok in Et.
  assert (G : forall n, In n l' -> good n) by (intros n Hn; exact (parse_good _ _ _ _ _ _ _ _ T W E A Hn)). clear - Et K G. induction Et as [|n t l asts E F IH]; [constructor|].
  constructor; [|apply IH; intros; [eapply K; try right; eauto|apply G; right; auto]]. apply (abstract_flaws a n t); [apply G; left; reflexivity| |exact E].
  apply Forall_forall. intros m Hm. exact (K n (or_introl eq_refl) _ m (preorder_nodes n) Hm).
Qed.
Print Assumptions C71_errors.

(** So the abstract trees are free of errors exactly if the trees are. *)
Theorem C71_error_free : forall o dbg b input l s' l' a asts,
  0 < o_tab_width o -> well_formed_no_bom input -> parse_cst_raw o dbg keep b input = Ok (l, s') -> aggregate_cst_seq l = Ok l' ->
  (forall n, In n l' -> forall ns m, preorder n ns -> In m ns -> ~ hidden m) -> to_ast a l = Ok asts ->
  (flat_map ast_flaws asts = [] <-> flat_map flaws l' = []).
Proof.
  intros o dbg b input l s' l' a asts T W E A K Et. pose proof (C71_errors _ _ _ _ _ _ _ _ _ T W E A K Et) as F. clear - F. induction F as [|n t l asts H F IH]; [split; reflexivity|]. cbn [flat_map].
  split; intros X; apply app_eq_nil in X as [X1 X2]; apply IH in X2; rewrite X2, app_nil_r.
  - rewrite X1 in H. apply Permutation_nil. symmetry. exact H.
  - rewrite X1 in H. apply Permutation_nil. exact H.
Qed.
Print Assumptions C71_error_free.

Definition errors_of (s : string) : res (list wrong) := rbind (ast_of release s) (fun ts => Ok (map wrong_is (flat_map ast_flaws ts))).

(** The exception is the one of C61: what stands in parentheses after a zero goes with it. *)
Theorem C71_errors_refuted : exists n t e, parsed "-(0 ] (a,b))" = Ok [n] /\ ast_of release "-(0 ] (a,b))" = Ok [t] /\ In e (flaws n) /\ ast_flaws t = [].
Proof.
  eexists. eexists. eexists. split; [vm_compute; reflexivity|]. split; [vm_compute; reflexivity|]. split; [|vm_compute; reflexivity].
  vm_compute. left. reflexivity.
Qed.
Print Assumptions C71_errors_refuted.

Definition faulty := "{(a,b), ::[c], a?b?c, f[[1]], [x], (), a ~f,g~ b, \!x, {p:1:2, a, , 1:2, g[1".
Example C71_errors_case : exists l l' s' n, parse_cst_raw default_opts true keep NotScript (bytes_of_string faulty) = Ok (l, s') /\ aggregate_cst_seq l = Ok l' /\ l' = [n] /\
  (forall n, In n l' -> forall ns m, preorder n ns -> In m ns -> ~ hidden m) /\
  map wrong_is (flaws n) =
    [UnclosedGroup GOP_List; Senseless OpenParen; Senseless ColonColonOpenSquare; Senseless NonAssociativePatternTest; Senseless OpenSquare; Senseless OpenParen; BadSyntax ExpectedTilde; BadSyntax ExpectedTilde; Senseless LinearSyntaxBang;
     UnclosedGroup GOP_List; BadSyntax ExpectedSymbol; UnclosedCall] /\
  errors_of faulty = Ok (map wrong_is (flaws n)).
Proof.
  eexists. eexists. eexists. eexists. split; [vm_compute; reflexivity|]. split; [vm_compute; reflexivity|]. split; [reflexivity|]. split.
  - intros n [<-|[]] ns m Hp Hm. apply preorder_det in Hp. subst ns. vm_compute in Hm.
    repeat (destruct Hm as [<-|Hm]; [intros (? & ? & ? & ? & ? & X & Y); try discriminate X; try (injection X as <- <- <- <- <-; discriminate Y)|]). contradiction.
  - split; vm_compute; reflexivity.
Qed.
Example C71_error_free_case : errors_of "f[x_, {1, , 2}][[1]] := (a; -0); <|a -> ##|>" = Ok [] /\ errors_of "a + )" <> Ok [].
Proof. vm_compute. split; [reflexivity|discriminate]. Qed.
