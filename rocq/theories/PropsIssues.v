(** C61: the issues abstraction reports. *)
From Coq Require Import String.
From Coq Require Import ZArith List Bool Permutation.
From Verif Require Import Base Source LongNames GenTokenKind GenOps TokenKind Tokenizer SpecText SpecReader SpecTokenizer Cst SpecCst CstProofs Parser SpecParser SpecParse PropsReader
  Ast Abstract SpecAbstract SpecItems AbstractReports PropsAbstract PropsAst SpecIssues.
Import ListNotations.
Local Open Scope string_scope.
Local Open Scope list_scope.
Local Open Scope Z_scope.

(** The issues in the abstract tree are those that the nodes of the tree give rise to, each
    exactly as often, with its tag, severity, confidence and places. *)
Theorem C61_issues : forall o dbg b input l s' l' a asts,
  0 < o_tab_width o -> well_formed_no_bom input -> parse_cst_raw o dbg keep b input = Ok (l, s') -> aggregate_cst_seq l = Ok l' ->
  (forall n, In n l' -> forall ns m, preorder n ns -> In m ns -> ~ hidden m) -> to_ast a l = Ok asts ->
  Forall2 (fun n t => (exists ns is, preorder n ns /\ given ns is) /\ forall ns is, preorder n ns -> given ns is -> Permutation is (ast_issues t)) l' asts.
Proof. exact issues_reported. Qed.
Print Assumptions C61_issues.

Definition issues_of (s : string) : res (list aissue) := rbind (ast_of release s) (fun ts => Ok (flat_map ast_issues ts)).
Definition tags_of (s : string) : res (list (atag * asev)) := rmap (map (fun i => (ai_tag i, ai_sev i))) (issues_of s).

(** The exception is one: what goes with the zero takes its issues along. *)
Theorem C61_issues_refuted : exists n t x y, parsed "-(0 ] !!x)" = Ok [n] /\ ast_of release "-(0 ] !!x)" = Ok [t] /\ In (Op KPrefix PREOP_CodeParser_PrefixNot2 [Tok x; y]) (nodes n) /\ ast_issues t = [].
Proof.
  eexists. eexists. eexists. eexists. split; [vm_compute; reflexivity|]. split; [vm_compute; reflexivity|]. split; [|vm_compute; reflexivity].
  vm_compute. repeat (first [left; reflexivity|right]).
Qed.
Print Assumptions C61_issues_refuted.

Definition strange := "{!!a, 1[x], f[x], ##2[[1]], (a;b)[y], ""s""[[1]], f::[z], a::b::c::d}".
Example C61_issues_case : exists l l' s', parse_cst_raw default_opts true keep NotScript (bytes_of_string strange) = Ok (l, s') /\ aggregate_cst_seq l = Ok l' /\
  length l' = 1%nat /\ (forall n, In n l' -> forall ns m, preorder n ns -> In m ns -> ~ hidden m) /\
  exists t, to_ast release l = Ok [t] /\ map (fun i => (ai_tag i, ai_sev i)) (ast_issues t) =
    [(PrefixNotNot, SevWarning); (StrangeCall, SevError); (StrangeCallSlotSequence, SevError); (StrangeCall, SevError); (StrangeCall, SevError); (SyntaxUndocumentedMessageName, SevError)].
Proof.
  eexists. eexists. eexists. split; [vm_compute; reflexivity|]. split; [vm_compute; reflexivity|]. split; [reflexivity|]. split.
  - intros n [<-|[]] ns m Hp Hm. apply preorder_det in Hp. subst ns. vm_compute in Hm.
    repeat (destruct Hm as [<-|Hm]; [intros (? & ? & ? & ? & ? & X & Y); try discriminate X; try (injection X as <- <- <- <- <-; discriminate Y)|]). contradiction.
  - eexists. split; [vm_compute; reflexivity|]. vm_compute. reflexivity.
Qed.
(** Heads that are operators are not brackets' heads; a group that is not usual is a warning. *)
Example C61_heads_case : tags_of "<|a|>[x]" = Ok [] /\ tags_of "(a;b)[x]" = Ok [] /\ tags_of "a?b[x]" = Ok [] /\ tags_of "\[LeftFloor]a\[RightFloor][x]" = Ok [(StrangeCall, SevWarning)] /\
  tags_of "a'[x]" = Ok [] /\ tags_of "a'[[1]]" = Ok [(StrangeCall, SevError)].
Proof. vm_compute. repeat split. Qed.
