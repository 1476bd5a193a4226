(** C54: sources in abstract syntax trees. *)
From Coq Require Import String.
From Coq Require Import ZArith List Bool.
From Verif Require Import Base Source LongNames GenTokenKind GenOps TokenKind Tokenizer SpecText SpecReader SpecTokenizer Cst SpecCst CstProofs Parser SpecParser SpecParse PropsReader
  Ast Abstract SpecAbstract SpecPlace AbstractShape AbstractTheorems AbstractKeep AbstractPlace PropsAbstract PropsAst.
Import ListNotations.
Local Open Scope string_scope.
Local Open Scope list_scope.
Local Open Scope Z_scope.

(** Every source in the abstract tree of an expression, its issues' included, is within the
    text of the expression, from the first token to the last.  A tree with a source has no
    source in it that sticks out. *)
Theorem C54_nested : forall o dbg b input l s' l' a asts,
  0 < o_tab_width o -> well_formed_no_bom input -> parse_cst_raw o dbg keep b input = Ok (l, s') -> aggregate_cst_seq l = Ok l' ->
  to_ast a l = Ok asts ->
  Forall2 (fun n t => (forall x ts, tokens_of n (x :: ts) -> inside (mkspan (sp_start (t_src x)) (sp_end (t_src (last ts x)))) t) /\ nested t) l' asts.
Proof.
  intros o dbg b input l s' l' a asts T W E A Et. unfold to_ast in Et. rewrite A in Et. cbn [rbind] in Et. apply AbstractProofs.mapr_Ok in Et.
  assert (G : forall n, In n l' -> good n) by (intros n Hn; exact (parse_good _ _ _ _ _ _ _ _ T W E A Hn)). clear - Et G. induction Et as [|n t l asts E F IH]; [constructor|].
  constructor; [|apply IH; intros; apply G; right; auto]. assert (Gn : good n) by (apply G; left; reflexivity). exact (placed_inside a n t Gn E).
Qed.
Print Assumptions C54_nested.

(** The source of the abstract tree of every node of a tree that was read. *)
Theorem C54_source : forall o dbg b input l s' l' n' ns n a t,
  0 < o_tab_width o -> well_formed_no_bom input -> parse_cst_raw o dbg keep b input = Ok (l, s') -> aggregate_cst_seq l = Ok l' ->
  In n' l' -> preorder n' ns -> In n ns -> abstract_cst a n = Ok t -> placed n (m_src (metadata t)).
Proof.
  intros o dbg b input l s' l' n' ns n a t T W E A Hn Pr Hin Et. apply (abstract_placed a); [|exact Et]. rewrite (preorder_det _ _ Pr) in Hin. exact (good_down _ _ (parse_good _ _ _ _ _ _ _ _ T W E A Hn) Hin).
Qed.
Print Assumptions C54_source.

(** The sources in a tree, with what is there. *)
Fixpoint all_sources (k : nat) (a : ast) : list asource :=
  match k with O => [] | S k => m_src (metadata a) :: flat_map (all_sources k) (subtrees a) end.
Definition from_to (a b : Z) : asource := Known (mkspan (LineCol 1 a) (LineCol 1 b)).
Definition sources_of (s : string) : res (list (list asource)) := rmap (map (all_sources 20)) (ast_of release s).
(** The head f, the arguments a and b c; the parentheses are left out. *)
Example C54_case : exists h, sources_of "f[a, (b c)]" = Ok [[from_to 1 12; from_to 1 2; from_to 3 4; from_to 7 10; h; from_to 7 8; from_to 9 10]].
Proof. eexists. vm_compute. reflexivity. Qed.
Example C54_derivative_case : exists r, sources_of "f'" = Ok [Unknown :: r].
Proof. eexists. vm_compute. reflexivity. Qed.
