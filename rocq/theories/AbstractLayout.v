(** What abstraction does to the trees of a parse, without their positions, moved, and with
    their names. *)
From Coq Require Import String.
From Coq Require Import ZArith List Bool Lia Permutation.
From Verif Require Import Base Source SpecText SpecReader SpecTokenizer GenTokenKind TokenKind Tokenizer GenOps Cst SpecCst CstProofs Parser SpecParser SpecParse
  TokenizerProofs ParserTheorems Ast Abstract SpecAbstract SpecMove SpecItems AbstractProofs AbstractShape AbstractTotal AbstractTheorems AbstractMap AbstractSame AbstractKeep.
Import ListNotations.
Local Open Scope list_scope.
Local Open Scope Z_scope.

Lemma mapr_map : forall A B C (f : B -> res C) (g : A -> B) l, mapr f (map g l) = mapr (fun a => f (g a)) l.
Proof. intros A B C f g l. induction l as [|a l IH]; [reflexivity|]. change (rbind (f (g a)) (fun b => rbind (mapr f (map g l)) (fun bs => Ok (b :: bs))) = mapr (fun a => f (g a)) (a :: l)). rewrite IH. reflexivity. Qed.
Lemma mapr_rmap : forall A B C (f : A -> res B) (g : B -> C) l, mapr (fun a => rmap g (f a)) l = rmap (map g) (mapr f l).
Proof.
  intros A B C f g l. induction l as [|a l IH]; [reflexivity|]. change (mapr f (a :: l)) with (rbind (f a) (fun b => rbind (mapr f l) (fun bs => Ok (b :: bs)))).
  change (mapr (fun a => rmap g (f a)) (a :: l)) with (rbind (rmap g (f a)) (fun b => rbind (mapr (fun a => rmap g (f a)) l) (fun bs => Ok (b :: bs)))). rewrite IH. destruct (f a); cbn; auto. destruct (mapr f l); reflexivity.
Qed.
Lemma mapr_ext : forall A B (f g : A -> res B) l, (forall a, In a l -> f a = g a) -> mapr f l = mapr g l.
Proof.
  intros A B f g l H. induction l as [|a l IH]; [reflexivity|]. change (rbind (f a) (fun b => rbind (mapr f l) (fun bs => Ok (b :: bs))) = rbind (g a) (fun b => rbind (mapr g l) (fun bs => Ok (b :: bs)))).
  rewrite IH by (intros; apply H; right; auto). rewrite (H a (or_introl eq_refl)). reflexivity.
Qed.
Lemma forget_seq : forall o l, (forall n, In n l -> good n) -> mapr (abstract_cst o) (map forget l) = rmap (map forget_ast) (mapr (abstract_cst o) l).
Proof. intros o l H. rewrite mapr_map. rewrite <- mapr_rmap. apply mapr_ext. intros n Hn. apply abstract_forget. auto. Qed.

Theorem same_layout : forall o1 dbg1 b1 input1 l1 s1 l1' o2 dbg2 b2 input2 l2 s2 l2' a,
  0 < o_tab_width o1 -> well_formed_no_bom input1 -> parse_cst_raw o1 dbg1 keep b1 input1 = Ok (l1, s1) -> aggregate_cst_seq l1 = Ok l1' ->
  0 < o_tab_width o2 -> well_formed_no_bom input2 -> parse_cst_raw o2 dbg2 keep b2 input2 = Ok (l2, s2) -> aggregate_cst_seq l2 = Ok l2' ->
  map forget l1' = map forget l2' ->
  rmap (map forget_ast) (to_ast a l1) = rmap (map forget_ast) (to_ast a l2).
Proof.
  intros o1 dbg1 b1 input1 l1 s1 l1' o2 dbg2 b2 input2 l2 s2 l2' a T1 W1 E1 A1 T2 W2 E2 A2 M. unfold to_ast. rewrite A1, A2. cbn [rbind].
  rewrite <- (forget_seq a l1'), <- (forget_seq a l2'); [rewrite M; reflexivity| |]; intros n Hn; [exact (parse_good _ _ _ _ _ _ _ _ T2 W2 E2 A2 Hn)|exact (parse_good _ _ _ _ _ _ _ _ T1 W1 E1 A1 Hn)].
Qed.

Theorem names_kept : forall o dbg b input l s' l' a asts,
  0 < o_tab_width o -> well_formed_no_bom input -> parse_cst_raw o dbg keep b input = Ok (l, s') -> aggregate_cst_seq l = Ok l' ->
  (forall n, In n l' -> keeps_names a n) -> to_ast a l = Ok asts ->
  Forall2 (fun n t => forall ts, tokens_of n ts -> Permutation (flat_map token_items ts) (ast_items t)) l' asts.
Proof.
  intros o dbg b input l s' l' a asts T W E A K Et. unfold to_ast in Et. rewrite A in Et. cbn [rbind] in Et. apply mapr_Ok in Et.
  assert (G : forall n, In n l' -> good n) by (intros n Hn; exact (parse_good _ _ _ _ _ _ _ _ T W E A Hn)). clear - Et K G. induction Et as [|n t l asts E F IH]; [constructor|].
  constructor; [|apply IH; intros; [apply K|apply G]; right; auto]. intros ts Ht. eapply abstract_keeps; eauto; [apply G|apply K]; left; reflexivity.
Qed.
