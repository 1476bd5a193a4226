(** Abstraction of what the parser returns. *)
From Coq Require Import String.
From Coq Require Import ZArith List Bool Lia.
From Verif Require Import Base Source SpecText SpecReader SpecTokenizer GenTokenKind TokenKind Tokenizer GenOps Cst SpecCst CstProofs Parser SpecParser SpecParse
  TokenizerProofs ParserTheorems Ast Abstract SpecAbstract AbstractProofs AbstractShape AbstractTotal.
Import ListNotations.
Local Open Scope list_scope.
Local Open Scope Z_scope.

Lemma mapr_total : forall A B (f : A -> res B) l, (forall a, In a l -> exists b, f a = Ok b) -> exists bs, mapr f l = Ok bs.
Proof.
  intros A B f l H. induction l as [|a l IH]; [exists []; reflexivity|]. destruct (H a (or_introl eq_refl)) as (b & E). destruct IH as (bs & Es); [intros; apply H; right; auto|].
  exists (b :: bs). cbn. rewrite E. cbn. rewrite Es. reflexivity.
Qed.
Lemma untroubled_calm : forall o n, good n -> untroubled o n -> calm o n.
Proof. intros o n G U. split; auto. apply Forall_forall. intros m Hm. exact (U _ m (preorder_nodes n) Hm). Qed.

Lemma seq_aggregates : forall l, (forall n, In n l -> trivia_node n \/ exists n', aggregate_cst n = Ok (Some n')) -> exists l', aggregate_cst_seq l = Ok l'.
Proof.
  intros l H. induction l as [|n l IH]; [exists []; reflexivity|]. destruct IH as (l' & E); [intros; apply H; right; auto|].
  assert (X : exists x, aggregate_cst n = Ok x).
  { destruct (H n (or_introl eq_refl)) as [T|(n' & T)]; [|eauto]. destruct n as [t| | |k op ch| |]; try contradiction; cbn in T; [cbn; eauto|]. destruct k; try contradiction. subst op. cbn. eauto. }
  destruct X as (x & Ex). unfold aggregate_cst_seq in *. cbn [filter_map_res]. rewrite Ex. cbn [rbind]. change (filter_map_res aggregate_cst l) with (filter_map_res aggregate_cst l) in E. rewrite E. cbn [rbind]. eauto.
Qed.

Theorem to_ast_total : forall o dbg b input l s' a,
  0 < o_tab_width o -> well_formed_no_bom input -> parse_cst_raw o dbg keep b input = Ok (l, s') ->
  exists l', aggregate_cst_seq l = Ok l' /\ ((forall n, In n l' -> untroubled a n) -> exists asts, to_ast a l = Ok asts).
Proof.
  intros o dbg b input l s' a Ht W E. destruct (seq_aggregates l) as (l' & Ea); [intros n Hn; apply (parse_aggregates o dbg b input l s' n Ht E Hn)|]. exists l'. split; auto. intros U. unfold to_ast. rewrite Ea. cbn [rbind].
  apply mapr_total. intros n Hn. apply abstract_total. apply untroubled_calm; auto. eapply parse_good; eauto.
Qed.
Theorem to_ast_stops : forall a l, to_ast a l = OutOfFuel -> aggregate_cst_seq l = OutOfFuel.
Proof.
  intros a l H. unfold to_ast in H. destruct (aggregate_cst_seq l) as [l'| |]; cbn [rbind] in H; [|discriminate H|reflexivity]. exfalso.
  assert (K : nf (mapr (abstract_cst a) l')) by (apply nf_mapr; intros n _; apply abstract_nf; apply Nat.le_refl). exact (K H).
Qed.
