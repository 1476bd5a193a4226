(** Properties of the operations on concrete syntax trees. *)
From Coq Require Import ZArith List Bool.
From Verif Require Import Base Source GenTokenKind GenOps Tokenizer Cst SpecCst CstProofs.
Import ListNotations.
Local Open Scope Z_scope.

(** a tree to try the theorems on: [f (* c *)[x + y]] *)
Definition leaf (k a b : Z) : cst := Tok (mktok k [] [] (mkspan (CharIdx a) (CharIdx b))).
Definition sample : cst :=
  Call (Concrete [leaf TK_Symbol 1 2; leaf TK_Whitespace 2 3; leaf TK_Comment 3 8]) false CALLOP_CodeParser_GroupSquare
    [leaf TK_OpenSquare 8 9;
     Op KInfix IOP_Plus [leaf TK_Symbol 9 10; leaf TK_Whitespace 10 11; leaf TK_Plus 11 12;
                         leaf TK_Whitespace 12 13; leaf TK_Symbol 13 14];
     leaf TK_CloseSquare 14 15].

(** C35 *)
Theorem C35_aggregate_keeps_the_tokens : forall n n' ts ts',
  no_comment_groups n -> aggregate_cst n = Ok (Some n') -> tokens_of n ts -> tokens_of n' ts' ->
  ts' = filter (fun t => negb (trivia_token t)) ts.
Proof. exact aggregate_tokens. Qed.
Print Assumptions C35_aggregate_keeps_the_tokens.

Theorem C35_aggregate_keeps_the_shape : forall n n', aggregate_cst n = Ok (Some n') -> trimmed n n'.
Proof. exact aggregate_trims. Qed.
Print Assumptions C35_aggregate_keeps_the_shape.

Theorem C35_trimmed_is_one_tree : forall n n1, trimmed n n1 -> forall n2, trimmed n n2 -> n1 = n2.
Proof. exact trimmed_det. Qed.
Print Assumptions C35_trimmed_is_one_tree.

Theorem C35_aggregate_drops_only_trivia : forall n, aggregate_cst n = Ok None <-> trivia_node n.
Proof. intro n. split; [apply aggregate_drops|apply agg_trivia_node]. Qed.
Print Assumptions C35_aggregate_drops_only_trivia.

Theorem C35_aggregate_is_defined_when_heads_are_single : forall n,
  no_comment_groups n -> ~ trivia_node n ->
  ((exists n', aggregate_cst n = Ok (Some n')) <-> heads_ok n).
Proof. exact aggregate_defined. Qed.
Print Assumptions C35_aggregate_is_defined_when_heads_are_single.

Example sample_meets_C35 : no_comment_groups sample /\ heads_ok sample /\
  exists n', aggregate_cst sample = Ok (Some n') /\ tokens_of sample (toks sample) /\ tokens_of n' (toks n') /\
    length (toks sample) = 10%nat /\ length (toks n') = 6%nat.
Proof.
  assert (N : no_comment_groups sample).
  { intros ns H ch. apply preorder_det in H. subst. cbn. intuition discriminate. }
  split; [exact N|]. split.
  - apply aggregate_defined; [exact N|cbn; tauto|]. eexists. reflexivity.
  - eexists. split; [reflexivity|]. split; [apply tokens_of_toks|]. split; [apply tokens_of_toks|]. split; reflexivity.
Qed.

(** a tree that was aggregated once cannot be aggregated again if it has a call *)
Example aggregate_twice_panics :
  exists n', aggregate_cst sample = Ok (Some n') /\ aggregate_cst n' = Panic.
Proof. eexists. split; reflexivity. Qed.

(** C36 *)
Theorem C36_visit_is_preorder : forall S (f : cst -> S -> S) n ns s,
  preorder n ns -> visit f n s = fold_left (fun s m => f m s) ns s.
Proof. exact visit_preorder. Qed.
Print Assumptions C36_visit_is_preorder.

Theorem C36_preorder_is_one_list : forall n, exists ns, preorder n ns /\ forall ns', preorder n ns' -> ns' = ns.
Proof. intro n. exists (nodes n). split; [apply preorder_nodes|apply preorder_det]. Qed.
Print Assumptions C36_preorder_is_one_list.

(** the closure leaves every node as it is and may do anything to its own state *)
Theorem C36_map_visit_identity : forall S (g : cst -> S -> S) d n ns s,
  depth_at_most d n -> preorder n ns ->
  map_visit (fun n s => (n, g n s)) d n s = Ok (n, fold_left (fun s m => g m s) ns s).
Proof. intros S g d n ns s D P. apply preorder_det in P. subst. apply map_visit_keep. exact D. Qed.
Print Assumptions C36_map_visit_identity.

Theorem C36_depth_exists : forall n, exists d, depth_at_most d n.
Proof. exact depth_exists. Qed.
Print Assumptions C36_depth_exists.

Theorem C36_map_visit_ends_if_never_deeper : forall S (f : cst -> S -> cst * S),
  (forall d n s, depth_at_most d n -> depth_at_most d (fst (f n s))) ->
  forall d n s, depth_at_most d n -> exists n' s', map_visit f d n s = Ok (n', s').
Proof. exact map_visit_ends. Qed.
Print Assumptions C36_map_visit_ends_if_never_deeper.

(** mapping visits what the closure returned, so a closure that wraps never comes to an end *)
Theorem C36_map_visit_ends_refuted : exists f : cst -> unit -> cst * unit, exists n,
  forall fuel, map_visit f fuel n tt = OutOfFuel.
Proof. exists (fun n s => (Op KGroup 0 [n], s)), sample. intro fuel. apply map_visit_wrap. Qed.
Print Assumptions C36_map_visit_ends_refuted.

Example visit_sample : visit (fun _ k => k + 1) sample 0 = 12.
Proof. reflexivity. Qed.

(** C44 *)
Theorem C44_source_covers_the_tokens : forall n ts a e,
  solid n -> tokens_of n ts -> in_a_row a ts e -> get_source n = Ok (mkspan a e).
Proof. intros n ts a e S T R. apply tokens_of_det in T. subst. apply get_source_row; assumption. Qed.
Print Assumptions C44_source_covers_the_tokens.

Example sample_meets_C44 : solid sample /\ in_a_row (CharIdx 1) (toks sample) (CharIdx 15) /\
  get_source sample = Ok (mkspan (CharIdx 1) (CharIdx 15)).
Proof. split; [|split; [|reflexivity]]; repeat constructor; discriminate. Qed.
