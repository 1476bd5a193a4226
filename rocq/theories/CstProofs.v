(** Proofs about the operations on concrete syntax trees. *)
From Coq Require Import ZArith List Bool Lia.
From Verif Require Import Base Source GenTokenKind GenOps Tokenizer Cst SpecCst.
Import ListNotations.
Local Open Scope Z_scope.

Arguments agg_removed_kind _ : simpl never.
Arguments trivia_token _ : simpl never.

(** ** Induction *)

Section induction.
  Variable P : cst -> Prop.
  Variable step : forall n, Forall P (children n) -> P n.

  Fixpoint cst_rec' (n : cst) : P n :=
    let all := fix all (l : list cst) : Forall P l :=
      match l with
      | [] => Forall_nil P
      | a :: r => Forall_cons a (cst_rec' a) (all r)
      end in
    match n with
    | Tok t => step (Tok t) (Forall_nil P)
    | Call (Concrete l) m op body =>
        step (Call (Concrete l) m op body) (proj2 (Forall_app P l body) (conj (all l) (all body)))
    | Call (Aggregate h) m op body =>
        step (Call (Aggregate h) m op body) (Forall_cons h (cst_rec' h) (all body))
    | SynErr e ch => step (SynErr e ch) (all ch)
    | Op k op ch => step (Op k op ch) (all ch)
    | BoxN b ch src => step (BoxN b ch src) (all ch)
    | CodeN a b src => step (CodeN a b src) (Forall_nil P)
    end.
End induction.

Lemma cst_ind' : forall P : cst -> Prop, (forall n, Forall P (children n) -> P n) -> forall n, P n.
Proof. exact cst_rec'. Qed.

Lemma children_call : forall h m op body, children (Call h m op body) = head_nodes h ++ body.
Proof. intros [l|x] m op body; reflexivity. Qed.

(** ** Preorder *)

Fixpoint nodes (n : cst) : list cst :=
  n :: match n with
       | Tok _ | CodeN _ _ _ => []
       | Call h _ _ body =>
           match h with Concrete l => flat_map nodes l | Aggregate x => nodes x end ++ flat_map nodes body
       | SynErr _ ch | Op _ _ ch | BoxN _ ch _ => flat_map nodes ch
       end.

Lemma nodes_eq : forall n, nodes n = n :: flat_map nodes (children n).
Proof.
  intros [t|[l|x] m op body|e ch|k op ch|b ch src|a b src]; cbn; try reflexivity.
  rewrite flat_map_app. reflexivity.
Qed.

Lemma Forall2_eq_map : forall {A B} (R : A -> B -> Prop) (f : A -> B) l,
  Forall (fun a => R a (f a)) l -> Forall2 R l (map f l).
Proof. intros A B R f l H. induction H; cbn; constructor; auto. Qed.

Lemma Forall2_det : forall {A B} (R : A -> B -> Prop) (f : A -> B) l ls,
  Forall (fun a => forall b, R a b -> b = f a) l -> Forall2 R l ls -> ls = map f l.
Proof.
  intros A B R f l ls H F. revert H. induction F as [|x y xs ys Hxy HF IH]; intro H; [reflexivity|].
  apply Forall_cons_iff in H as [Ha Hl]. cbn. f_equal; [apply Ha; exact Hxy | apply IH; exact Hl].
Qed.

Lemma preorder_nodes : forall n, preorder n (nodes n).
Proof.
  apply cst_ind'. intros n IH. rewrite nodes_eq, flat_map_concat_map. constructor.
  apply Forall2_eq_map. exact IH.
Qed.

Lemma preorder_det : forall n ns, preorder n ns -> ns = nodes n.
Proof.
  apply (cst_ind' (fun n => forall ns, preorder n ns -> ns = nodes n)). intros n IH ns H. inversion H as [n' ls F]; subst.
  rewrite nodes_eq, flat_map_concat_map. rewrite (Forall2_det preorder nodes _ _ IH F). reflexivity.
Qed.

Lemma fold_left_flat_map : forall {A B S} (g : A -> list B) (f : S -> B -> S) l s,
  fold_left f (flat_map g l) s = fold_left (fun s a => fold_left f (g a) s) l s.
Proof.
  intros A B S g f l. induction l as [|a l IH]; intro s; [reflexivity|].
  cbn. rewrite fold_left_app. apply IH.
Qed.

Lemma fold_left_ext : forall {A S} (f g : S -> A -> S) l,
  Forall (fun a => forall s, f s a = g s a) l -> forall s, fold_left f l s = fold_left g l s.
Proof.
  intros A S f g l H. induction H as [|a l Ha _ IH]; intro s; [reflexivity|]. cbn. rewrite Ha. apply IH.
Qed.

Lemma visit_eq : forall S (f : cst -> S -> S) n s,
  visit f n s = fold_left (fun s m => visit f m s) (children n) (f n s).
Proof.
  intros S f [t|[l|x] m op body|e ch|k op ch|b ch src|a b src] s; cbn; try reflexivity.
  symmetry. apply fold_left_app.
Qed.

Lemma visit_nodes : forall S (f : cst -> S -> S) n s,
  visit f n s = fold_left (fun s m => f m s) (nodes n) s.
Proof.
  intros S f. apply (cst_ind' (fun n => forall s, visit f n s = fold_left (fun s m => f m s) (nodes n) s)). intros n IH s.
  rewrite visit_eq, nodes_eq. cbn. rewrite fold_left_flat_map. apply fold_left_ext. exact IH.
Qed.

Lemma visit_preorder : forall S (f : cst -> S -> S) n ns s,
  preorder n ns -> visit f n s = fold_left (fun s m => f m s) ns s.
Proof. intros S f n ns s H. apply preorder_det in H. subst. apply visit_nodes. Qed.

(** ** map_visit *)

Lemma map_state_app : forall A B S (f : A -> S -> res (B * S)) l1 l2 s,
  map_state f (l1 ++ l2) s =
  rbind (map_state f l1 s) (fun '(b1, s) => rbind (map_state f l2 s) (fun '(b2, s) => Ok (b1 ++ b2, s))).
Proof.
  intros A B S f l1 l2. induction l1 as [|a l1 IH]; intro s; cbn -[rbind].
  - cbn. destruct (map_state f l2 s) as [[? ?]| |]; reflexivity.
  - destruct (f a s) as [[b s1]| |]; cbn; try reflexivity.
    rewrite IH. destruct (map_state f l1 s1) as [[b1 s2]| |]; cbn; try reflexivity.
    destruct (map_state f l2 s2) as [[b2 s3]| |]; reflexivity.
Qed.

(** a closure that never changes the tree: the tree comes back and the closure has run
    over the nodes in preorder *)
Lemma map_visit_keep : forall S (g : cst -> S -> S) d n s,
  depth_at_most d n -> map_visit (fun n s => (n, g n s)) d n s = Ok (n, fold_left (fun s m => g m s) (nodes n) s).
Proof.
  intros S g d. induction d as [|d IH]; intros n s H; inversion H as [d' n' F]; subst.
  assert (L : forall l s, Forall (depth_at_most d) l ->
    map_state (map_visit (fun n s => (n, g n s)) d) l s
    = Ok (l, fold_left (fun s m => g m s) (flat_map nodes l) s)).
  { clear -IH. induction l as [|a l IHl]; intros s F; [reflexivity|].
    apply Forall_cons_iff in F as [Fa Fl]. cbn -[rbind]. rewrite IH by exact Fa.
    cbn. rewrite IHl by exact Fl. cbn. rewrite fold_left_app. reflexivity. }
  rewrite nodes_eq.
  destruct n as [t|[l|x] m op body|e ch|k op ch|b ch src|a b src]; cbn -[rbind] in *; try reflexivity;
    try (rewrite L by exact F; reflexivity).
  - apply Forall_app in F as [Fl Fb]. rewrite L by exact Fl. cbn. rewrite L by exact Fb. cbn.
    rewrite flat_map_app, fold_left_app. reflexivity.
  - apply Forall_cons_iff in F as [Fx Fb]. rewrite IH by exact Fx. cbn. rewrite L by exact Fb. cbn.
    rewrite fold_left_app. reflexivity.
Qed.

(** every tree has a depth *)
Lemma depth_mono : forall d n, depth_at_most d n -> forall e, (d <= e)%nat -> depth_at_most e n.
Proof.
  induction d as [|d IH]; intros n H e L; inversion H as [d' n' F]; subst.
  destruct e as [|e]; [lia|]. constructor. eapply Forall_impl; [|exact F]. intros a Ha. apply (IH a Ha). lia.
Qed.

Lemma depth_exists : forall n, exists d, depth_at_most d n.
Proof.
  apply cst_ind'. intros n IH.
  assert (exists d, Forall (depth_at_most d) (children n)) as [d D].
  { induction IH as [|a l [d Hd] _ [e He]]; [exists O; constructor|].
    exists (max d e). constructor; [apply (depth_mono d); [exact Hd|lia]|].
    eapply Forall_impl; [|exact He]. intros b Hb. apply (depth_mono e); [exact Hb|lia]. }
  exists (S d). constructor. exact D.
Qed.

(** a closure that never makes a tree deeper: the recursion ends *)
Lemma map_visit_ends : forall S (f : cst -> S -> cst * S),
  (forall d n s, depth_at_most d n -> depth_at_most d (fst (f n s))) ->
  forall d n s, depth_at_most d n -> exists n' s', map_visit f d n s = Ok (n', s').
Proof.
  intros S f H. induction d as [|d IH]; intros n s D; [inversion D|].
  assert (L : forall l s, Forall (depth_at_most d) l -> exists l' s',
    map_state (map_visit f d) l s = Ok (l', s')).
  { clear -IH. induction l as [|a l IHl]; intros s F; [exists [], s; reflexivity|].
    apply Forall_cons_iff in F as [Fa Fl]. destruct (IH a s Fa) as (a' & s1 & Ea).
    destruct (IHl s1 Fl) as (l' & s2 & El). exists (a' :: l'), s2. cbn -[rbind]. rewrite Ea. cbn.
    rewrite El. reflexivity. }
  specialize (H (Datatypes.S d) n s D). cbn -[rbind]. destruct (f n s) as [n1 s1]. cbn in H.
  inversion H as [d' n' F]; subst.
  destruct n1 as [t|[l|x] m op body|e ch|k op ch|b ch src|a b src]; cbn -[rbind] in *;
    try (eexists; eexists; reflexivity);
    try (destruct (L ch s1 F) as (l' & s2 & E); rewrite E; eexists; eexists; reflexivity).
  - apply Forall_app in F as [Fl Fb]. destruct (L l s1 Fl) as (l' & s2 & E). rewrite E. cbn.
    destruct (L body s2 Fb) as (b' & s3 & E'). rewrite E'. eexists; eexists; reflexivity.
  - apply Forall_cons_iff in F as [Fx Fb]. destruct (IH x s1 Fx) as (x' & s2 & E). rewrite E. cbn.
    destruct (L body s2 Fb) as (b' & s3 & E'). rewrite E'. eexists; eexists; reflexivity.
Qed.

(** a closure that puts every node into a new one: the recursion has no end *)
Lemma map_visit_wrap : forall k op fuel n,
  map_visit (fun n (s : unit) => (Op k op [n], s)) fuel n tt = OutOfFuel.
Proof.
  intros k op. induction fuel as [|fuel IH]; intro n; [reflexivity|].
  cbn -[rbind]. rewrite IH. reflexivity.
Qed.

(** ** Tokens *)

Fixpoint toks (n : cst) : list token :=
  match n with
  | Tok t => [t]
  | CodeN _ _ _ => []
  | Call h _ _ body =>
      match h with Concrete l => flat_map toks l | Aggregate x => toks x end ++ flat_map toks body
  | SynErr _ ch | Op _ _ ch | BoxN _ ch _ => flat_map toks ch
  end.

Lemma toks_eq : forall n, (forall t, n <> Tok t) -> toks n = flat_map toks (children n).
Proof.
  intros [t|[l|x] m op body|e ch|k op ch|b ch src|a b src] H; cbn; try reflexivity.
  - destruct (H t eq_refl).
  - rewrite flat_map_app. reflexivity.
Qed.

Lemma is_tok_dec : forall n, (exists t, n = Tok t) \/ (forall t, n <> Tok t).
Proof. intros [t| | | | | ]; [left; exists t; reflexivity|..]; right; discriminate. Qed.

Lemma tokens_of_toks : forall n, tokens_of n (toks n).
Proof.
  apply cst_ind'. intros n IH. destruct (is_tok_dec n) as [[t ->]|H]; [constructor|].
  rewrite toks_eq by exact H. rewrite flat_map_concat_map. constructor; [exact H|].
  apply Forall2_eq_map. exact IH.
Qed.

Lemma tokens_of_det : forall n ts, tokens_of n ts -> ts = toks n.
Proof.
  apply (cst_ind' (fun n => forall ts, tokens_of n ts -> ts = toks n)). intros n IH ts H.
  inversion H as [t|n' ls Hn F]; subst; [reflexivity|].
  rewrite toks_eq by exact Hn. rewrite flat_map_concat_map.
  rewrite (Forall2_det tokens_of toks _ _ IH F). reflexivity.
Qed.

(** ** Aggregation *)

Lemma filter_map_res_app : forall A B (f : A -> res (option B)) l1 l2,
  filter_map_res f (l1 ++ l2) =
  rbind (filter_map_res f l1) (fun b1 => rbind (filter_map_res f l2) (fun b2 => Ok (b1 ++ b2))).
Proof.
  intros A B f l1 l2. induction l1 as [|a l1 IH]; cbn -[rbind].
  - cbn. destruct (filter_map_res f l2); reflexivity.
  - destruct (f a) as [o| |]; cbn; try reflexivity.
    rewrite IH. destruct (filter_map_res f l1) as [b1| |]; cbn; try reflexivity.
    destruct (filter_map_res f l2) as [b2| |]; cbn; try reflexivity. destruct o; reflexivity.
Qed.

Lemma agg_removed_trivia : forall t, agg_removed_kind (t_kind t) = trivia_token t.
Proof.
  intro t. unfold agg_removed_kind, trivia_token, zin. cbn [existsb].
  destruct (t_kind t =? TK_Comment), (t_kind t =? TK_InternalNewline), (t_kind t =? TK_ToplevelNewline),
    (t_kind t =? TK_Boxes_MultiWhitespace), (t_kind t =? TK_Whitespace); reflexivity.
Qed.

Lemma rbind_Ok : forall A B (r : res A) (k : A -> res B) b,
  rbind r k = Ok b -> exists a, r = Ok a /\ k a = Ok b.
Proof. intros A B [a| |] k b H; cbn in H; [exists a; split; [reflexivity|exact H]|discriminate|discriminate]. Qed.

Definition agg_good (n : cst) : Prop :=
  match aggregate_cst n with
  | Ok None => trivia_node n
  | Ok (Some n') => trimmed n n' /\ ~ trivia_node n
  | Panic => True
  | OutOfFuel => False
  end.

Lemma agg_seq_good : forall l, Forall agg_good l ->
  match aggregate_cst_seq l with
  | Ok l' => trimmed_seq l l'
  | Panic => True
  | OutOfFuel => False
  end.
Proof.
  intros l H. unfold aggregate_cst_seq. induction H as [|a l Ha _ IH]; cbn -[rbind]; [constructor|].
  unfold agg_good in Ha. destruct (aggregate_cst a) as [[a'|]| |]; cbn; try assumption; try exact I.
  - destruct (filter_map_res aggregate_cst l) as [l'| |]; cbn; try assumption. apply trimmed_keep; tauto.
  - destruct (filter_map_res aggregate_cst l) as [l'| |]; cbn; try assumption. apply trimmed_drop; assumption.
Qed.

Ltac agg_seq IH l r :=
  let A := fresh "A" in
  pose proof (agg_seq_good l IH) as A; unfold aggregate_cst_seq in A;
  destruct (filter_map_res aggregate_cst l) as [r| |]; cbn in *; try exact I; try exact A.

Lemma agg_all_good : forall n, agg_good n.
Proof.
  apply cst_ind'. intros n IH. unfold agg_good.
  destruct n as [t|[l|x] m op body|e ch|k op ch|b ch src|a b src]; cbn -[rbind] in *.
  - rewrite agg_removed_trivia. destruct (trivia_token t) eqn:T; cbn; [reflexivity|].
    split; [|discriminate]. apply trimmed_node; cbn; try reflexivity; try discriminate; try constructor.
    rewrite T. discriminate.
  - apply Forall_app in IH as [IHl IHb]. agg_seq IHl l hs. destruct hs as [|h [|? ?]]; try exact I.
    agg_seq IHb body bs. split; [|tauto]. apply trimmed_call; assumption.
  - exact I.
  - agg_seq IH ch cs. split; [|tauto]. apply trimmed_node; cbn; try reflexivity; try discriminate; try tauto.
  - assert (G : forall r, r = rbind (filter_map_res aggregate_cst ch) (fun ch => Ok (Some (Op k op ch))) ->
        ~ trivia_node (Op k op ch) ->
        match r with Ok None => trivia_node (Op k op ch)
        | Ok (Some n') => trimmed (Op k op ch) n' /\ ~ trivia_node (Op k op ch)
        | Panic => True | OutOfFuel => False end).
    { intros r -> N. agg_seq IH ch cs. split; [|exact N].
      apply trimmed_node; cbn; try reflexivity; try discriminate; tauto. }
    destruct k; try (apply G; [reflexivity|cbn; tauto]).
    destruct (Z.eqb_spec op GOP_Token_Comment) as [->|N]; [reflexivity|].
    apply G; [reflexivity|exact N].
  - agg_seq IH ch cs. split; [|tauto]. apply trimmed_node; cbn; try reflexivity; try discriminate; try tauto.
  - split; [|tauto]. apply trimmed_node; cbn; try reflexivity; try discriminate; try tauto. constructor.
Qed.

Lemma aggregate_trims : forall n n', aggregate_cst n = Ok (Some n') -> trimmed n n'.
Proof. intros n n' E. pose proof (agg_all_good n) as H. unfold agg_good in H. rewrite E in H. tauto. Qed.

Lemma aggregate_drops : forall n, aggregate_cst n = Ok None -> trivia_node n.
Proof. intros n E. pose proof (agg_all_good n) as H. unfold agg_good in H. rewrite E in H. exact H. Qed.

Lemma aggregate_seq_trims : forall l l', aggregate_cst_seq l = Ok l' -> trimmed_seq l l'.
Proof.
  intros l l' E. assert (F : Forall agg_good l) by (apply Forall_forall; intros; apply agg_all_good).
  pose proof (agg_seq_good l F) as H. rewrite E in H. exact H.
Qed.

(** [trimmed] is a function *)
Scheme trimmed_mut := Induction for trimmed Sort Prop
with trimmed_seq_mut := Induction for trimmed_seq Sort Prop.

Lemma trimmed_not_trivia : forall n n', trimmed n n' -> ~ trivia_node n.
Proof. intros n n' H. destruct H; [assumption|cbn; tauto]. Qed.

Lemma label_children_inj : forall a b, label_of a = label_of b -> children a = children b -> a = b.
Proof.
  intros a b L C.
  destruct a as [?|[?|?] ? ? ?|? ?|? ? ?|? ? ?|? ? ?], b as [?|[?|?] ? ? ?|? ?|? ? ?|? ? ?|? ? ?];
    cbn in L, C; try discriminate; try (injection L as -> ->; subst; reflexivity); try congruence.
  - injection L as N -> ->. rename l into l1. rename l0 into l2.
    assert (l1 = l2 /\ body = body0) as [-> ->]; [|reflexivity].
    revert l2 N C. induction l1 as [|a l1 IH]; intros [|b l2] N C; cbn in *; try discriminate; [auto|].
    injection C as -> C. injection N as N. destruct (IH l2 N C) as [-> ->]. auto.
Qed.

Lemma trimmed_det : forall n n1, trimmed n n1 -> forall n2, trimmed n n2 -> n1 = n2.
Proof.
  apply (trimmed_mut
    (fun n n1 _ => forall n2, trimmed n n2 -> n1 = n2)
    (fun l l1 _ => forall l2, trimmed_seq l l2 -> l1 = l2)).
  - intros n n' N C L S IH n2 H. inversion H as [n0 n0' N0 C0 L0 S0|]; subst.
    + apply label_children_inj; [congruence|]. apply IH. exact S0.
    + destruct (C _ _ _ _ eq_refl).
  - intros l h m op body body' S1 IH1 S2 IH2 n2 H. inversion H as [n0 n0' N0 C0 L0 S0|l0 h0 m0 op0 b0 b0' T1 T2]; subst.
    + destruct (C0 _ _ _ _ eq_refl).
    + specialize (IH1 _ T1). specialize (IH2 _ T2). injection IH1 as ->. subst. reflexivity.
  - intros l2 H. inversion H. reflexivity.
  - intros n l l' T S IH l2 H. inversion H; subst; [apply IH; assumption|].
    exfalso. eapply trimmed_not_trivia; eassumption.
  - intros n n' l l' T IHT S IH l2 H. inversion H; subst.
    + exfalso. eapply trimmed_not_trivia; eassumption.
    + f_equal; [apply IHT; assumption|apply IH; assumption].
Qed.

(** no comment groups, by structure *)
Inductive ncg : cst -> Prop :=
| ncg_node : forall n, (forall ch, n <> Op KGroup GOP_Token_Comment ch) -> Forall ncg (children n) -> ncg n.

Lemma no_comment_groups_ncg : forall n, no_comment_groups n -> ncg n.
Proof.
  apply (cst_ind' (fun n => no_comment_groups n -> ncg n)). intros n IH H.
  specialize (H _ (preorder_nodes n)). rewrite nodes_eq in H. constructor.
  - intros ch E. apply (H ch). left. exact E.
  - rewrite Forall_forall in *. intros a Ha. apply IH; [exact Ha|].
    intros ns Hns ch Hc. apply preorder_det in Hns. subst.
    apply (H ch). right. apply in_flat_map. exists a. split; assumption.
Qed.

Lemma filter_app' : forall {A} (f : A -> bool) l1 l2, filter f (l1 ++ l2) = filter f l1 ++ filter f l2.
Proof. intros A f l1 l2. induction l1 as [|a l1 IH]; [reflexivity|]. cbn. rewrite IH. destruct (f a); reflexivity. Qed.

Lemma trimmed_tokens : forall n n', trimmed n n' -> ncg n ->
  toks n' = filter (fun t => negb (trivia_token t)) (toks n).
Proof.
  apply (trimmed_mut
    (fun n n' _ => ncg n -> toks n' = filter (fun t => negb (trivia_token t)) (toks n))
    (fun l l' _ => Forall ncg l -> flat_map toks l' = filter (fun t => negb (trivia_token t)) (flat_map toks l))).
  - intros n n' N C L S IH G. inversion G as [n0 G1 G2]; subst.
    destruct (is_tok_dec n) as [[t ->]|NT].
    + cbn in L. destruct n' as [?|[?|?] ? ? ?|? ?|? ? ?|? ? ?|? ? ?]; try discriminate. injection L as ->.
      cbn in *. destruct (trivia_token t); [destruct (N eq_refl)|reflexivity].
    + rewrite (toks_eq n) by exact NT. rewrite toks_eq; [apply IH; exact G2|].
      intros t E. subst. cbn in L. destruct n as [?|[?|?] ? ? ?|? ?|? ? ?|? ? ?|? ? ?]; try discriminate.
      apply (NT t0). reflexivity.
  - intros l h m op body body' S1 IH1 S2 IH2 G. inversion G as [n0 G1 G2]; subst. cbn in G2.
    apply Forall_app in G2 as [Gl Gb]. cbn. rewrite filter_app'. rewrite IH2 by exact Gb.
    specialize (IH1 Gl). cbn in IH1. rewrite app_nil_r in IH1. rewrite IH1. reflexivity.
  - reflexivity.
  - intros n l l' T S IH G. apply Forall_cons_iff in G as [Gn Gl]. cbn. rewrite filter_app', IH by exact Gl.
    destruct n as [t|h m op body|e ch|k op ch|b ch src|a b src]; cbn in T; try tauto.
    + cbn. rewrite T. reflexivity.
    + destruct k; try tauto. subst. inversion Gn as [n0 G1 G2]; subst. destruct (G1 _ eq_refl).
  - intros n n' l l' T IHT S IH G. apply Forall_cons_iff in G as [Gn Gl]. cbn.
    rewrite filter_app', IH, IHT by assumption. reflexivity.
Qed.

Lemma aggregate_tokens : forall n n' ts ts',
  no_comment_groups n -> aggregate_cst n = Ok (Some n') -> tokens_of n ts -> tokens_of n' ts' ->
  ts' = filter (fun t => negb (trivia_token t)) ts.
Proof.
  intros n n' ts ts' G E T T'. apply tokens_of_det in T. apply tokens_of_det in T'. subst.
  apply trimmed_tokens; [apply aggregate_trims; exact E|]. apply no_comment_groups_ncg. exact G.
Qed.

Lemma aggregate_seq_tokens : forall l l',
  Forall no_comment_groups l -> aggregate_cst_seq l = Ok l' ->
  flat_map toks l' = filter (fun t => negb (trivia_token t)) (flat_map toks l).
Proof.
  intros l l' G E. apply aggregate_seq_trims in E. revert G. induction E as [|n l l' T S IH|n n' l l' T S IH]; intro G.
  - reflexivity.
  - apply Forall_cons_iff in G as [Gn Gl]. cbn. rewrite filter_app', IH by exact Gl.
    destruct n as [t|h m op body|e ch|k op ch|b ch src|a b src]; cbn in T; try tauto.
    + cbn. rewrite T. reflexivity.
    + destruct k; try tauto. subst. exfalso. apply (Gn _ (preorder_nodes _) ch). rewrite nodes_eq. left. reflexivity.
  - apply Forall_cons_iff in G as [Gn Gl]. cbn. rewrite filter_app', IH by exact Gl.
    rewrite (trimmed_tokens n n' T); [reflexivity|]. apply no_comment_groups_ncg. exact Gn.
Qed.

(** when it panics *)
Inductive hok : cst -> Prop :=
| hok_node : forall n,
    (forall h m op body, n = Call h m op body -> exists a x b, h = Concrete (a ++ x :: b) /\ ~ trivia_node x /\
      Forall trivia_node a /\ Forall trivia_node b) ->
    Forall hok (children n) -> hok n.

Lemma heads_ok_hok : forall n, heads_ok n -> hok n.
Proof.
  apply (cst_ind' (fun n => heads_ok n -> hok n)). intros n IH H.
  specialize (H _ (preorder_nodes n)). rewrite nodes_eq in H. constructor.
  - intros h m op body E. apply (H h m op body). left. exact E.
  - rewrite Forall_forall in *. intros a Ha. apply IH; [exact Ha|].
    intros ns Hns h m op body Hc. apply preorder_det in Hns. subst.
    apply (H h m op body). right. apply in_flat_map. exists a. split; assumption.
Qed.

Lemma hok_heads_ok : forall n, hok n -> heads_ok n.
Proof.
  apply (cst_ind' (fun n => hok n -> heads_ok n)). intros n IH H ns Hns h m op body Hin.
  apply preorder_det in Hns. subst. rewrite nodes_eq in Hin. inversion H as [n0 H1 H2]; subst.
  destruct Hin as [E|Hin]; [apply (H1 h m op body E)|].
  apply in_flat_map in Hin as (c & Hc & Hin). rewrite Forall_forall in IH, H2.
  apply (IH c Hc (H2 c Hc) _ (preorder_nodes c) h m op body Hin).
Qed.

Lemma agg_trivia_node : forall n, trivia_node n -> aggregate_cst n = Ok None.
Proof.
  intros [t|[l|x] m op body|e ch|k op ch|b ch src|a b src] H; cbn in *; try tauto.
  - rewrite agg_removed_trivia, H. reflexivity.
  - destruct k; try tauto. subst. reflexivity.
Qed.

Lemma agg_all_trivia : forall l, Forall trivia_node l -> filter_map_res aggregate_cst l = Ok [].
Proof. intros l H. induction H as [|a l Ha _ IH]; [reflexivity|]. cbn. rewrite (agg_trivia_node a Ha). cbn. rewrite IH. reflexivity. Qed.

Lemma hok_aggregates : forall n, hok n -> exists o, aggregate_cst n = Ok o.
Proof.
  apply (cst_ind' (fun n => hok n -> exists o, aggregate_cst n = Ok o)). intros n IH H.
  inversion H as [n0 H1 H2]; subst.
  assert (L : forall l, Forall (fun n => hok n -> exists o, aggregate_cst n = Ok o) l -> Forall hok l ->
     exists l', filter_map_res aggregate_cst l = Ok l').
  { clear. intros l IH. induction IH as [|a l Ha _ IHl]; intro F; [exists []; reflexivity|].
    apply Forall_cons_iff in F as [Fa Fl]. destruct (Ha Fa) as [o Eo]. destruct (IHl Fl) as [l' El].
    cbn. rewrite Eo. cbn. rewrite El. cbn. eexists. reflexivity. }
  destruct n as [t|h m op body|e ch|k op ch|b ch src|a b src]; cbn -[rbind] in *.
  - eexists. reflexivity.
  - destruct (H1 h m op body eq_refl) as (a & x & b & -> & Nx & Ta & Tb). cbn -[rbind] in *.
    rewrite filter_map_res_app. rewrite agg_all_trivia by exact Ta. cbn.
    apply Forall_app in IH as [IHl IHb]. apply Forall_app in H2 as [H2l H2b].
    apply Forall_app in IHl as [_ IHl]. apply Forall_app in H2l as [_ H2l].
    apply Forall_cons_iff in IHl as [IHx _]. apply Forall_cons_iff in H2l as [Hx _].
    destruct (IHx Hx) as [[x'|] Ex].
    + rewrite Ex. cbn. rewrite agg_all_trivia by exact Tb. cbn.
      destruct (L body IHb H2b) as [body' Eb]. rewrite Eb. cbn. eexists. reflexivity.
    + destruct (Nx (aggregate_drops x Ex)).
  - destruct (L ch IH H2) as [l' E]. rewrite E. cbn. eexists. reflexivity.
  - destruct (L ch IH H2) as [l' E]. rewrite E. destruct k; try (eexists; reflexivity).
    destruct (op =? GOP_Token_Comment); eexists; reflexivity.
  - destruct (L ch IH H2) as [l' E]. rewrite E. cbn. eexists. reflexivity.
  - eexists. reflexivity.
Qed.

Lemma trimmed_seq_one : forall l h, trimmed_seq l [h] ->
  exists a x b, l = a ++ x :: b /\ ~ trivia_node x /\ Forall trivia_node a /\ Forall trivia_node b.
Proof.
  intros l h H. remember [h] as r eqn:E. revert h E. induction H as [|n l l' T S IH|n n' l l' T S IH]; intros h E.
  - discriminate.
  - destruct (IH h E) as (a & x & b & -> & Nx & Ta & Tb). exists (n :: a), x, b.
    split; [reflexivity|]. split; [exact Nx|]. split; [constructor; assumption|exact Tb].
  - injection E as -> ->. exists [], n, l. split; [reflexivity|]. split; [eapply trimmed_not_trivia; exact T|].
    split; [constructor|]. clear -S. remember [] as r eqn:E. induction S; [constructor|constructor; auto|discriminate].
Qed.

Lemma aggregated_hok : forall n n', trimmed n n' -> ncg n -> hok n.
Proof.
  apply (trimmed_mut (fun n n' _ => ncg n -> hok n) (fun l l' _ => Forall ncg l -> Forall hok l)).
  - intros n n' N C L S IH G. inversion G as [n0 G1 G2]; subst. constructor; [|apply IH; exact G2].
    intros h m op body E. destruct (C _ _ _ _ E).
  - intros l h m op body body' S1 IH1 S2 IH2 G. inversion G as [n0 G1 G2]; subst. cbn in G2.
    apply Forall_app in G2 as [Gl Gb]. constructor.
    + intros h' m' op' body'' E. injection E as <- <- <- <-.
      destruct (trimmed_seq_one l h S1) as (a & x & b & -> & R). exists a, x, b. split; [reflexivity|exact R].
    + cbn. apply Forall_app. split; [apply IH1; exact Gl|apply IH2; exact Gb].
  - constructor.
  - intros n l l' T S IH G. apply Forall_cons_iff in G as [Gn Gl]. constructor; [|apply IH; exact Gl].
    destruct n as [t|h m op body|e ch|k op ch|b ch src|a b src]; cbn in T; try tauto.
    + constructor; [discriminate|constructor].
    + destruct k; try tauto. subst. inversion Gn as [n0 G1 G2]; subst. destruct (G1 _ eq_refl).
  - intros n n' l l' T IHT S IH G. apply Forall_cons_iff in G as [Gn Gl]. constructor; auto.
Qed.

Lemma aggregate_defined : forall n, no_comment_groups n -> ~ trivia_node n ->
  ((exists n', aggregate_cst n = Ok (Some n')) <-> heads_ok n).
Proof.
  intros n G N. split.
  - intros [n' E]. apply hok_heads_ok. apply (aggregated_hok n n'); [apply aggregate_trims; exact E|].
    apply no_comment_groups_ncg. exact G.
  - intro H. destruct (hok_aggregates n (heads_ok_hok n H)) as [[n'|] E]; [exists n'; exact E|].
    destruct (N (aggregate_drops n E)).
Qed.

(** ** Sources *)

Lemma loc_leb_trans : forall a b c, loc_leb a b = Some true -> loc_leb b c = Some true -> loc_leb a c = Some true.
Proof.
  intros [a1 a2|a] [b1 b2|b] [c1 c2|c] H1 H2; cbn in *; try discriminate; f_equal.
  - injection H1 as H1. injection H2 as H2.
    apply orb_true_iff in H1, H2. apply orb_true_iff.
    rewrite !andb_true_iff, !Z.ltb_lt, !Z.eqb_eq, !Z.leb_le in *. lia.
  - injection H1 as H1. injection H2 as H2. rewrite !Z.leb_le in *. lia.
Qed.

Lemma loc_leb_refl : forall a, loc_leb a a = Some true.
Proof.
  intros [a1 a2|a]; cbn; f_equal; [|apply Z.leb_refl].
  apply orb_true_iff. right. apply andb_true_iff. split; [apply Z.eqb_refl|apply Z.leb_refl].
Qed.

Lemma row_le : forall l ts e, in_a_row l ts e -> loc_leb l e = Some true.
Proof.
  intros l ts e H. induction H as [l|l t r e E L _ IH]; [apply loc_leb_refl|].
  apply (loc_leb_trans _ _ _ L IH).
Qed.

Lemma row_app : forall l a b e, in_a_row l (a ++ b) e <-> exists m, in_a_row l a m /\ in_a_row m b e.
Proof.
  intros l a b e. split.
  - revert l. induction a as [|t a IH]; intros l H; [exists l; split; [constructor|exact H]|].
    cbn in H. inversion H as [|l0 t0 r0 e0 E L R]; subst. destruct (IH _ R) as (m & H1 & H2).
    exists m. split; [constructor; [reflexivity|exact L|exact H1]|exact H2].
  - intros (m & H1 & H2). induction H1 as [l|l t r m E L R IH]; [exact H2|].
    cbn. constructor; [exact E|exact L|apply IH; exact H2].
Qed.

(** a sequence of nodes whose sources are known *)
Lemma between_row : forall a b c, loc_leb a b = Some true -> loc_leb b c = Some true ->
  forall x y, sp_start x = a -> sp_start y = b -> sp_end y = c -> span_between x y = Ok (mkspan a c).
Proof.
  intros a b c H1 H2 x y <- <- <-. unfold span_between. rewrite H1. unfold Span_new.
  rewrite (loc_leb_trans _ _ _ H1 H2). reflexivity.
Qed.

Definition src_good (n : cst) : Prop := forall a e, solid n -> in_a_row a (toks n) e ->
  get_source n = Ok (mkspan a e).

Lemma seq_source : forall l, Forall src_good l -> Forall solid l -> l <> [] ->
  forall a e, in_a_row a (flat_map toks l) e ->
  exists m1 m2, get_source (hd (Tok (mktok 0 [] [] (mkspan a a))) l) = Ok (mkspan a m1) /\
    loc_leb a m1 = Some true /\
    last (map get_source l) Panic = Ok (mkspan m2 e) /\ loc_leb a m2 = Some true /\ loc_leb m2 e = Some true.
Proof.
  intros l G. induction G as [|n l Gn _ IH]; intros S NE a e H; [congruence|].
  apply Forall_cons_iff in S as [Sn Sl]. cbn in H. apply row_app in H as (m & H1 & H2).
  pose proof (Gn a m Sn H1) as E1. pose proof (row_le _ _ _ H1) as L1.
  destruct l as [|n2 l].
  - cbn in H2. inversion H2; subst. exists e, a. cbn. rewrite E1.
    repeat split; try assumption. apply loc_leb_refl.
  - destruct (IH Sl ltac:(discriminate) m e H2) as (m1 & m2 & F1 & F2 & F3 & F4 & F5).
    exists m, m2. cbn [hd]. split; [exact E1|]. split; [exact L1|]. split; [|split; [|exact F5]].
    + exact F3.
    + apply (loc_leb_trans _ _ _ L1 F4).
Qed.

Lemma seq_between : forall l, Forall src_good l -> Forall solid l -> l <> [] ->
  forall a e, in_a_row a (flat_map toks l) e -> sources_between (map get_source l) = Ok (mkspan a e).
Proof.
  intros l G S NE a e H. destruct (seq_source l G S NE a e H) as (m1 & m2 & F1 & F2 & F3 & F4 & F5).
  destruct l as [|n l]; [congruence|]. unfold sources_between. cbn [map] in *. cbn [hd] in F1. rewrite F3.
  rewrite F1. cbn [rbind]. apply (between_row a m2 e); try assumption; reflexivity.
Qed.

Lemma get_source_row : forall n, src_good n.
Proof.
  apply cst_ind'. intros n IH a e S H. inversion S as [t|h m op body N1 N2 S1 S2|er ch N1 S1|k op ch N1 S1]; subst.
  - cbn in *. inversion H as [|l0 t0 r0 e0 E L R]; subst. inversion R; subst. destruct t as [? ? ? [? ?]]; reflexivity.
  - rewrite toks_eq in H by discriminate. rewrite children_call in *.
    apply Forall_app in IH as [IH1 IH2]. rewrite flat_map_app in H. apply row_app in H as (b & H1 & H2).
    destruct (seq_source _ IH1 S1 N1 a b H1) as (m1 & m2 & F1 & F2 & _).
    pose proof (seq_between _ IH2 S2 N2 b e H2) as E2. pose proof (row_le _ _ _ H1). pose proof (row_le _ _ _ H2).
    cbn [get_source]. replace (match h with Concrete l => match map get_source l with [] => Panic | a :: _ => a end
      | Aggregate m => get_source m end) with (@Ok span (mkspan a m1)).
    + cbn [rbind]. rewrite E2. cbn [rbind]. apply (between_row a b e); try assumption; reflexivity.
    + destruct h as [[|n l]|x]; cbn in *; [congruence|symmetry; exact F1|symmetry; exact F1].
  - rewrite toks_eq in H by discriminate. cbn in *. apply seq_between; assumption.
  - rewrite toks_eq in H by discriminate. cbn in *. apply seq_between; assumption.
Qed.
