(** How the repair of unterminated groups takes part in a parse: the same parse with two
    repairs, side by side. *)
From Coq Require Import ZArith List Bool Lia.
From Verif Require Import Base Source GenTokenKind GenPrec GenOps GenParselets TokenKind Parselets Tokenizer Cst SpecCst CstProofs Parser SpecParser SpecParse.
Import ListNotations.
Local Open Scope Z_scope.
Local Open Scope parser_scope.

(** nodes the parser pushes without reducing *)
Inductive leafy : cst -> Prop :=
| leafy_token : forall t, leafy (Tok t)
| leafy_compound : forall op ch, Forall leafy ch -> leafy (Op KCompound op ch).

(** A relation between two programs that the constructs of the parser preserve. *)
Section Walk.
Variable o : opts.
Variables dbg dbg' : bool.
Variables repair repair' : Z -> list cst -> res (list cst).
Variable sim : forall A, P A -> P A -> Prop.
Arguments sim {A}.
Hypothesis H_ret : forall A (a : A), sim (pret a) (pret a).
Hypothesis H_panic : forall A, sim (@ppanic A) (@ppanic A).
Hypothesis H_out : forall A, sim (@pout A) (@pout A).
Hypothesis H_lift : forall A (r : res A), sim (plift r) (plift r).
Hypothesis H_tk : forall A (m : M A), sim (tk m) (tk m).
Hypothesis H_bind_on : forall A B (Q : A -> Prop) (m m' : P A) (f f' : A -> P B), (forall s a s1, m s = Ok (a, s1) -> Q a) ->
  sim m m' -> (forall a, Q a -> sim (f a) (f' a)) -> sim (pbind m f) (pbind m' f').
Hypothesis H_prec : forall A (f f' : Z -> P A), (forall p, sim (f p) (f' p)) -> sim (fun s => f (top_prec s) s) (fun s => f' (top_prec s) s).
Hypothesis H_groups : forall A (f f' : list Z -> P A), (forall g, sim (f g) (f' g)) -> sim (fun s => f (groups s) s) (fun s => f' (groups s) s).
Hypothesis H_tz : forall A (f f' : st -> P A), (forall g, sim (f g) (f' g)) -> sim (fun s => f (tz s) s) (fun s => f' (tz s) s).
Hypothesis H_push_node : forall n, leafy n -> sim (push_node n) (push_node n).
Hypothesis H_push_trivia : forall l, sim (push_trivia l) (push_trivia l).
Hypothesis H_push_context : forall p, sim (push_context p) (push_context p).
Hypothesis H_set_prec : forall p, sim (set_prec p) (set_prec p).
Hypothesis H_push_group : forall p, sim (push_group p) (push_group p).
Hypothesis H_reduce_op : forall k op, sim (reduce_op k op) (reduce_op k op).
Hypothesis H_reduce_error : forall e, sim (reduce_syntax_error e) (reduce_syntax_error e).
Hypothesis H_reduce_group : forall k op, sim (reduce_group_as k op) (reduce_group_as k op).
Hypothesis H_reduce_unterminated : forall op, sim (reduce_unterminated_group repair op) (reduce_unterminated_group repair' op).
Hypothesis H_reduce_call : sim reduce_call reduce_call.
Hypothesis H_colon : sim check_colon_lhs check_colon_lhs.
Hypothesis H_span : sim top_node_is_span top_node_is_span.
Hypothesis H_debug : forall b, sim (pdebug_assert dbg b) (pdebug_assert dbg' b).
Hypothesis H_get_precedence : forall p, sim (get_precedence p) (get_precedence p).

Lemma H_bind : forall A B (m m' : P A) (f f' : A -> P B), sim m m' -> (forall a, sim (f a) (f' a)) -> sim (pbind m f) (pbind m' f').
Proof. intros A B m m' f f' H K. apply (H_bind_on _ _ (fun _ => True)); auto. Qed.
Lemma H_assert : forall b, sim (passert b) (passert b).
Proof. intros []; unfold passert; auto. Qed.
Lemma H_peek_with : forall pol, sim (ppeek_with o pol) (ppeek_with o pol).
Proof.
  intros pol. apply (H_groups _ (fun g => tk (peek_token_with o (match g with [] => false | _ => true end) pol))
    (fun g => tk (peek_token_with o (match g with [] => false | _ => true end) pol))). auto.
Qed.
Lemma H_peek : sim (ppeek o) (ppeek o). Proof. apply H_peek_with. Qed.
Lemma H_skip : forall t, sim (pskip t) (pskip t). Proof. intros t. apply H_tk. Qed.
Lemma H_reset : forall t, sim (preset t) (preset t). Proof. intros t. apply H_tk. Qed.
Lemma H_loop : forall get, sim get get -> forall f k, sim (trivia_loop k get f) (trivia_loop k get f).
Proof.
  intros get Hg f. induction k as [|k IH]; cbn [trivia_loop]; [apply H_out|]. apply H_bind; auto. intros t.
  destruct (f (t_kind t)); [|apply H_ret]. apply H_bind; [apply H_skip|]. intros _. apply H_bind; auto. intros [l u]. apply H_ret.
Qed.
Lemma H_fuel : forall A (f : nat -> P A), (forall k, sim (f k) (f k)) -> sim (pwith_fuel f) (pwith_fuel f).
Proof. intros A f Hf. unfold pwith_fuel. apply (H_tz _ (fun z => f (S (length (rest (cur z))))) (fun z => f (S (length (rest (cur z)))))). auto. Qed.
Lemma H_current : sim (current_token o dbg) (current_token o dbg').
Proof. apply H_bind; [apply H_fuel; intros; apply H_loop, H_peek|]. intros [l t]. apply H_bind; [apply H_debug|]. auto. Qed.
Lemma H_current_nn : sim (current_token_not_newline o) (current_token_not_newline o).
Proof. apply H_fuel; intros; apply H_loop, H_peek. Qed.
Lemma H_trivia_reset : forall l, sim (trivia_reset l) (trivia_reset l).
Proof. intros [|t l]; [apply H_ret|apply H_reset]. Qed.
Lemma H_push_leaf : forall t, sim (push_leaf dbg t) (push_leaf dbg' t).
Proof. intros t. apply H_bind; [apply H_debug|]. intros _. apply H_push_node. constructor. Qed.
Lemma H_push_syntax : forall t, sim (push_syntax dbg t) (push_syntax dbg' t).
Proof. exact H_push_leaf. Qed.
Lemma H_push_leaf_next : forall t, sim (push_leaf_and_next dbg t) (push_leaf_and_next dbg' t).
Proof. intros t. apply H_bind; [apply H_push_leaf|]. intros _. apply H_skip. Qed.
Lemma H_push_syntax_next : forall t, sim (push_syntax_and_next dbg t) (push_syntax_and_next dbg' t).
Proof. exact H_push_leaf_next. Qed.
Lemma H_commit : forall l t, sim (commit_syntax_and_next dbg l t) (commit_syntax_and_next dbg' l t).
Proof. intros l t. apply H_bind; [apply H_push_trivia|]. intros _. apply H_push_leaf_next. Qed.
Lemma H_eat : sim (eat_trivia o dbg) (eat_trivia o dbg').
Proof. apply H_bind; [apply H_current|]. intros [l t]. apply H_bind; auto. Qed.
Lemma H_eat_nn : sim (eat_trivia_not_newline o) (eat_trivia_not_newline o).
Proof. apply H_bind; [apply H_current_nn|]. intros [l t]. apply H_bind; auto. Qed.
Lemma H_eat_file : sim (eat_trivia_as_file o dbg) (eat_trivia_as_file o dbg').
Proof. apply H_bind; [apply H_fuel; intros; apply H_loop, H_tk|]. intros [l t]. apply H_bind; [apply H_debug|]. intros _. apply H_bind; auto. Qed.
Lemma H_implicit : forall t, sim (process_implicit_times t) (process_implicit_times t).
Proof.
  intros t. unfold process_implicit_times. destruct (infix_of (t_kind t)); try apply H_ret.
  - apply (H_prec _ (fun p => pret (if p =? PREC_CLASS_INTEGRATIONOPERATORS then t else tok_at_start TK_Fake_ImplicitTimes t))
      (fun p => pret (if p =? PREC_CLASS_INTEGRATIONOPERATORS then t else tok_at_start TK_Fake_ImplicitTimes t))). auto.
  - apply H_bind; auto.
Qed.

Variables rec rec' : call -> P unit.
Hypothesis Hrec : forall c, sim (rec c) (rec' c).

Lemma H_push_and_climb : forall t, sim (push_and_climb dbg rec t) (push_and_climb dbg' rec' t).
Proof. intros t. apply H_bind; [apply H_push_leaf|auto]. Qed.

Lemma H_if_prec : forall A prec (a a' b b' : P A), sim a a' -> sim b b' ->
  sim (fun s => (if prec_greater (top_prec s) prec then a else b) s) (fun s => (if prec_greater (top_prec s) prec then a' else b') s).
Proof.
  intros A prec a a' b b' Ha Hb. apply (H_prec _ (fun p => if prec_greater p prec then a else b) (fun p => if prec_greater p prec then a' else b')).
  intros p. destruct (prec_greater p prec); auto.
Qed.
Lemma H_if_group : forall A c (a a' b b' : P A), sim a a' -> sim b b' ->
  sim (fun s => (if check_group c s then a else b) s) (fun s => (if check_group c s then a' else b') s).
Proof.
  intros A c a a' b b' Ha Hb. apply (H_groups _ (fun g => if existsb (Z.eqb c) g then a else b) (fun g => if existsb (Z.eqb c) g then a' else b')).
  intros g. destruct (existsb (Z.eqb c) g); auto.
Qed.
Lemma H_by_prec : forall A p0 (f f' : bool -> P A), (forall b, sim (f b) (f' b)) ->
  sim (fun s => f (top_prec s =? p0) s) (fun s => f' (top_prec s =? p0) s).
Proof. intros A p0 f f' Hf. apply (H_prec _ (fun p => f (p =? p0)) (fun p => f' (p =? p0))). auto. Qed.

Lemma H_top_closer : forall t, sim (prefix_toplevel_closer dbg t) (prefix_toplevel_closer dbg' t).
Proof. intros t. apply H_bind; [apply H_assert|]. intros _. apply H_bind; [apply H_push_leaf|]. intros _. apply H_skip. Qed.

Ltac stepw :=
  match goal with
  | |- forall _, _ => intros
  | |- sim (pbind _ _) _ => apply H_bind
  | |- sim (rec _) _ => apply Hrec
  | |- sim (fun s => (if prec_greater (top_prec s) _ then _ else _) s) _ => apply H_if_prec
  | |- sim (fun s => (if check_group _ s then _ else _) s) _ => apply H_if_group
  | |- sim (if ?c then _ else _) _ => destruct c
  | |- sim (match ?a with ColonPattern => _ | _ => _ end) _ => destruct a
  | |- sim (let (_, _) := ?a in _) _ => destruct a as [? ?]
  | |- sim (push_node _) _ => apply H_push_node; repeat constructor
  | |- _ => first [apply H_current | apply H_current_nn | apply H_eat | apply H_eat_nn | apply H_eat_file | apply H_trivia_reset
      | apply H_push_leaf | apply H_push_leaf_next | apply H_push_syntax | apply H_push_syntax_next | apply H_push_trivia | apply H_commit | apply H_push_context | apply H_set_prec
      | apply H_push_group | apply H_reduce_op | apply H_reduce_error | apply H_reduce_group | apply H_reduce_unterminated | apply H_reduce_call
      | apply H_colon | apply H_span | apply H_get_precedence | apply H_implicit | apply H_peek_with | apply H_skip | apply H_reset | apply H_tk
      | apply H_assert | apply H_debug | apply H_lift | apply H_ret | apply H_panic | apply H_push_and_climb | apply H_top_closer]
  end.
Ltac walk := repeat stepw.

Lemma H_under : forall bop t, sim (get_under o bop t) (get_under o bop t).
Proof. intros bop t. unfold get_under, ppeek. walk. Qed.
Lemma under_leafy : forall bop t s n s1, get_under o bop t s = Ok (n, s1) -> leafy n.
Proof.
  intros bop t s n s1 H. unfold get_under, pbind in H. destruct (pskip t s) as [[[] s2]| |]; try discriminate. destruct (ppeek o s2) as [[u s3]| |]; try discriminate.
  destruct ((t_kind u =? TK_Symbol) || (t_kind u =? TK_Error_ExpectedLetterlike)).
  - destruct (pskip u s3) as [[[] s4]| |]; try discriminate. injection H as <- _. repeat constructor.
  - injection H as <- _. constructor.
Qed.
Lemma H_pattern : forall bop pbop t u, sim (pattern_blank o dbg rec bop pbop t u) (pattern_blank o dbg' rec' bop pbop t u).
Proof.
  intros. unfold pattern_blank. apply (H_bind_on _ _ leafy); [intros; eapply under_leafy; eauto|apply H_under|].
  intros n Hn. apply H_bind; [apply H_debug|]. intros _. apply H_bind; [|auto]. apply H_push_node. constructor. repeat constructor; auto.
Qed.
Lemma H_group_prefix : forall opener op t, sim (prefix_group dbg rec opener op t) (prefix_group dbg' rec' opener op t).
Proof. intros. unfold prefix_group. walk. Qed.
Lemma H_slot : forall pol args op t, sim (prefix_slot o dbg rec pol args op t) (prefix_slot o dbg' rec' pol args op t).
Proof. intros. unfold prefix_slot. walk. Qed.
Lemma H_span_binary : sim (span_binary rec) (span_binary rec'). Proof. unfold span_binary. walk. Qed.
Lemma H_span_ternary : sim (span_ternary rec) (span_ternary rec'). Proof. unfold span_ternary. walk. Qed.
Lemma H_span2 : sim (span_parse2 o dbg rec) (span_parse2 o dbg' rec').
Proof. unfold span_parse2. walk; auto using H_span_binary, H_span_ternary. Qed.
Lemma H_span1 : sim (span_parse1 o dbg rec) (span_parse1 o dbg' rec').
Proof. unfold span_parse1. walk; auto using H_span_binary, H_span_ternary, H_span2. Qed.
Lemma H_infix_span : forall t, sim (infix_span o dbg rec t) (infix_span o dbg' rec' t).
Proof. intros t. unfold infix_span. walk. apply H_span1. Qed.
Lemma H_comma_operand : sim (comma_operand o dbg rec) (comma_operand o dbg' rec').
Proof. unfold comma_operand. walk. Qed.
Lemma H_semi_operand : sim (semi_operand o dbg rec) (semi_operand o dbg' rec').
Proof. unfold semi_operand, reduce_compound. walk. Qed.

Lemma H_parse_prefix : forall t, sim (parse_prefix o dbg rec t) (parse_prefix o dbg' rec' t).
Proof.
  intros t. unfold parse_prefix. destruct (prefix_of (t_kind t)).
  - walk.
  - unfold prefix_end_of_file. apply (H_by_prec _ PREC_COMMA (fun b => push_leaf dbg (tok_at_start (if b then _ else _) t)) (fun b => push_leaf dbg' (tok_at_start (if b then _ else _) t))). walk.
  - walk.
  - unfold prefix_closer. walk. apply (H_by_prec _ PREC_COMMA (fun b => push_leaf dbg (tok_at_start (if b then _ else _) t) ;; ppeek o ;; pret tt)
      (fun b => push_leaf dbg' (tok_at_start (if b then _ else _) t) ;; ppeek o ;; pret tt)). unfold ppeek. walk.
  - unfold prefix_unsupported. walk.
  - unfold prefix_comma. apply (H_by_prec _ 0 (fun b => push_leaf dbg (tok_at_start (if b then _ else _) t) ;; rec CClimb)
      (fun b => push_leaf dbg' (tok_at_start (if b then _ else _) t) ;; rec' CClimb)). walk.
  - unfold prefix_unhandled, ppeek. walk.
  - unfold prefix_operator. walk.
  - apply H_group_prefix.
  - unfold prefix_symbol, ppeek. walk; apply H_pattern.
  - unfold prefix_span. walk. apply H_infix_span.
  - unfold prefix_integral. walk.
  - unfold prefix_less_less. walk.
  - apply H_slot.
  - apply H_slot.
  - apply H_slot.
  - unfold prefix_under. apply (H_bind_on _ _ leafy); [intros; eapply under_leafy; eauto|apply H_under|].
    intros n Hn. apply H_bind; auto.
  - walk.
Qed.
Lemma H_parse_infix : forall t, sim (parse_infix o dbg rec t) (parse_infix o dbg' rec' t).
Proof.
  intros t. unfold parse_infix. destruct (infix_of (t_kind t)).
  all: try apply H_panic.
  all: try apply H_infix_span.
  all: unfold infix_binary, infix_infix, infix_times, infix_postfix, infix_call, infix_comma, infix_semi, infix_tilde, infix_colon, infix_slash_colon,
    infix_equal, infix_colon_colon, ppeek_as_tag, infix_file; walk; auto using H_group_prefix, H_comma_operand, H_semi_operand.
Qed.
Lemma H_answer : forall c, sim (answer o dbg repair rec c) (answer o dbg' repair' rec' c).
Proof.
  intros c. destruct c; cbn [answer].
  - apply H_parse_prefix.
  - apply H_parse_infix.
  - unfold climb. walk.
  - unfold group_loop, reduce_group, reduce_group_missing_closer. walk.
  - unfold infix_loop. walk.
  - unfold times_loop. walk.
  - unfold comma_loop. walk; apply H_comma_operand.
  - unfold semi_loop, reduce_compound. walk; apply H_semi_operand.
  - unfold colon_colon_loop, ppeek_as_tag. walk.
Qed.
End Walk.

(** ** A parse with any repair, beside the parse that keeps unterminated groups *)

Section Mended.
Variable o : opts.
Variable dbg : bool.
Variable repair : Z -> list cst -> res (list cst).
Notation md := (mended repair).

Inductive rel : pst -> pst -> Prop :=
| rel_intro : forall z c g x x', Forall2 md x' x -> rel (mkp z x c g) (mkp z x' c g).
Definition msim A (m m' : P A) := forall s s' a s1, rel s s' -> m s = Ok (a, s1) -> exists s1', m' s' = Ok (a, s1') /\ rel s1 s1'.

Ltac start := intros; unfold msim; intros ss ss' vv s1 HR H; destruct HR as [z c g x x' F].

Lemma leafy_mended : forall n, leafy n -> md n n.
Proof.
  fix IH 2. intros n H. destruct H as [t|op ch H]; [constructor|]. constructor.
  induction H as [|y l Hy Hl IHl]; constructor; auto.
Qed.
Lemma skipn_mended : forall k x x', Forall2 md x' x -> Forall2 md (skipn k x') (skipn k x) /\ Forall2 md (firstn k x') (firstn k x).
Proof. intros k x x' F. revert k. induction F as [|a b l l' H F IH]; intros [|k]; cbn; repeat split; auto; destruct (IH k); auto. Qed.
Lemma len_mended : forall x x', Forall2 md x' x -> length x' = length x.
Proof. intros x x' F. induction F; cbn; auto. Qed.
Lemma rev_mended : forall x x', Forall2 md x' x -> Forall2 md (rev x') (rev x).
Proof. intros x x' F. induction F; cbn; auto. apply Forall2_app; auto. Qed.
Lemma snoc_mended : forall x x' n n', Forall2 md x' x -> md n' n -> Forall2 md (x' ++ [n']) (x ++ [n]).
Proof. intros. apply Forall2_app; auto. Qed.

Lemma trivia_mended : forall n n', md n' n -> is_trivia_node n' = is_trivia_node n.
Proof. intros n n' H. destruct H; reflexivity. Qed.
Lemma top_mended : forall z c g x x', Forall2 md x' x ->
  match top_node (mkp z x c g) with
  | Some n => exists n', top_node (mkp z x' c g) = Some n' /\ md n' n
  | None => top_node (mkp z x' c g) = None
  end.
Proof.
  intros z c g x x' F. unfold top_node. cbn [stack]. apply rev_mended in F. induction F as [|a b l l' H F IH]; cbn [find]; auto.
  rewrite (trivia_mended _ _ H). destruct (is_trivia_node b); cbn [negb]; eauto.
Qed.

Lemma msim_op : forall (f : list cst -> cst), (forall l l', Forall2 md l' l -> md (f l') (f l)) ->
  msim _ (ch <- reduce ;; passert (negb (Nat.eqb (length ch) 0)) ;; push_node (f ch)) (ch <- reduce ;; passert (negb (Nat.eqb (length ch) 0)) ;; push_node (f ch)).
Proof.
  intros f Hf. start. unfold reduce, pop_context, pbind in *. cbn [ctxs stack tz groups] in *. destruct c as [|c0 c]; try discriminate. cbn [stack tz ctxs groups] in *.
  rewrite (len_mended _ _ F). destruct (length x <? c_start c0)%nat; try discriminate. destruct (skipn_mended (c_start c0) _ _ F) as (F1 & F2).
  rewrite (len_mended _ _ F1). destruct (negb (Nat.eqb (length (skipn (c_start c0) x)) 0)); try discriminate. unfold passert, pret, push_node in *. injection H as <- <-.
  cbn [stack tz ctxs groups]. eexists. split; [reflexivity|]. constructor. apply snoc_mended; auto.
Qed.

Lemma m_bind : forall A B (Q : A -> Prop) (m m' : P A) (f f' : A -> P B), (forall s a s1, m s = Ok (a, s1) -> Q a) ->
  msim _ m m' -> (forall a, Q a -> msim _ (f a) (f' a)) -> msim _ (pbind m f) (pbind m' f').
Proof.
  intros A B Q m m' f f' HQ Hm Hf s s' b s2 HR H. unfold pbind in *. destruct (m s) as [[a s1]| |] eqn:E; try discriminate.
  destruct (Hm _ _ _ _ HR E) as (s1' & E' & HR1). rewrite E'. apply (Hf a (HQ _ _ _ E) _ _ _ _ HR1 H).
Qed.

Lemma mended_answer : forall rec rec', (forall c, msim _ (rec c) (rec' c)) -> forall c, msim _ (answer o dbg repair rec c) (answer o dbg keep rec' c).
Proof.
  intros rec rec' Hr. apply (H_answer o dbg dbg repair keep msim); auto.
  - start. injection H as <- <-. eexists. split; [reflexivity|]. constructor; auto.
  - start. discriminate.
  - start. discriminate.
  - start. unfold plift in *. destruct r; try discriminate. injection H as <- <-. eexists. split; [reflexivity|]. constructor; auto.
  - start. unfold tk in *. cbn [tz stack ctxs groups] in *. destruct (m z) as [[v t]| |]; try discriminate. injection H as <- <-. eexists. split; [reflexivity|]. constructor; auto.
  - exact m_bind.
  - intros A f f' Hf s s' a s1 HR H. assert (E : top_prec s' = top_prec s) by (destruct HR; reflexivity). rewrite E. eapply Hf; eauto.
  - intros A f f' Hf s s' a s1 HR H. assert (E : groups s' = groups s) by (destruct HR; reflexivity). rewrite E. eapply Hf; eauto.
  - intros A f f' Hf s s' a s1 HR H. assert (E : tz s' = tz s) by (destruct HR; reflexivity). rewrite E. eapply Hf; eauto.
  - intros n Hn. start. injection H as <- <-. eexists. split; [reflexivity|]. constructor. apply snoc_mended; auto using leafy_mended.
  - start. injection H as <- <-. eexists. split; [reflexivity|]. constructor. apply Forall2_app; auto. cbn [stack]. induction l; cbn; constructor; auto. constructor.
  - start. unfold push_context in *. cbn [tz stack ctxs groups] in *. destruct F; try discriminate. injection H as <- <-. eexists. split; [reflexivity|].
    cbn [length]. rewrite (len_mended _ _ F). constructor. auto.
  - start. unfold set_prec in *. cbn [tz stack ctxs groups] in *. destruct c; try discriminate. injection H as <- <-. eexists. split; [reflexivity|]. constructor; auto.
  - start. injection H as <- <-. eexists. split; [reflexivity|]. constructor; auto.
  - intros k op. apply (msim_op (Op k op)). intros; constructor; auto.
  - intros e. apply (msim_op (SynErr e)). intros; constructor; auto.
  - intros k op. start. unfold reduce_group_as, pop_context, pop_group, pbind in *. cbn [ctxs stack tz groups] in *. destruct c as [|c0 c]; try discriminate. cbn [ctxs stack tz groups] in *.
    destruct g as [|g0 g]; try discriminate. cbn [ctxs stack tz groups] in *.
    rewrite (len_mended _ _ F). destruct (length x <? c_start c0)%nat; try discriminate. destruct (skipn_mended (c_start c0) _ _ F) as (F1 & F2).
    rewrite (len_mended _ _ F1). destruct (negb (Nat.eqb (length (skipn (c_start c0) x)) 0)); try discriminate. unfold passert, pret, push_node in *. injection H as <- <-.
    cbn [stack tz ctxs groups]. eexists. split; [reflexivity|]. constructor. apply snoc_mended; auto. constructor; auto.
  - intros op. start. unfold reduce_unterminated_group, pop_context, pop_group, pbind in *. cbn [ctxs stack tz groups] in *. destruct c as [|c0 c]; try discriminate. cbn [ctxs stack tz groups] in *.
    destruct g as [|g0 g]; try discriminate. cbn [ctxs stack tz groups] in *.
    rewrite (len_mended _ _ F). destruct (length x <? c_start c0)%nat; try discriminate. destruct (skipn_mended (c_start c0) _ _ F) as (F1 & F2).
    unfold plift, keep in *. destruct (repair op (skipn (c_start c0) x)) as [ch| |] eqn:E; try discriminate. unfold push_node in *. injection H as <- <-.
    cbn [stack tz ctxs groups]. eexists. split; [reflexivity|]. constructor. apply snoc_mended; auto. eapply mended_group; eauto.
  - start. unfold reduce_call, pop_context, pop_node, pbind in *. cbn [ctxs stack tz groups] in *. destruct c as [|c0 c]; try discriminate. cbn [ctxs stack tz groups] in *.
    pose proof (rev_mended _ _ F) as FR. destruct FR as [|b' b r' r Hb FR]; try discriminate. cbn [ctxs stack tz groups] in *. apply rev_mended in FR.
    rewrite (len_mended _ _ FR). destruct (length (rev r) <? c_start c0)%nat; try discriminate. destruct (skipn_mended (c_start c0) _ _ FR) as (F1 & F2).
    destruct Hb as [t|k op ch' ch Hc|e ch' ch Hc|l' l m op ch' ch Hl Hc|op ch' ch fixed Hc Hf|l' l op op' ch' ch fixed Hl Hc Ho Hf]; try discriminate.
    + destruct k; try discriminate.
      * unfold plift in *. destruct (try_to_call_operator op) as [op'| |]; try discriminate. unfold push_node in *. injection H as <- <-.
        cbn [stack tz ctxs groups]. eexists. split; [reflexivity|]. constructor. apply snoc_mended; auto. constructor; auto.
      * unfold plift in *. destruct (try_to_call_operator op) as [op'| |]; try discriminate. unfold push_node in *. injection H as <- <-.
        cbn [stack tz ctxs groups]. eexists. split; [reflexivity|]. constructor. apply snoc_mended; auto. constructor; auto.
    + unfold plift in *. destruct (try_to_call_operator op) as [op'| |] eqn:E; try discriminate. unfold push_node in *. injection H as <- <-.
        cbn [stack tz ctxs groups]. eexists. split; [reflexivity|]. constructor. apply snoc_mended; auto. eapply mended_group_call; eauto.
  - start. unfold check_colon_lhs in *. pose proof (top_mended z c g x x' F) as T. destruct (top_node (mkp z x c g)) as [n|]; try discriminate.
    destruct T as (n' & E & Hn). rewrite E. destruct Hn as [t|k op ch' ch Hc|e ch' ch Hc|l' l m op ch' ch Hl Hc|op ch' ch fixed Hc Hf|l' l op op' ch' ch fixed Hl Hc Ho Hf].
    + destruct (t_kind t =? TK_Symbol); [|destruct (zin (t_kind t) _); [|destruct (t_kind t =? TK_Colon); [discriminate|]]].
      all: injection H as <- <-; eexists; split; [reflexivity|]; constructor; auto.
    + destruct k; injection H as <- <-; eexists; split; try reflexivity; constructor; auto.
    + injection H as <- <-; eexists; split; try reflexivity; constructor; auto.
    + injection H as <- <-; eexists; split; try reflexivity; constructor; auto.
    + injection H as <- <-; eexists; split; try reflexivity; constructor; auto.
    + injection H as <- <-; eexists; split; try reflexivity; constructor; auto.
  - start. unfold top_node_is_span in *. pose proof (top_mended z c g x x' F) as T. destruct (top_node (mkp z x c g)) as [n|]; try discriminate.
    destruct T as (n' & E & Hn). rewrite E. destruct Hn as [t|k op ch' ch Hc|e ch' ch Hc|l' l m op ch' ch Hl Hc|op ch' ch fixed Hc Hf|l' l op op' ch' ch fixed Hl Hc Ho Hf];
      try (destruct k); injection H as <- <-; eexists; split; try reflexivity; constructor; auto.
  - start. unfold pdebug_assert, passert in *. destruct dbg; [destruct b|]; try discriminate; injection H as <- <-; eexists; split; try reflexivity; constructor; auto.
  - start. unfold get_precedence, top_prec in *. cbn [ctxs] in *. destruct p; try discriminate; injection H as <- <-; eexists; split; try reflexivity; constructor; auto.
Qed.
Lemma mended_run : forall k c, msim _ (run o dbg repair k c) (run o dbg keep k c).
Proof. induction k as [|k IH]; intros c; cbn [run]; [intros s s' a s1 _ H; discriminate|]. apply mended_answer. exact IH. Qed.

Lemma mended_loop : forall k s s' l s1, rel s s' -> parse_loop o dbg repair k s = Ok (l, s1) ->
  exists l' s1', parse_loop o dbg keep k s' = Ok (l', s1') /\ Forall2 md l' l /\ rel s1 s1'.
Proof.
  induction k as [|k IH]; intros s s' l s1 HR H; cbn [parse_loop] in *; [discriminate|].
  unfold pbind in *.
  assert (Hp : match ppeek o s with Ok (t, s2) => exists s2', ppeek o s' = Ok (t, s2') /\ rel s2 s2' | _ => True end).
  { destruct HR as [z c g x x' F]. unfold ppeek, ppeek_with, tk, inside_group. cbn [tz groups stack ctxs]. destruct (peek_token_with _ _ _ z) as [[t z1]| |]; auto.
    eexists. split; [reflexivity|]. constructor; auto. }
  destruct (ppeek o s) as [[t s2]| |]; try discriminate. destruct Hp as (s2' & E & HR2). rewrite E. clear s s' HR E.
  destruct (t_kind t =? TK_EndOfFile); [injection H as <- <-; eexists; eexists; split; [reflexivity|split; auto]|].
  destruct (isTrivia (t_kind t)).
  - assert (Hs : match pskip t s2 with Ok (u, s3) => exists s3', pskip t s2' = Ok (u, s3') /\ rel s3 s3' | _ => True end).
    { destruct HR2 as [z c g x x' F]. unfold pskip, tk. cbn [tz groups stack ctxs]. destruct (skip t z) as [[u z1]| |]; auto. eexists. split; [reflexivity|]. constructor; auto. }
    destruct (pskip t s2) as [[u s3]| |]; try discriminate. destruct Hs as (s3' & E & HR3). rewrite E.
    destruct (parse_loop o dbg repair k s3) as [[l2 s4]| |] eqn:E4; try discriminate. destruct (IH _ _ _ _ HR3 E4) as (l2' & s4' & E4' & F2 & HR4). rewrite E4'.
    injection H as <- <-. eexists. eexists. split; [reflexivity|]. split; auto. constructor; auto. constructor.
  - match type of H with match (?m s2) with _ => _ end = _ =>
      assert (Hs : match m s2 with Ok (u, s3) => exists s3', (if isCloser (t_kind t) then prefix_toplevel_closer dbg t else fun s => run o dbg keep (depth_bound s) (CPrefix t) s) s2' = Ok (u, s3') /\ rel s3 s3' | _ => True end);
      [|destruct (m s2) as [[u s3]| |]; try discriminate] end.
    { destruct (isCloser (t_kind t)).
      - unfold prefix_toplevel_closer. destruct HR2 as [z c g x x' F]. unfold pbind at 1 3. destruct (isCloser (t_kind t)); cbn [passert]; [|exact I]. unfold pret.
        unfold push_leaf, pbind. assert (Hd : forall b w, pdebug_assert dbg b w = Ok (tt, w) \/ forall w', pdebug_assert dbg b w' = Panic).
        { intros b w. unfold pdebug_assert, passert. destruct dbg; [destruct b|]; auto. }
        destruct (Hd (negb (isTrivia (t_kind (tok_at TK_Error_UnexpectedCloser t)))) (mkp z x c g)) as [E|E]; [|rewrite E; exact I].
        assert (E2 : pdebug_assert dbg (negb (isTrivia (t_kind (tok_at TK_Error_UnexpectedCloser t)))) (mkp z x' c g) = Ok (tt, mkp z x' c g)).
        { clear - E. unfold pdebug_assert, passert in *. destruct dbg; [destruct (negb _)|]; auto. discriminate. }
        rewrite E, E2. unfold push_node, pskip, tk. cbn [tz stack groups ctxs]. destruct (skip t z) as [[v z1]| |]; auto. eexists. split; [reflexivity|]. constructor. apply snoc_mended; auto. constructor.
      - assert (D : depth_bound s2' = depth_bound s2) by (destruct HR2; reflexivity). rewrite D. destruct (run o dbg repair (depth_bound s2) (CPrefix t) s2) as [[u s3]| |] eqn:E; auto.
        eapply mended_run; eauto. }
    destruct Hs as (s3' & E & HR3). rewrite E. clear s2 s2' HR2 E.
    destruct HR3 as [z c g x x' F]. unfold pop_node, assert_quiescent in *. cbn [tz stack groups ctxs] in *. apply rev_mended in F. destruct F as [|n' n y' y Hn F]; try discriminate.
    cbn [tz stack groups ctxs] in *. destruct c; try discriminate. destruct g; try discriminate. apply rev_mended in F.
    destruct (parse_loop o dbg repair k _) as [[l2 s4]| |] eqn:E4; try discriminate.
    destruct (IH _ (mkp z (rev y') [] []) _ _ (rel_intro z [] [] _ _ F) E4) as (l2' & s4' & E4' & F2 & HR4). rewrite E4'.
    injection H as <- <-. eexists. eexists. split; [reflexivity|]. split; auto.
Qed.
Lemma mended_parse : forall b input l s1, parse_cst_raw o dbg repair b input = Ok (l, s1) ->
  exists l' s1', parse_cst_raw o dbg keep b input = Ok (l', s1') /\ Forall2 md l' l /\ rel s1 s1'.
Proof.
  intros b input l s1 H. unfold parse_cst_raw, do_parse, session_new, pbind, tk in *. cbn [tz stack groups ctxs] in *.
  destruct (handle_first_line o b (reader_new o input)) as [[u z]| |]; try discriminate. unfold pwith_fuel in *.
  destruct (parse_loop o dbg repair _ _) as [[l2 s2]| |] eqn:E; try discriminate.
  destruct (mended_loop _ _ (mkp z [] [] []) _ _ (rel_intro z [] [] [] [] (Forall2_nil _)) E) as (l' & s' & E' & F & HR). rewrite E'.
  assert (D : length (stack s') = length (stack s2)) by (destruct HR; cbn [stack]; eauto using len_mended). rewrite D.
  destruct (dbg && _); try discriminate. injection H as <- <-. eauto.
Qed.
End Mended.

(** ** Two repairs, when no closing bracket is missing *)

(** the tree contains a node without its closing bracket *)
Definition gapped (n : cst) : Prop := exists g, In g (nodes n) /\ ((exists op ch, g = Op KGroupMissingCloser op ch) \/ (exists h op ch, g = Call h true op ch)).

Section Gaps.
Variable o : opts.
Variable dbg : bool.
Variables repair repair' : Z -> list cst -> res (list cst).

Definition marked (s : pst) : Prop := Exists gapped (stack s).
Definition gsim A (m m' : P A) := forall s a s1, m s = Ok (a, s1) -> (marked s -> marked s1) /\ (marked s1 \/ m' s = Ok (a, s1)).

Lemma g_same : forall A (m : P A), (forall s a s1, m s = Ok (a, s1) -> marked s -> marked s1) -> gsim _ m m.
Proof. intros A m Hm s a s1 H. split; eauto. Qed.
Lemma g_stack : forall A (m : P A), (forall s a s1, m s = Ok (a, s1) -> stack s1 = stack s) -> gsim _ m m.
Proof. intros A m Hm. apply g_same. unfold marked. intros s a s1 H. rewrite (Hm _ _ _ H). auto. Qed.
Lemma g_bind : forall A B (Q : A -> Prop) (m m' : P A) (f f' : A -> P B), (forall s a s1, m s = Ok (a, s1) -> Q a) ->
  gsim _ m m' -> (forall a, Q a -> gsim _ (f a) (f' a)) -> gsim _ (pbind m f) (pbind m' f').
Proof.
  intros A B Q m m' f f' HQ Hm Hf s b s2 H. unfold pbind in *. destruct (m s) as [[a s1]| |] eqn:E; try discriminate.
  destruct (Hm _ _ _ E) as (M1 & M2). destruct (Hf a (HQ _ _ _ E) _ _ _ H) as (M3 & M4). split; auto.
  destruct M2 as [M2|M2]; auto. rewrite M2. auto.
Qed.
Lemma gapped_child : forall n c, In c (children n) -> gapped c -> gapped n.
Proof.
  intros n c Hc (g & Hg & K). exists g. split; auto. rewrite nodes_eq. right. apply in_flat_map. eauto.
Qed.
Lemma gapped_up : forall n l, Exists gapped l -> incl l (children n) -> gapped n.
Proof. intros n l E I. apply Exists_exists in E. destruct E as (c & Hc & G). eapply gapped_child; eauto. Qed.
Lemma marked_split : forall k l, Exists gapped l -> Exists gapped (firstn k l) \/ Exists gapped (skipn k l).
Proof. intros k l H. rewrite <- (firstn_skipn k l) in H. apply Exists_app in H. auto. Qed.
Lemma marked_snoc : forall l n, Exists gapped l \/ gapped n -> Exists gapped (l ++ [n]).
Proof. intros l n [H|H]; apply Exists_app; auto. Qed.

Lemma gsim_op : forall f, (forall l, children (f l) = l) ->
  gsim _ (ch <- reduce ;; passert (negb (Nat.eqb (length ch) 0)) ;; push_node (f ch)) (ch <- reduce ;; passert (negb (Nat.eqb (length ch) 0)) ;; push_node (f ch)).
Proof.
  intros f Hf. apply g_same. intros s a s1 H M. unfold reduce, pop_context, pbind in *. destruct (ctxs s) as [|c0 c]; try discriminate. cbn [stack tz ctxs groups] in *.
  destruct (length (stack s) <? c_start c0)%nat; try discriminate. destruct (negb _); try discriminate. unfold passert, pret, push_node in *. injection H as <- <-.
  unfold marked in *. cbn [stack]. apply marked_snoc. destruct (marked_split (c_start c0) _ M) as [M1|M1]; auto. right. eapply gapped_up; eauto. rewrite Hf. apply incl_refl.
Qed.

Lemma gap_answer : forall rec rec', (forall c, gsim _ (rec c) (rec' c)) -> forall c, gsim _ (answer o dbg repair rec c) (answer o dbg repair' rec' c).
Proof.
  intros rec rec' Hr. apply (H_answer o dbg dbg repair repair' gsim); auto.
  - intros. apply g_stack. intros s v s1 H. injection H as _ <-. reflexivity.
  - intros. apply g_stack. discriminate.
  - intros. apply g_stack. discriminate.
  - intros. apply g_stack. intros s v s1 H. unfold plift in H. destruct r; try discriminate. injection H as _ <-. reflexivity.
  - intros. apply g_stack. intros s v s1 H. unfold tk in H. destruct (m (tz s)) as [[w t]| |]; try discriminate. injection H as _ <-. reflexivity.
  - exact g_bind.
  - intros A f f' Hf s a s1 H. apply (Hf (top_prec s)); auto.
  - intros A f f' Hf s a s1 H. apply (Hf (groups s)); auto.
  - intros A f f' Hf s a s1 H. apply (Hf (tz s)); auto.
  - intros n Hn. apply g_same. intros s v s1 H M. injection H as _ <-. unfold marked in *. cbn [stack]. apply marked_snoc; auto.
  - intros l. apply g_same. intros s v s1 H M. injection H as _ <-. unfold marked in *. cbn [stack]. apply Exists_app. auto.
  - intros p. apply g_stack. intros s v s1 H. unfold push_context in H. destruct (stack s) eqn:E; try discriminate. injection H as _ <-. cbn [stack]. reflexivity.
  - intros p. apply g_stack. intros s v s1 H. unfold set_prec in H. destruct (ctxs s) eqn:E; try discriminate. injection H as _ <-. cbn [stack]. reflexivity.
  - intros p. apply g_stack. intros s v s1 H. injection H as _ <-. reflexivity.
  - intros k op. apply (gsim_op (Op k op)). reflexivity.
  - intros e. apply (gsim_op (SynErr e)). reflexivity.
  - intros k op. apply g_same. intros s v s1 H M. unfold reduce_group_as, pop_context, pop_group, pbind in *. destruct (ctxs s) as [|c0 c]; try discriminate. cbn [ctxs stack tz groups] in *.
    destruct (groups s) as [|g0 g]; try discriminate. cbn [ctxs stack tz groups] in *.
    destruct (length (stack s) <? c_start c0)%nat; try discriminate. destruct (negb _); try discriminate. unfold passert, pret, push_node in *. injection H as <- <-.
    unfold marked in *. cbn [stack]. apply marked_snoc. destruct (marked_split (c_start c0) _ M) as [M1|M1]; auto. right. eapply gapped_up; eauto. apply incl_refl.
  - intros op s v s1 H. unfold reduce_unterminated_group, pop_context, pop_group, pbind in *. destruct (ctxs s) as [|c0 c]; try discriminate. cbn [ctxs stack tz groups] in *.
    destruct (groups s) as [|g0 g]; try discriminate. cbn [ctxs stack tz groups] in *.
    destruct (length (stack s) <? c_start c0)%nat; try discriminate. unfold plift in *. destruct (repair op _) as [ch| |]; try discriminate. unfold push_node in *. injection H as <- <-.
    assert (G : marked (mkp (tz s) (firstn (c_start c0) (stack s) ++ [Op KGroupMissingCloser op ch]) c g)).
    { unfold marked. cbn [stack]. apply marked_snoc. right. eexists. split; [rewrite nodes_eq; left; reflexivity|]. eauto. }
    split; auto.
  - apply g_same. intros s v s1 H M. unfold reduce_call, pop_context, pop_node, pbind in *. destruct (ctxs s) as [|c0 c]; try discriminate. cbn [ctxs stack tz groups] in *.
    destruct (rev (stack s)) as [|b r] eqn:E; try discriminate. cbn [ctxs stack tz groups] in *.
    assert (E2 : stack s = rev r ++ [b]) by (rewrite <- (rev_involutive (stack s)), E; reflexivity).
    destruct (length (rev r) <? c_start c0)%nat; try discriminate.
    unfold marked in M. rewrite E2 in M. apply Exists_app in M.
    assert (K : forall h m op ch, (h = Concrete (skipn (c_start c0) (rev r))) -> (m = true \/ gapped b -> m = true \/ Exists gapped ch) ->
      marked (mkp (tz s) (firstn (c_start c0) (rev r) ++ [Call h m op ch]) c (groups s))).
    { intros h m op ch -> Hm. unfold marked. cbn [stack]. apply marked_snoc. destruct M as [M|M].
      - destruct (marked_split (c_start c0) _ M) as [M1|M1]; auto. right. eapply gapped_up; eauto. cbn [children]. apply incl_appl, incl_refl.
      - apply Exists_cons in M. destruct M as [M|M]; [|apply Exists_nil in M; contradiction]. right. destruct (Hm (or_intror M)) as [->|Hc].
        + eexists. split; [rewrite nodes_eq; left; reflexivity|]. right. eauto.
        + eapply gapped_up; eauto. cbn [children]. apply incl_appr, incl_refl. }
    assert (K2 : forall op ch, b = Op KGroup op ch -> gapped b -> Exists gapped ch).
    { intros op ch -> (g & Hg & Kg). rewrite nodes_eq in Hg. destruct Hg as [<-|Hg].
      - destruct Kg as [(? & ? & Kg)|(? & ? & ? & Kg)]; discriminate.
      - apply in_flat_map in Hg. destruct Hg as (y & Hy & Hg). apply Exists_exists. exists y. split; auto. exists g. auto. }
    destruct b as [| | |k op ch| |]; try discriminate. destruct k; try discriminate.
    + unfold plift in *. destruct (try_to_call_operator op) as [op'| |]; try discriminate. unfold push_node in *. injection H as <- <-. cbn [tz stack ctxs groups].
      unfold marked. cbn [stack]. apply (K (Concrete (skipn (c_start c0) (rev r))) false op' ch); auto.
      intros [?|G]; try discriminate. right. eauto.
    + unfold plift in *. destruct (try_to_call_operator op) as [op'| |]; try discriminate. unfold push_node in *. injection H as <- <-. cbn [tz stack ctxs groups].
      unfold marked. cbn [stack]. apply (K (Concrete (skipn (c_start c0) (rev r))) true op' ch); auto.
  - apply g_stack. intros s v s1 H. unfold check_colon_lhs in H.
    repeat match type of H with match ?m with _ => _ end = _ => destruct m; try discriminate | (if ?b then _ else _) = _ => destruct b; try discriminate end; injection H as _ <-; reflexivity.
  - apply g_stack. intros s v s1 H. unfold top_node_is_span in H.
    repeat match type of H with match ?m with _ => _ end = _ => destruct m; try discriminate end; injection H as _ <-; reflexivity.
  - intros b. apply g_stack. intros s v s1 H. unfold pdebug_assert, passert in H. destruct dbg; [destruct b|]; try discriminate; injection H as _ <-; reflexivity.
  - intros p. apply g_stack. intros s v s1 H. unfold get_precedence in H. destruct p; try discriminate; injection H as _ <-; reflexivity.
Qed.
Lemma gap_run : forall k c, gsim _ (run o dbg repair k c) (run o dbg repair' k c).
Proof. induction k as [|k IH]; intros c; cbn [run]; [intros s a s1 H; discriminate|]. apply gap_answer. exact IH. Qed.

Lemma gap_loop : forall k s l s1, parse_loop o dbg repair k s = Ok (l, s1) ->
  (marked s -> Exists gapped l \/ marked s1) /\ (Exists gapped l \/ marked s1 \/ parse_loop o dbg repair' k s = Ok (l, s1)).
Proof.
  induction k as [|k IH]; intros s l s1 H; cbn [parse_loop] in *; [discriminate|].
  unfold pbind in *. destruct (ppeek o s) as [[t s2]| |] eqn:E1; try discriminate.
  assert (S2 : stack s2 = stack s).
  { unfold ppeek, ppeek_with, tk in E1. destruct (peek_token_with _ _ _ _) as [[u z1]| |]; try discriminate. injection E1 as _ <-. reflexivity. }
  destruct (t_kind t =? TK_EndOfFile); [injection H as <- <-; unfold marked; rewrite S2; auto|].
  destruct (isTrivia (t_kind t)).
  - destruct (pskip t s2) as [[u s3]| |] eqn:E2; try discriminate.
    assert (S3 : stack s3 = stack s2).
    { unfold pskip, tk in E2. destruct (skip t (tz s2)) as [[v z1]| |]; try discriminate. injection E2 as _ <-. reflexivity. }
    destruct (parse_loop o dbg repair k s3) as [[l2 s4]| |] eqn:E4; try discriminate. destruct (IH _ _ _ E4) as (M1 & M2). injection H as <- <-.
    split.
    + intros M. unfold marked in M, M1. rewrite S3, S2 in M1. destruct (M1 M); auto.
    + destruct M2 as [M2|[M2|M2]]; auto. rewrite M2. auto.
  - match type of H with match (?m s2) with _ => _ end = _ =>
      assert (G : gsim _ m (if isCloser (t_kind t) then prefix_toplevel_closer dbg t else fun s => run o dbg repair' (depth_bound s) (CPrefix t) s));
      [|destruct (m s2) as [[u s3]| |] eqn:E3; try discriminate] end.
    { destruct (isCloser (t_kind t)).
      - apply g_same. clear. intros s a s1 H M. unfold prefix_toplevel_closer, push_leaf, pbind, push_node, pskip, tk in H.
        unfold passert at 1 in H. destruct (isCloser (t_kind t)); [|discriminate]. unfold pret in H. unfold pdebug_assert, passert, pret, ppanic in H.
        destruct dbg; [destruct (negb _)|]; try discriminate; cbn [tz stack ctxs groups] in H; destruct (skip t (tz s)) as [[v z]| |]; try discriminate;
          injection H as _ <-; unfold marked in *; cbn [stack]; apply marked_snoc; auto.
      - intros w a w1 H1. apply (gap_run (depth_bound w)). exact H1. }
    destruct (G _ _ _ E3) as (G1 & G2). unfold pop_node in H.
    destruct (rev (stack s3)) as [|n r] eqn:ER; try discriminate. assert (E5 : stack s3 = rev r ++ [n]) by (rewrite <- (rev_involutive (stack s3)), ER; reflexivity).
    unfold assert_quiescent in *. cbn [tz stack groups ctxs] in H. destruct (ctxs s3) eqn:EC; try discriminate. destruct (groups s3) eqn:EG; try discriminate.
    destruct (parse_loop o dbg repair k _) as [[l2 s4]| |] eqn:E4; try discriminate. destruct (IH _ _ _ E4) as (M1 & M2). injection H as <- <-.
    assert (K : marked s3 -> Exists gapped (n :: l2) \/ marked s4).
    { intros M. unfold marked in M. rewrite E5 in M. apply Exists_app in M. destruct M as [M|M].
      - destruct (M1 M); auto.
      - apply Exists_cons in M. destruct M as [M|M]; [|apply Exists_nil in M; contradiction]. auto. }
    split.
    + intros M. apply K, G1. unfold marked. rewrite S2. exact M.
    + destruct G2 as [G2|G2]; [destruct (K G2); auto|]. rewrite G2. unfold pop_node. rewrite ER. cbn [tz stack groups ctxs]. rewrite EC, EG.
      destruct M2 as [M2|[M2|M2]]; auto. rewrite M2. auto.
Qed.
Lemma gap_parse : forall b input l s1, parse_cst_raw o dbg repair b input = Ok (l, s1) -> stack s1 = [] -> ~ Exists gapped l ->
  parse_cst_raw o dbg repair' b input = Ok (l, s1).
Proof.
  intros b input l s1 H HS HN. unfold parse_cst_raw, do_parse, session_new, pbind, tk in *. cbn [tz stack groups ctxs] in *.
  destruct (handle_first_line o b (reader_new o input)) as [[u z]| |]; try discriminate. unfold pwith_fuel in *.
  destruct (parse_loop o dbg repair _ _) as [[l2 s2]| |] eqn:E; try discriminate.
  destruct (dbg && _) eqn:D; try discriminate. injection H as <- <-.
  destruct (gap_loop _ _ _ _ E) as (_ & [M|[M|M]]); try contradiction.
  - unfold marked in M. rewrite HS in M. apply Exists_nil in M. contradiction.
  - rewrite M, D. reflexivity.
Qed.
End Gaps.

(** ** With and without debug assertions *)

Section Debug.
Variable o : opts.
Variable repair : Z -> list cst -> res (list cst).
Definition dsim A (m m' : P A) := forall s x, m s = Ok x -> m' s = Ok x.
Lemma d_same : forall A (m : P A), dsim _ m m. Proof. intros A m s x H. exact H. Qed.
Lemma d_bind : forall A B (Q : A -> Prop) (m m' : P A) (f f' : A -> P B), (forall s a s1, m s = Ok (a, s1) -> Q a) ->
  dsim _ m m' -> (forall a, Q a -> dsim _ (f a) (f' a)) -> dsim _ (pbind m f) (pbind m' f').
Proof.
  intros A B Q m m' f f' HQ Hm Hf s x H. unfold pbind in *. destruct (m s) as [[a s1]| |] eqn:E; try discriminate. rewrite (Hm _ _ E). apply (Hf a (HQ _ _ _ E)). exact H.
Qed.
Lemma d_bind' : forall A B (m m' : P A) (f f' : A -> P B), dsim _ m m' -> (forall a, dsim _ (f a) (f' a)) -> dsim _ (pbind m f) (pbind m' f').
Proof. intros. apply (d_bind _ _ (fun _ => True)); auto. Qed.
Lemma d_debug : forall b, dsim _ (pdebug_assert true b) (pdebug_assert false b).
Proof. intros [] s x H; [exact H|discriminate]. Qed.
Lemma debug_answer : forall rec rec', (forall c, dsim _ (rec c) (rec' c)) -> forall c, dsim _ (answer o true repair rec c) (answer o false repair rec' c).
Proof.
  intros rec rec' Hr. apply (H_answer o true false repair repair dsim); auto using d_same, d_debug.
  - exact d_bind.
  - intros A f f' Hf s x H. apply Hf. exact H.
  - intros A f f' Hf s x H. apply Hf. exact H.
  - intros A f f' Hf s x H. apply Hf. exact H.
Qed.
Lemma debug_run : forall k c, dsim _ (run o true repair k c) (run o false repair k c).
Proof. induction k as [|k IH]; intros c; cbn [run]; [intros s x H; discriminate|]. apply debug_answer. exact IH. Qed.
Lemma debug_loop : forall k, dsim _ (parse_loop o true repair k) (parse_loop o false repair k).
Proof.
  induction k as [|k IH]; cbn [parse_loop]; [apply d_same|]. apply d_bind'; [apply d_same|]. intros t.
  destruct (t_kind t =? TK_EndOfFile); [apply d_same|]. destruct (isTrivia (t_kind t)).
  - apply d_bind'; [apply d_same|]. intros _. apply d_bind'; auto. intros l. apply d_same.
  - apply d_bind'.
    + destruct (isCloser (t_kind t)).
      * apply d_bind'; [apply d_same|]. intros _. apply d_bind'; [|intros; apply d_same]. apply d_bind'; [apply d_debug|]. intros; apply d_same.
      * intros s x H. apply debug_run. exact H.
    + intros _. apply d_bind'; [apply d_same|]. intros n. apply d_bind'; [apply d_same|]. intros _. apply d_bind'; auto. intros; apply d_same.
Qed.
Lemma debug_parse : forall b input x, parse_cst_raw o true repair b input = Ok x -> parse_cst_raw o false repair b input = Ok x.
Proof.
  intros b input x H. unfold parse_cst_raw in *. destruct (do_parse o true repair b (session_new o input)) as [y| |] eqn:E; try discriminate.
  assert (E2 : do_parse o false repair b (session_new o input) = Ok y).
  { unfold do_parse in *. revert E. apply d_bind'; [apply d_same|]. intros _ s z K. unfold pwith_fuel in *. apply debug_loop. exact K. }
  rewrite E2. destruct y as [l s]. cbn [andb] in *. destruct (negb _); try discriminate. exact H.
Qed.
End Debug.
