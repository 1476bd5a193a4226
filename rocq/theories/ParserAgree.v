(** Parses that agree: the same text with different options, or behind a different text. *)
From Coq Require Import ZArith List Bool Lia.
From Verif Require Import Base Source Utils Iter WLChar GenTokenKind GenPrec GenOps GenParselets LongNames ByteDecoder CharDecoder TokenKind Format Parselets Tokenizer
  Decode SpecText SpecReader SpecTokenizer TextProofs Logic WlDecode ReaderProofs TokLogic TokenizerProofs TokenLoop TokSim TokAgree TokResults
   Cst SpecCst CstProofs Parser SpecParser SpecParse ParserLogic ParserRules ParserProofs ParserResults ParserTheorems ErrorReparse SpecReparse SpecRepair ParserRepair RepairProofs SpecAgree.
Import ListNotations.
Local Open Scope Z_scope.
Local Open Scope parser_scope.

Section Agree.
Context (o1 o2 : opts) (LR : loc -> loc -> Prop).
Context (Hadv : forall c l1 l2, LR l1 l2 -> LR (adv o1 c l1) (adv o2 c l2)).
Context (dbg : bool) (repair1 repair2 : Z -> list cst -> res (list cst)).
Context (Hrep : forall op l l', Forall2 (alike (TokSim.trel LR)) l l' ->
  match repair1 op l, repair2 op l' with Ok a, Ok b => Forall2 (alike (TokSim.trel LR)) a b | _, _ => True end).
Local Notation grel := (grel o1 o2 LR).
Local Notation trel := (trel LR).
Local Notation al := (alike trel).

Definition start_of (t : token) : pos := mkpos (t_start t) false (sp_start (t_src t)).
Definition end_of (t : token) : pos := mkpos (skipn (length (t_text t)) (t_start t)) false (sp_end (t_src t)).
Definition tokr (t u : token) : Prop := trel t u /\ grel (start_of t) (start_of u) /\ grel (end_of t) (end_of u).
Definition psr (s1 s2 : pst) : Prop :=
  weof (cur (tz s1)) = false /\ weof (cur (tz s2)) = false /\ grel (cur (tz s1)) (cur (tz s2)) /\
  Forall2 al (stack s1) (stack s2) /\ ctxs s1 = ctxs s2 /\ groups s1 = groups s2.
Definition ps {A B} (V : A -> B -> Prop) (m1 : P A) (m2 : P B) : Prop :=
  forall s1 s2, psr s1 s2 -> match m1 s1, m2 s2 with Ok (a, t1), Ok (b, t2) => V a b /\ psr t1 t2 | _, _ => True end.

Lemma tokr_kind : forall t u, tokr t u -> t_kind u = t_kind t. Proof. intros t u ((H & _) & _). auto. Qed.

Lemma ps_ret : forall A B (V : A -> B -> Prop) a b, V a b -> ps V (pret a) (pret b).
Proof. intros A B V a b H s1 s2 Hr. cbn. auto. Qed.
Lemma ps_panic : forall A B (V : A -> B -> Prop) m, ps V ppanic m. Proof. intros A B V m s1 s2 _. cbn. auto. Qed.
Lemma ps_out : forall A B (V : A -> B -> Prop) m, ps V pout m. Proof. intros A B V m s1 s2 _. cbn. auto. Qed.
Lemma ps_bind : forall A B A' B' (V : A -> B -> Prop) (W : A' -> B' -> Prop) m1 m2 f1 f2,
  ps V m1 m2 -> (forall a b, V a b -> ps W (f1 a) (f2 b)) -> ps W (pbind m1 f1) (pbind m2 f2).
Proof.
  intros A B A' B' V W m1 m2 f1 f2 H K s1 s2 Hr. specialize (H _ _ Hr). unfold pbind.
  destruct (m1 s1) as [[a t1]| |]; auto. destruct (m2 s2) as [[b t2]| |].
  - destruct H as [H1 H2]. apply (K a b H1 _ _ H2).
  - destruct (f1 a t1) as [[? ?]| |]; auto.
  - destruct (f1 a t1) as [[? ?]| |]; auto.
Qed.
Lemma ps_then : forall A B A' B' (V : A -> B -> Prop) (W : A' -> B' -> Prop) m1 m2 k1 k2,
  ps V m1 m2 -> ps W k1 k2 -> ps W (pbind m1 (fun _ => k1)) (pbind m2 (fun _ => k2)).
Proof. intros A B A' B' V W m1 m2 k1 k2 H K. eapply ps_bind; eauto. Qed.
Lemma ps_lift : forall A (r : res A), ps eq (plift r) (plift r).
Proof. intros A r s1 s2 Hr. unfold plift. destruct r; auto. Qed.
Lemma ps_assert : forall b, ps eq (passert b) (passert b).
Proof. intros []; [apply ps_ret; auto|apply ps_panic]. Qed.
Lemma ps_debug : forall b, ps eq (pdebug_assert dbg b) (pdebug_assert dbg b).
Proof. intros b. unfold pdebug_assert. destruct dbg; [apply ps_assert|apply ps_ret; auto]. Qed.

(** reading tokens *)
Lemma ps_ask : forall (f1 f2 : pst -> M token) q, (forall s1 s2, psr s1 s2 -> exists q', plain_request q' /\ q q' /\ f1 s1 = ask o1 q' /\ f2 s2 = ask o2 q') ->
  ps (fun t u => tokr t u /\ exists q' s s', q q' /\ asked o1 q' s t s') (fun s => tk (f1 s) s) (fun s => tk (f2 s) s).
Proof.
  intros f1 f2 q Hf s1 s2 HR. destruct (Hf _ _ HR) as (q' & Hq & Qq & E1 & E2). rewrite E1, E2. unfold tk.
  destruct (ask o1 q' (tz s1)) as [[t z1]| |] eqn:A1; auto. destruct (ask o2 q' (tz s2)) as [[u z2]| |] eqn:A2; auto.
  destruct HR as (W1 & W2 & G & F & EC & EG).
  destruct (ask_skip_rel o1 o2 LR Hadv q' _ _ _ _ _ _ G Hq A1 A2) as (T & RR & D1 & D2).
  pose proof D1 as (C1 & _ & _ & S1 & _ & X1 & _). pose proof D2 as (C2 & _ & _ & S2 & _ & X2 & _).
  split; [split; [|eexists; eexists; eexists; eauto]|].
  - split; auto. split.
    + unfold start_of. rewrite S1, S2, X1, X2. cbn [sp_start]. destruct G as ((G1 & G2) & (T1 & _ & L1) & (T2 & _ & L2)).
      split; [split; auto|]. split; (split; [auto|split; [intros Hw; discriminate|auto]]).
    + destruct RR as ((G1 & G2) & (T1 & _ & L1) & (T2 & _ & L2)). cbn [cur] in *. split; [split; auto|]. split; (split; [auto|split; [intros Hw; discriminate|auto]]).
  - unfold psr. cbn [tz stack ctxs groups]. rewrite C1, C2. auto 8.
Qed.
Lemma ps_weak : forall A B (V W : A -> B -> Prop) m1 m2, ps V m1 m2 -> (forall a b, V a b -> W a b) -> ps W m1 m2.
Proof.
  intros A B V W m1 m2 H K s1 s2 Hr. specialize (H _ _ Hr). destruct (m1 s1) as [[a t1]| |]; auto. destruct (m2 s2) as [[b t2]| |]; auto. destruct H; auto.
Qed.
Lemma psr_inside : forall s1 s2, psr s1 s2 -> inside_group s2 = inside_group s1.
Proof. intros s1 s2 (_ & _ & _ & _ & _ & E). unfold inside_group. rewrite E. reflexivity. Qed.
Lemma psr_prec : forall s1 s2, psr s1 s2 -> top_prec s2 = top_prec s1.
Proof. intros s1 s2 (_ & _ & _ & _ & E & _). unfold top_prec. rewrite E. reflexivity. Qed.
Lemma psr_rest : forall s1 s2, psr s1 s2 -> rest (cur (tz s2)) = rest (cur (tz s1)).
Proof. intros s1 s2 (_ & _ & ((E & _) & _) & _). auto. Qed.
Lemma ps_peek_with : forall pol, p_scan pol = false -> ps tokr (ppeek_with o1 pol) (ppeek_with o2 pol).
Proof.
  intros pol Hp. eapply ps_weak; [apply (ps_ask (fun s => peek_token_with o1 (inside_group s) pol) (fun s => peek_token_with o2 (inside_group s) pol) (fun _ => True))|].
  - intros s1 s2 HR. exists (AsToken (inside_group s1) pol). split; [exact Hp|]. split; [exact I|]. rewrite (psr_inside _ _ HR). split; reflexivity.
  - intros t u (H & _). exact H.
Qed.
Lemma ps_peek : ps tokr (ppeek o1) (ppeek o2). Proof. apply ps_peek_with. reflexivity. Qed.
Lemma odd_kind : forall q t r, (q = AsTag \/ q = AsFile) -> kind_ok q t r -> t_kind t <> TK_EndOfFile.
Proof.
  intros q t r Hq [(L & _)|[(g & pol & E & _)|(K & _ & _)]].
  - intros E. rewrite E in L. vm_compute in L. discriminate.
  - destruct Hq; congruence.
  - destruct K as [K|K]; rewrite K; discriminate.
Qed.
Lemma ps_tag : ps (fun t u => tokr t u /\ t_kind t <> TK_EndOfFile) (ppeek_as_tag o1) (ppeek_as_tag o2).
Proof.
  eapply ps_weak; [apply (ps_ask (fun s => peek_token_as_tag o1) (fun s => peek_token_as_tag o2) (eq AsTag))|].
  - intros s1 s2 HR. exists AsTag. split; [exact I|]. split; [reflexivity|]. split; reflexivity.
  - intros t u (H & q' & s & s' & Eq & A). split; auto. destruct A as (_ & _ & _ & _ & _ & _ & K). eapply odd_kind; [|exact K]. auto.
Qed.
Lemma ps_file : ps (fun t u => tokr t u /\ t_kind t <> TK_EndOfFile) (ppeek_as_file o1) (ppeek_as_file o2).
Proof.
  eapply ps_weak; [apply (ps_ask (fun s => peek_token_as_file o1) (fun s => peek_token_as_file o2) (eq AsFile))|].
  - intros s1 s2 HR. exists AsFile. split; [exact I|]. split; [reflexivity|]. split; reflexivity.
  - intros t u (H & q' & s & s' & Eq & A). split; auto. destruct A as (_ & _ & _ & _ & _ & _ & K). eapply odd_kind; [|exact K]. auto.
Qed.
Lemma ps_skip : forall t u, tokr t u -> t_kind t <> TK_EndOfFile -> ps eq (pskip t) (pskip u).
Proof.
  intros t u H N s1 s2 (W1 & W2 & G & F & EC & EG). unfold pskip, tk, skip. pose proof (tokr_kind _ _ H) as EK. rewrite EK.
  rewrite (proj2 (Z.eqb_neq _ _) N). split; auto. unfold psr. cbn [tz stack ctxs groups cur weof]. split; auto. split; auto. split; auto. apply H.
Qed.
Lemma ps_reset : forall t u, tokr t u -> ps eq (preset t) (preset u).
Proof.
  intros t u H s1 s2 (W1 & W2 & G & F & EC & EG). unfold preset, tk, reset, seek_loc. rewrite W1, W2. split; auto.
  unfold psr. cbn [tz stack ctxs groups cur weof]. split; auto. split; auto. split; auto. apply H.
Qed.

Definition loopr (a : list token * token) (b : list token * token) : Prop := Forall2 tokr (fst a) (fst b) /\ tokr (snd a) (snd b).
Definition loopn (a : list token * token) (b : list token * token) : Prop := loopr a b /\ t_kind (snd a) <> TK_EndOfFile.
Lemma ps_loop : forall (Q : token -> Prop) g1 g2, ps (fun t u => tokr t u /\ Q t) g1 g2 -> forall f, f TK_EndOfFile = false ->
  forall k, ps (fun a b => loopr a b /\ Q (snd a)) (trivia_loop k g1 f) (trivia_loop k g2 f).
Proof.
  intros Q g1 g2 Hg f Hf. induction k as [|k IH]; cbn [trivia_loop]; [apply ps_out|]. eapply ps_bind; [exact Hg|]. intros t u (T & HQ). rewrite (tokr_kind _ _ T).
  destruct (f (t_kind t)) eqn:E; [|apply ps_ret; split; [split; [constructor|exact T]|exact HQ]]. eapply ps_then; [apply ps_skip; auto; intros K; rewrite K in E; congruence|].
  eapply ps_bind; [exact IH|]. intros [l v] [l' v'] ((L1 & L2) & HQ'). apply ps_ret. cbn [fst snd] in *. split; [split; cbn [fst snd]; [constructor; auto|exact L2]|exact HQ'].
Qed.
Lemma ps_fuel : forall A B (V : A -> B -> Prop) (f1 : nat -> P A) (f2 : nat -> P B), (forall k, ps V (f1 k) (f2 k)) -> ps V (pwith_fuel f1) (pwith_fuel f2).
Proof. intros A B V f1 f2 H s1 s2 HR. unfold pwith_fuel. rewrite (psr_rest _ _ HR). apply H. exact HR. Qed.
Lemma ps_peek' : ps (fun t u => tokr t u /\ True) (ppeek o1) (ppeek o2).
Proof. eapply ps_weak; [apply ps_peek|auto]. Qed.
Lemma ps_current : ps loopr (current_token o1 dbg) (current_token o2 dbg).
Proof.
  eapply ps_bind; [apply ps_fuel; intros k; apply (ps_loop (fun _ => True) _ _ ps_peek'); reflexivity|]. intros [l t] [l' t'] ((L1 & L2) & _). cbn [fst snd] in *. rewrite (tokr_kind _ _ L2).
  eapply ps_then; [apply ps_debug|]. apply ps_ret. split; auto.
Qed.
Lemma ps_current_nn : ps loopr (current_token_not_newline o1) (current_token_not_newline o2).
Proof. eapply ps_weak; [apply ps_fuel; intros k; apply (ps_loop (fun _ => True) _ _ ps_peek'); reflexivity|]. intros a b (L & _). auto. Qed.
Lemma ps_trivia_reset : forall l l', Forall2 tokr l l' -> ps eq (trivia_reset l) (trivia_reset l').
Proof. intros l l' F. destruct F; [apply ps_ret; auto|apply ps_reset; auto]. Qed.

(** the node stack *)
Lemma ps_push_node : forall n n', al n n' -> ps eq (push_node n) (push_node n').
Proof.
  intros n n' H s1 s2 (W1 & W2 & G & F & EC & EG). unfold push_node. split; auto. unfold psr. cbn [tz stack ctxs groups]. repeat split; auto; try apply G.
  apply Forall2_app; auto.
Qed.
Lemma ps_push_trivia : forall l l', Forall2 tokr l l' -> ps eq (push_trivia l) (push_trivia l').
Proof.
  intros l l' H s1 s2 (W1 & W2 & G & F & EC & EG). unfold push_trivia. split; auto. unfold psr. cbn [tz stack ctxs groups]. repeat split; auto; try apply G.
  apply Forall2_app; auto. clear - H. induction H; cbn; constructor; auto. constructor. apply H.
Qed.
Lemma ps_push_leaf' : forall t u, trel t u -> ps eq (push_leaf dbg t) (push_leaf dbg u).
Proof. intros t u H. unfold push_leaf. assert (E : t_kind u = t_kind t) by (symmetry; apply H). rewrite E. eapply ps_then; [apply ps_debug|]. apply ps_push_node. constructor. exact H. Qed.
Lemma ps_push_leaf : forall t u, tokr t u -> ps eq (push_leaf dbg t) (push_leaf dbg u).
Proof. intros t u H. apply ps_push_leaf'. apply H. Qed.
Lemma ps_push_syntax : forall t u, tokr t u -> ps eq (push_syntax dbg t) (push_syntax dbg u).
Proof. exact ps_push_leaf. Qed.
Lemma ps_push_next : forall t u, tokr t u -> t_kind t <> TK_EndOfFile -> ps eq (push_leaf_and_next dbg t) (push_leaf_and_next dbg u).
Proof. intros t u H N. eapply ps_then; [apply ps_push_leaf; auto|]. apply ps_skip; auto. Qed.
Lemma ps_syntax_next : forall t u, tokr t u -> t_kind t <> TK_EndOfFile -> ps eq (push_syntax_and_next dbg t) (push_syntax_and_next dbg u).
Proof. exact ps_push_next. Qed.
Lemma ps_commit : forall l l' t u, Forall2 tokr l l' -> tokr t u -> t_kind t <> TK_EndOfFile -> ps eq (commit_syntax_and_next dbg l t) (commit_syntax_and_next dbg l' u).
Proof. intros l l' t u F H N. eapply ps_then; [apply ps_push_trivia; auto|]. apply ps_push_next; auto. Qed.
Lemma ps_eat : ps tokr (eat_trivia o1 dbg) (eat_trivia o2 dbg).
Proof. eapply ps_bind; [apply ps_current|]. intros [l t] [l' t'] (L1 & L2). eapply ps_then; [apply ps_push_trivia; auto|]. apply ps_ret. auto. Qed.
Lemma ps_eat_nn : ps tokr (eat_trivia_not_newline o1) (eat_trivia_not_newline o2).
Proof. eapply ps_bind; [apply ps_current_nn|]. intros [l t] [l' t'] (L1 & L2). eapply ps_then; [apply ps_push_trivia; auto|]. apply ps_ret. auto. Qed.
Lemma ps_eat_file : ps (fun t u => tokr t u /\ t_kind t <> TK_EndOfFile) (eat_trivia_as_file o1 dbg) (eat_trivia_as_file o2 dbg).
Proof.
  eapply ps_bind; [apply ps_fuel; intros k; apply (ps_loop (fun t => t_kind t <> TK_EndOfFile) _ _ ps_file); reflexivity|]. intros [l t] [l' t'] ((L1 & L2) & N). cbn [fst snd] in *.
  rewrite (tokr_kind _ _ L2). eapply ps_then; [apply ps_debug|]. eapply ps_then; [apply ps_push_trivia; auto|]. apply ps_ret. auto.
Qed.

(** contexts and groups *)
Lemma F2_len : forall A B (R : A -> B -> Prop) l l', Forall2 R l l' -> length l' = length l.
Proof. intros A B R l l' F. induction F; cbn; auto. Qed.
Lemma F2_skipn : forall A B (R : A -> B -> Prop) k l l', Forall2 R l l' -> Forall2 R (skipn k l) (skipn k l') /\ Forall2 R (firstn k l) (firstn k l').
Proof. intros A B R k l l' F. revert k. induction F as [|a b l l' H F IH]; intros [|k]; cbn; repeat split; auto; destruct (IH k); auto. Qed.
Lemma F2_rev : forall A B (R : A -> B -> Prop) l l', Forall2 R l l' -> Forall2 R (rev l) (rev l').
Proof. intros A B R l l' F. induction F; cbn; auto. apply Forall2_app; auto. Qed.

Ltac open := intros s1 s2 (W1 & W2 & G & F & EC & EG); destruct s1 as [z1 x1 c1 g1], s2 as [z2 x2 c2 g2]; cbn [tz stack ctxs groups] in *; subst c2 g2.
Ltac shut := split; [try reflexivity|]; unfold psr; cbn [tz stack ctxs groups]; split; [assumption|]; split; [assumption|]; split; [assumption|]; split; [|split; reflexivity].

Lemma ps_push_context : forall p, ps eq (push_context p) (push_context p).
Proof. intros p. open. unfold push_context. cbn [tz stack ctxs groups]. destruct F; auto. cbn [length]. rewrite (F2_len _ _ _ _ _ F). shut. constructor; auto. Qed.
Lemma ps_set_prec : forall p, ps eq (set_prec p) (set_prec p).
Proof. intros p. open. unfold set_prec. cbn [tz stack ctxs groups]. destruct c1; auto. shut. auto. Qed.
Lemma ps_push_group : forall p, ps eq (push_group p) (push_group p).
Proof. intros p. open. unfold push_group. cbn [tz stack ctxs groups]. shut. auto. Qed.
Lemma ps_op : forall (f : list cst -> cst), (forall l l', Forall2 al l l' -> al (f l) (f l')) ->
  ps eq (ch <- reduce ;; passert (negb (Nat.eqb (length ch) 0)) ;; push_node (f ch)) (ch <- reduce ;; passert (negb (Nat.eqb (length ch) 0)) ;; push_node (f ch)).
Proof.
  intros f Hf. open. unfold reduce, pop_context, pbind. cbn [ctxs stack tz groups]. destruct c1 as [|c0 c1]; auto. cbn [stack tz ctxs groups].
  rewrite (F2_len _ _ _ _ _ F). destruct (length x1 <? c_start c0)%nat; auto. destruct (F2_skipn _ _ _ (c_start c0) _ _ F) as (F1 & F2).
  rewrite (F2_len _ _ _ _ _ F1). destruct (negb (Nat.eqb (length (skipn (c_start c0) x1)) 0)); [|exact I]. unfold passert, pret, push_node. cbn [stack tz ctxs groups].
  shut. apply Forall2_app; auto.
Qed.
Lemma ps_reduce_op : forall k op, ps eq (reduce_op k op) (reduce_op k op).
Proof. intros k op. apply (ps_op (Op k op)). intros; constructor; auto. Qed.
Lemma ps_reduce_error : forall e, ps eq (reduce_syntax_error e) (reduce_syntax_error e).
Proof. intros e. apply (ps_op (SynErr e)). intros; constructor; auto. Qed.
Lemma ps_reduce_group : forall k op, ps eq (reduce_group_as k op) (reduce_group_as k op).
Proof.
  intros k op. open. unfold reduce_group_as, pop_context, pop_group, pbind. cbn [ctxs stack tz groups]. destruct c1 as [|c0 c1]; auto. cbn [stack tz ctxs groups].
  destruct g1 as [|g0 g1]; auto. cbn [stack tz ctxs groups].
  rewrite (F2_len _ _ _ _ _ F). destruct (length x1 <? c_start c0)%nat; auto. destruct (F2_skipn _ _ _ (c_start c0) _ _ F) as (F1 & F2).
  rewrite (F2_len _ _ _ _ _ F1). destruct (negb (Nat.eqb (length (skipn (c_start c0) x1)) 0)); [|exact I]. unfold passert, pret, push_node. cbn [stack tz ctxs groups].
  shut. apply Forall2_app; auto. constructor; auto. constructor; auto.
Qed.
Lemma ps_reduce_unterminated : forall op, ps eq (reduce_unterminated_group repair1 op) (reduce_unterminated_group repair2 op).
Proof.
  intros op. open. unfold reduce_unterminated_group, pop_context, pop_group, pbind. cbn [ctxs stack tz groups]. destruct c1 as [|c0 c1]; auto. cbn [stack tz ctxs groups].
  destruct g1 as [|g0 g1]; auto. cbn [stack tz ctxs groups].
  rewrite (F2_len _ _ _ _ _ F). destruct (length x1 <? c_start c0)%nat; auto. destruct (F2_skipn _ _ _ (c_start c0) _ _ F) as (F1 & F2).
  pose proof (Hrep op _ _ F1) as HR. unfold plift. destruct (repair1 op (skipn (c_start c0) x1)); auto. destruct (repair2 op (skipn (c_start c0) x2)); auto. unfold push_node. cbn [stack tz ctxs groups].
  shut. apply Forall2_app; auto. constructor; auto. constructor; auto.
Qed.
Lemma ps_reduce_call : ps eq reduce_call reduce_call.
Proof.
  open. unfold reduce_call, pop_context, pop_node, pbind. cbn [ctxs stack tz groups]. destruct c1 as [|c0 c1]; auto. cbn [stack tz ctxs groups].
  pose proof (F2_rev _ _ _ _ _ F) as FR. destruct FR as [|b b' r r' Hb FR]; auto. cbn [stack tz ctxs groups]. apply F2_rev in FR.
  rewrite (F2_len _ _ _ _ _ FR). destruct (length (rev r) <? c_start c0)%nat; auto. destruct (F2_skipn _ _ _ (c_start c0) _ _ FR) as (F1 & F2).
  destruct Hb as [t u Ht|k op ch ch' Hc|e ch ch' Hc|l l' m op ch ch' Hl Hc]; try exact I.
  destruct k; try exact I; unfold plift; destruct (try_to_call_operator op); try exact I; unfold push_node; cbn [stack tz ctxs groups];
    shut; apply Forall2_app; auto; constructor; auto; constructor; auto.
Qed.

Lemma trivia_al : forall n n', al n n' -> is_trivia_node n' = is_trivia_node n.
Proof. intros n n' H. destruct H as [t u H| | |]; try reflexivity. cbn. replace (t_kind u) with (t_kind t); auto. apply H. Qed.
Lemma top_al : forall s1 s2, psr s1 s2 ->
  match top_node s1 with Some n => exists n', top_node s2 = Some n' /\ al n n' | None => top_node s2 = None end.
Proof.
  intros s1 s2 (_ & _ & _ & F & _). unfold top_node. apply F2_rev in F. induction F as [|a b l l' H F IH]; cbn [find]; auto.
  rewrite (trivia_al _ _ H). destruct (is_trivia_node a); cbn [negb]; eauto.
Qed.
Lemma ps_colon : ps eq check_colon_lhs check_colon_lhs.
Proof.
  intros s1 s2 HR. unfold check_colon_lhs. pose proof (top_al _ _ HR) as T. destruct (top_node s1) as [n|]; auto. destruct T as (n' & -> & Hn).
  destruct Hn as [t u Ht|k op ch ch' Hc|e ch ch' Hc|l l' m op ch ch' Hl Hc]; auto.
  - assert (E : t_kind u = t_kind t) by (symmetry; apply Ht). cbv zeta. rewrite E.
    destruct (t_kind t =? TK_Symbol); auto. destruct (zin (t_kind t) _); auto. destruct (t_kind t =? TK_Colon); auto.
  - destruct k; auto.
Qed.
Lemma ps_is_span : ps eq top_node_is_span top_node_is_span.
Proof.
  intros s1 s2 HR. unfold top_node_is_span. pose proof (top_al _ _ HR) as T. destruct (top_node s1) as [n|]; auto. destruct T as (n' & -> & Hn).
  destruct Hn as [t u Ht|k op ch ch' Hc|e ch ch' Hc|l l' m op ch ch' Hl Hc]; auto. destruct k; auto.
Qed.
Lemma ps_get_precedence : forall p, ps eq (get_precedence p) (get_precedence p).
Proof.
  intros p s1 s2 HR. unfold get_precedence. rewrite (psr_prec _ _ HR). assert (E : ctxs s2 = ctxs s1) by (symmetry; apply HR). rewrite E. destruct p; auto.
Qed.
Lemma tokr_at_start : forall k t u, len_zero k = true -> tokr t u -> tokr (tok_at_start k t) (tok_at_start k u).
Proof.
  intros k t u Hk ((K1 & K2 & K3 & (K4 & K5)) & G1 & G2). unfold tok_at_start, tok_at, tokr, start_of, end_of, TokSim.trel, srel. rewrite Hk. cbn [t_kind t_start t_text t_src sp_start sp_end length skipn].
  repeat split; auto; apply G1.
Qed.
Lemma trel_at : forall k t u, tokr t u -> trel (tok_at k t) (tok_at k u).
Proof. intros k t u ((K1 & K2 & K3 & K4) & _). unfold tok_at, TokSim.trel. cbn [t_kind t_start t_text t_src]. rewrite K3. auto. Qed.
Lemma ps_implicit : forall t u, tokr t u -> ps tokr (process_implicit_times t) (process_implicit_times u).
Proof.
  intros t u H s1 s2 HR. unfold process_implicit_times. rewrite (tokr_kind _ _ H). pose proof (tokr_at_start TK_Fake_ImplicitTimes t u eq_refl H) as H'.
  destruct (infix_of (t_kind t)); auto.
  - rewrite (psr_prec _ _ HR). destruct (top_prec s1 =? _); auto.
  - revert s1 s2 HR. change (ps tokr (b <- top_node_is_span ;; pret (if b then tok_at_start TK_Fake_ImplicitTimes t else t))
      (b <- top_node_is_span ;; pret (if b then tok_at_start TK_Fake_ImplicitTimes u else u))).
    eapply ps_bind; [apply ps_is_span|]. intros b b' <-. apply ps_ret. destruct b; auto.
Qed.

(** calls *)
Definition cr (c1 c2 : call) : Prop :=
  match c1, c2 with
  | CPrefix t, CPrefix u | CInfix t, CInfix u => tokr t u
  | CGroupLoop op c, CGroupLoop op' c' => op' = op /\ c' = c /\ c <> TokenToCloser TK_EndOfFile
  | CInfixLoop op, CInfixLoop op' => op' = op /\ op <> IOP_CodeParser_InternalInvalid
  | CClimb, CClimb | CTimesLoop, CTimesLoop | CCommaLoop, CCommaLoop | CSemiLoop, CSemiLoop | CColonColonLoop, CColonColonLoop => True
  | _, _ => False
  end.
Variables rec1 rec2 : call -> P unit.
Hypothesis Hrec : forall c1 c2, cr c1 c2 -> ps eq (rec1 c1) (rec2 c2).

Lemma ps_assert_on : forall b, ps (fun _ _ => b = true) (passert b) (passert b).
Proof. intros []; [apply ps_ret; auto|apply ps_panic]. Qed.
Lemma ps_lift_on : forall A (r : res A), ps (fun a b => r = Ok a /\ b = a) (plift r) (plift r).
Proof. intros A r s1 s2 Hr. unfold plift. destruct r; auto. Qed.
Lemma ps_if_prec : forall A B (V : A -> B -> Prop) prec a a' b b', ps V a a' -> ps V b b' ->
  ps V (fun s => (if prec_greater (top_prec s) prec then a else b) s) (fun s => (if prec_greater (top_prec s) prec then a' else b') s).
Proof. intros A B V prec a a' b b' Ha Hb s1 s2 HR. rewrite (psr_prec _ _ HR). destruct (prec_greater (top_prec s1) prec); [apply Ha|apply Hb]; exact HR. Qed.
Lemma ps_if_group : forall A B (V : A -> B -> Prop) c a a' b b', ps V a a' -> ps V b b' ->
  ps V (fun s => (if check_group c s then a else b) s) (fun s => (if check_group c s then a' else b') s).
Proof.
  intros A B V c a a' b b' Ha Hb s1 s2 HR. unfold check_group. assert (E : groups s2 = groups s1) by (symmetry; apply HR). rewrite E.
  destruct (existsb (Z.eqb c) (groups s1)); [apply Ha|apply Hb]; exact HR.
Qed.
Lemma ps_by_prec : forall A B (V : A -> B -> Prop) p0 (f : bool -> P A) (f' : bool -> P B), (forall b, ps V (f b) (f' b)) ->
  ps V (fun s => f (top_prec s =? p0) s) (fun s => f' (top_prec s =? p0) s).
Proof. intros A B V p0 f f' Hf s1 s2 HR. rewrite (psr_prec _ _ HR). apply Hf. exact HR. Qed.

Ltac kinds := repeat match goal with H : tokr ?t ?u |- context [t_kind ?u] => lazymatch u with t => fail | _ => rewrite (tokr_kind _ _ H) end end.
Ltac live := match goal with |- t_kind ?t <> TK_EndOfFile => let K := fresh "K" in
  intros K; match goal with
  | E : t_kind t <> TK_EndOfFile |- _ => exact (E K)
  | E : context [t_kind t] |- _ => lazymatch E with K => fail | _ => rewrite K in E; vm_compute in E; discriminate E end end end.
Ltac fine := first [assumption | live | reflexivity | (cbn; repeat split; (assumption || reflexivity)) | (constructor; assumption)].
Ltac val := cbv beta; match goal with
  | |- forall a b, a = b -> _ => intros ? ? <-
  | |- forall a b, tokr a b -> _ => let H := fresh "H" in intros ? ? H; kinds
  | |- forall a b, tokr a b /\ _ -> _ => let H := fresh "H" in intros ? ? (H & ?); kinds
  | |- forall a b, loopr a b -> _ => let H := fresh "H" in let H' := fresh "H" in intros [? ?] [? ?] (H & H'); cbn [fst snd] in H, H'; kinds
  | |- _ => intros
  end.
Ltac prim := first [apply ps_current | apply ps_current_nn | apply ps_eat | apply ps_eat_nn | apply ps_eat_file | apply ps_tag | apply ps_peek | apply ps_peek_with; reflexivity
  | apply ps_trivia_reset; fine | apply ps_push_leaf; first [fine|apply tokr_at_start; [reflexivity|fine]] | apply ps_push_leaf'; apply trel_at; fine
  | apply ps_push_next; fine | apply ps_push_syntax; fine | apply ps_syntax_next; fine
  | apply ps_push_trivia; fine | apply ps_commit; fine | apply ps_push_context | apply ps_set_prec | apply ps_push_group | apply ps_reduce_op | apply ps_reduce_error | apply ps_reduce_group
  | apply ps_reduce_unterminated | apply ps_reduce_call | apply ps_colon | apply ps_is_span | apply ps_get_precedence | apply ps_implicit; fine | apply ps_skip; fine | apply ps_reset; fine
  | apply ps_assert_on | apply ps_debug | apply ps_lift_on | apply ps_ret; fine | apply ps_panic].
Ltac stepw :=
  match goal with
  | |- ps _ (pbind _ _) _ => first [eapply ps_bind; [first [prim | apply Hrec; fine]|val] | eapply (ps_bind unit unit _ _ eq); [|intros ? ? _] ]
  | |- ps _ (rec1 _) _ => apply Hrec; fine
  | |- ps _ (fun s => (if prec_greater (top_prec s) _ then _ else _) s) _ => apply ps_if_prec
  | |- ps _ (fun s => (if check_group _ s then _ else _) s) _ => apply ps_if_group
  | |- ps _ (if ?c then _ else _) _ => let E := fresh "E" in destruct c eqn:E
  | |- ps _ (match ?a with ColonPattern => _ | _ => _ end) _ => destruct a
  | |- ps _ (let (_, _) := ?a in _) _ => destruct a as [? ?]
  | |- _ => prim
  end.
Ltac walk := repeat stepw.

Lemma ps_push_and_climb : forall t u, tokr t u -> ps eq (push_and_climb dbg rec1 t) (push_and_climb dbg rec2 u).
Proof. intros t u H. unfold push_and_climb. walk. Qed.
Lemma ps_top_closer : forall t u, tokr t u -> ps eq (prefix_toplevel_closer dbg t) (prefix_toplevel_closer dbg u).
Proof. intros t u H. unfold prefix_toplevel_closer. kinds. walk. Qed.
Lemma ps_climb : ps eq (climb o1 rec1) (climb o2 rec2).
Proof. unfold climb. walk. Qed.
Lemma ps_under : forall bop t u, tokr t u -> t_kind t <> TK_EndOfFile -> ps al (get_under o1 bop t) (get_under o2 bop u).
Proof.
  intros bop t u H N. unfold get_under. walk; apply ps_ret; repeat constructor; try apply H; try apply H0.
Qed.
Lemma ps_pattern : forall bop pbop t t' u u', tokr t t' -> tokr u u' -> t_kind u <> TK_EndOfFile ->
  ps eq (pattern_blank o1 dbg rec1 bop pbop t u) (pattern_blank o2 dbg rec2 bop pbop t' u').
Proof.
  intros bop pbop t t' u u' H H' N. unfold pattern_blank. eapply ps_bind; [apply ps_under; assumption|]. intros n n' Hn. kinds.
  eapply ps_bind; [apply ps_debug|]. intros ? ? _. eapply ps_bind; [|intros; apply Hrec; exact I]. apply ps_push_node. constructor. constructor; [constructor; apply H|]. constructor; auto.
Qed.

Ltac nodes := apply ps_push_node; repeat (constructor; try match goal with H : tokr ?a ?b |- TokSim.trel _ ?a ?b => apply H end).
Lemma closer_live : forall k c, GroupOpenerToCloser k = Ok c -> c <> TokenToCloser TK_EndOfFile.
Proof.
  intros k c H. unfold GroupOpenerToCloser, switch in H. change (TokenToCloser TK_EndOfFile) with Closer_AssertFalse.
  repeat (destruct (k =? _); [injection H as <-; discriminate|]). discriminate.
Qed.
Lemma ps_group_prefix : forall opener op t u, tokr t u -> t_kind t <> TK_EndOfFile -> ps eq (prefix_group dbg rec1 opener op t) (prefix_group dbg rec2 opener op u).
Proof.
  intros opener op t u H N. unfold prefix_group. kinds. eapply ps_bind; [apply ps_lift_on|]. intros c ? (Hc & ->). eapply ps_bind; [apply ps_lift_on|]. intros c' ? (_ & ->).
  walk. apply Hrec. cbn. split; [reflexivity|]. split; [reflexivity|]. eapply closer_live; eauto.
Qed.
Lemma ps_slot : forall pol args op t u, p_scan pol = false -> zin TK_EndOfFile args = false -> tokr t u -> t_kind t <> TK_EndOfFile ->
  ps eq (prefix_slot o1 dbg rec1 pol args op t) (prefix_slot o2 dbg rec2 pol args op u).
Proof.
  intros pol args op t u Hp Ha H N. unfold prefix_slot. eapply ps_then; [apply ps_skip; auto|]. eapply ps_bind; [apply ps_peek_with; exact Hp|]. intros v w Hv. kinds.
  destruct (zin (t_kind v) args) eqn:E; [|apply ps_push_and_climb; assumption]. eapply ps_then; [apply ps_skip; auto; intros K; rewrite K in E; congruence|].
  eapply ps_then; [apply ps_debug|]. eapply ps_then; [nodes|]. apply Hrec. exact I.
Qed.
Lemma ps_span_binary : ps eq (span_binary rec1) (span_binary rec2). Proof. unfold span_binary. walk. Qed.
Lemma ps_span_ternary : ps eq (span_ternary rec1) (span_ternary rec2). Proof. unfold span_ternary. walk. Qed.
Lemma ps_span2 : ps eq (span_parse2 o1 dbg rec1) (span_parse2 o2 dbg rec2).
Proof. unfold span_parse2. walk; auto using ps_span_binary, ps_span_ternary. Qed.
Lemma ps_span1 : ps eq (span_parse1 o1 dbg rec1) (span_parse1 o2 dbg rec2).
Proof. unfold span_parse1. walk; auto using ps_span_binary, ps_span_ternary, ps_span2. Qed.
Lemma ps_infix_span : forall t u, tokr t u -> t_kind t <> TK_EndOfFile -> ps eq (infix_span o1 dbg rec1 t) (infix_span o2 dbg rec2 u).
Proof. intros t u H N. unfold infix_span. walk. apply ps_span1. Qed.
Lemma ps_comma_operand : ps eq (comma_operand o1 dbg rec1) (comma_operand o2 dbg rec2).
Proof. unfold comma_operand. walk. Qed.
Lemma ps_semi_operand : ps eq (semi_operand o1 dbg rec1) (semi_operand o2 dbg rec2).
Proof. unfold semi_operand, reduce_compound. walk. Qed.

Lemma ps_parse_prefix : forall t u, tokr t u -> ps eq (parse_prefix o1 dbg rec1 t) (parse_prefix o2 dbg rec2 u).
Proof.
  intros t u H. unfold parse_prefix. kinds. destruct (prefix_of (t_kind t)) eqn:EP.
  all: try (assert (N : t_kind t <> TK_EndOfFile) by (intros K; rewrite K in EP; vm_compute in EP; discriminate)).
  - walk.
  - unfold prefix_end_of_file. apply (ps_by_prec _ _ eq PREC_COMMA (fun b => push_leaf dbg (tok_at_start (if b then _ else _) t)) (fun b => push_leaf dbg (tok_at_start (if b then _ else _) u))).
    intros []; walk.
  - walk.
  - unfold prefix_closer. kinds. walk. apply (ps_by_prec _ _ eq PREC_COMMA (fun b => push_leaf dbg (tok_at_start (if b then _ else _) t) ;; ppeek o1 ;; pret tt)
      (fun b => push_leaf dbg (tok_at_start (if b then _ else _) u) ;; ppeek o2 ;; pret tt)). intros []; walk.
  - unfold prefix_unsupported. walk.
  - unfold prefix_comma. apply (ps_by_prec _ _ eq 0 (fun b => push_leaf dbg (tok_at_start (if b then _ else _) t) ;; rec1 CClimb)
      (fun b => push_leaf dbg (tok_at_start (if b then _ else _) u) ;; rec2 CClimb)). intros []; walk.
  - unfold prefix_unhandled. kinds. walk.
  - unfold prefix_operator. walk.
  - apply ps_group_prefix; assumption.
  - unfold prefix_symbol. walk; kinds; try (apply ps_pattern; first [assumption|live]); try (apply ps_push_and_climb; assumption); nodes.
  - unfold prefix_span. kinds. walk. apply ps_infix_span; assumption.
  - unfold prefix_integral. walk.
  - unfold prefix_less_less. walk.
  - apply ps_slot; auto.
  - apply ps_slot; auto.
  - apply ps_slot; auto.
  - unfold prefix_under. eapply ps_bind; [apply ps_under; assumption|]. intros n n' Hn. eapply ps_then; [apply ps_push_node; exact Hn|]. apply Hrec. exact I.
  - walk.
Qed.

Lemma op_live : forall k p op, infix_of k = IP_InfixOperator p op -> op <> IOP_CodeParser_InternalInvalid.
Proof.
  assert (A : forallb (fun kp => match snd kp with IP_InfixOperator _ op => negb (op =? IOP_CodeParser_InternalInvalid) | _ => true end) INFIX_PARSELETS = true) by (vm_compute; reflexivity).
  intros k p op H. unfold infix_of in H. revert A H. generalize INFIX_PARSELETS as l. induction l as [|[k' v] l IH]; intros A H; [discriminate|].
  cbn [forallb snd] in A. apply andb_true_iff in A as [A1 A2]. cbn [assoc] in H. destruct (k =? k'); [|exact (IH A2 H)]. subst v. rewrite negb_true_iff, Z.eqb_neq in A1. exact A1.
Qed.
Lemma ps_parse_infix : forall t u, tokr t u -> ps eq (parse_infix o1 dbg rec1 t) (parse_infix o2 dbg rec2 u).
Proof.
  intros t u H. unfold parse_infix. kinds. destruct (infix_of (t_kind t)) eqn:EP; try apply ps_panic.
  all: assert (N : t_kind t <> TK_EndOfFile) by (intros K; rewrite K in EP; vm_compute in EP; discriminate).
  - unfold infix_binary. walk.
  - unfold infix_infix. walk. apply Hrec. cbn. split; [reflexivity|]. eapply op_live; eauto.
  - unfold infix_times. walk.
  - unfold infix_postfix. walk.
  - unfold infix_call. eapply ps_then; [apply ps_set_prec|]. eapply ps_then; [apply ps_group_prefix; assumption|]. walk.
  - unfold infix_comma. kinds. walk. apply ps_comma_operand.
  - unfold infix_semi. walk. apply ps_semi_operand.
  - apply ps_infix_span; assumption.
  - unfold infix_tilde. kinds. walk.
  - unfold infix_colon. walk.
  - unfold infix_slash_colon. walk.
  - unfold infix_equal. walk.
  - unfold infix_binary. walk.
  - unfold infix_colon_colon. walk.
  - unfold infix_file. walk.
  - unfold infix_file. walk.
Qed.

Lemma ps_times_loop : ps eq (times_loop o1 dbg rec1) (times_loop o2 dbg rec2).
Proof.
  unfold times_loop. stepw. stepw. eapply (ps_bind _ _ _ _ loopr).
  - walk; apply ps_ret; split; assumption.
  - intros [x1 y1] [x2 y2] (L1 & L2). cbn [fst snd] in *. kinds. walk.
Qed.

Lemma ps_answer : forall c1 c2, cr c1 c2 -> ps eq (answer o1 dbg repair1 rec1 c1) (answer o2 dbg repair2 rec2 c2).
Proof.
  intros [t|t| |op c|op| | | |] [u|u| |op' c'|op'| | | |] H; cbn [cr] in H; try contradiction; cbn [answer].
  - apply ps_parse_prefix; exact H.
  - apply ps_parse_infix; exact H.
  - apply ps_climb.
  - destruct H as (-> & -> & N). unfold group_loop, reduce_group, reduce_group_missing_closer. stepw.
    destruct (TokenToCloser (t_kind t) =? c) eqn:E.
    + eapply ps_then; [apply ps_commit; try assumption; intros K; rewrite K in E; apply Z.eqb_eq in E; congruence|]. walk.
    + walk; try (apply ps_top_closer; assumption).
  - destruct H as (-> & N). unfold infix_loop. stepw. destruct (negb (is_infix_op op (infix_of (t_kind t)))) eqn:E; [walk|].
    eapply ps_then; [apply ps_commit; try assumption; intros K; rewrite K in E|walk]. apply negb_false_iff in E. change (IOP_CodeParser_InternalInvalid =? op = true) in E. apply Z.eqb_eq in E. congruence.
  - apply ps_times_loop.
  - unfold comma_loop. walk. apply ps_comma_operand.
  - unfold semi_loop, reduce_compound. walk. apply ps_semi_operand.
  - unfold colon_colon_loop. walk.
Qed.
End Agree.

Section Whole.
Context (o1 o2 : opts) (LR : loc -> loc -> Prop).
Context (Hadv : forall c l1 l2, LR l1 l2 -> LR (adv o1 c l1) (adv o2 c l2)).
Context (dbg : bool) (repair1 repair2 : Z -> list cst -> res (list cst)).
Context (Hrep : forall op l l', Forall2 (alike (trel LR)) l l' ->
  match repair1 op l, repair2 op l' with Ok a, Ok b => Forall2 (alike (trel LR)) a b | _, _ => True end).
Local Notation ps := (ps o1 o2 LR).
Local Notation al := (alike (trel LR)).

Lemma ps_run : forall k c1 c2, cr o1 o2 LR c1 c2 -> ps eq (run o1 dbg repair1 k c1) (run o2 dbg repair2 k c2).
Proof. induction k as [|k IH]; intros c1 c2 H; cbn [run]; [apply ps_out|]. apply ps_answer; auto. Qed.
Lemma ps_pop_node : ps al pop_node pop_node.
Proof.
  intros s1 s2 (W1 & W2 & G & F & EC & EG). unfold pop_node. pose proof (F2_rev _ _ _ _ _ F) as FR. destruct FR as [|b b' r r' Hb FR]; auto. apply F2_rev in FR.
  split; auto. unfold psr. cbn [tz stack ctxs groups]. auto 8.
Qed.
Lemma ps_quiescent : ps eq assert_quiescent assert_quiescent.
Proof.
  intros s1 s2 HR. unfold assert_quiescent. pose proof HR as (_ & _ & _ & _ & EC & EG). rewrite EC, EG. destruct (ctxs s2); auto. destruct (groups s2); auto.
Qed.
Lemma ps_parse_loop : forall k k', ps (Forall2 al) (parse_loop o1 dbg repair1 k) (parse_loop o2 dbg repair2 k').
Proof.
  induction k as [|k IH]; intros k'; cbn [parse_loop]; [apply ps_out|]. destruct k' as [|k']; cbn [parse_loop].
  { intros s1 s2 _. unfold pout. match goal with |- match ?x with _ => _ end => destruct x as [[? ?]| |] end; auto. }
  eapply ps_bind; [apply ps_peek; exact Hadv|]. intros t u H. rewrite (tokr_kind _ _ _ _ _ H).
  destruct (t_kind t =? TK_EndOfFile) eqn:E; [apply ps_ret; constructor|]. apply Z.eqb_neq in E. destruct (isTrivia (t_kind t)).
  - eapply ps_then; [apply ps_skip; assumption|]. eapply ps_bind; [exact (IH k')|]. intros l l' Hl. apply ps_ret. constructor; auto. constructor. apply H.
  - eapply (ps_then _ _ _ unit unit _ _ eq).
    + destruct (isCloser (t_kind t)); [apply ps_top_closer; exact H|]. intros s1 s2 HR. unfold depth_bound. rewrite (psr_rest _ _ _ _ _ HR). apply ps_run; auto.
    + eapply ps_bind; [apply ps_pop_node|]. intros n n' Hn. eapply ps_then; [apply ps_quiescent|]. eapply ps_bind; [exact (IH k')|]. intros l l' Hl. apply ps_ret. constructor; auto.
Qed.

Lemma parse_alike : forall b input l1 l2 s1 s2, TokSim.rel o1 o2 LR (reader_new o1 input) (reader_new o2 input) ->
  parse_cst_raw o1 dbg repair1 b input = Ok (l1, s1) -> parse_cst_raw o2 dbg repair2 b input = Ok (l2, s2) -> Forall2 al l1 l2.
Proof.
  intros b input l1 l2 s1 s2 HR E1 E2. unfold parse_cst_raw, do_parse, pbind, tk, session_new in E1, E2. cbn [tz stack ctxs groups] in E1, E2.
  pose proof (sim_handle_first_line o1 o2 LR Hadv b _ _ HR I) as H.
  destruct (handle_first_line o1 b (reader_new o1 input)) as [[[] z1]| |] eqn:F1; try discriminate.
  destruct (handle_first_line o2 b (reader_new o2 input)) as [[[] z2]| |] eqn:F2; try discriminate. destruct H as [_ Hz].
  apply first_line_weof in F1; [|reflexivity]. apply first_line_weof in F2; [|reflexivity]. unfold pwith_fuel in E1, E2. cbn [tz] in E1, E2.
  pose proof (ps_parse_loop (S (length (rest (cur z1)))) (S (length (rest (cur z2)))) (mkp z1 [] [] []) (mkp z2 [] [] [])) as K.
  destruct (parse_loop o1 _ _ _ _) as [[a t1]| |]; try discriminate. destruct (parse_loop o2 _ _ _ _) as [[c t2]| |]; try discriminate.
  destruct (dbg && _); try discriminate. destruct (dbg && _); try discriminate. injection E1 as <- _. injection E2 as <- _. apply K.
  unfold psr. cbn [tz stack ctxs groups]. auto 8.
Qed.
End Whole.

(** ** The same places *)
Lemma alike_eq : forall R : token -> token -> Prop, (forall t u, R t u -> t = u) -> forall n n', alike R n n' -> n = n'.
Proof.
  intros R HR. apply (cst_ind' (fun n => forall n', alike R n n' -> n = n')). intros n IH n' H. rewrite Forall_forall in IH.
  assert (L : forall l l', incl l (children n) -> Forall2 (alike R) l l' -> l = l').
  { intros l l' Hi F. induction F as [|x y l l' Hxy F IHF]; auto. rewrite (IH x) with (n' := y); auto; [|apply Hi; left; auto]. f_equal. apply IHF. intros z Hz. apply Hi. right. auto. }
  destruct H as [t u Ht|k op ch ch' Hc|e ch ch' Hc|l l' m op ch ch' Hl Hc]; cbn [children] in L.
  - rewrite (HR _ _ Ht). reflexivity.
  - rewrite (L _ _ (incl_refl _) Hc). reflexivity.
  - rewrite (L _ _ (incl_refl _) Hc). reflexivity.
  - rewrite (L _ _ (incl_appl _ (incl_refl _)) Hl), (L _ _ (incl_appr _ (incl_refl _)) Hc). reflexivity.
Qed.
Lemma alike_eq_list : forall R : token -> token -> Prop, (forall t u, R t u -> t = u) -> forall l l', Forall2 (alike R) l l' -> l = l'.
Proof. intros R HR l l' F. induction F; auto. f_equal; auto. eapply alike_eq; eauto. Qed.
Lemma alike_weaken : forall (R Q : token -> token -> Prop), (forall t u, R t u -> Q t u) -> forall n n', alike R n n' -> alike Q n n'.
Proof.
  intros R Q HR. apply (cst_ind' (fun n => forall n', alike R n n' -> alike Q n n')). intros n IH n' H. rewrite Forall_forall in IH.
  assert (L : forall l l', incl l (children n) -> Forall2 (alike R) l l' -> Forall2 (alike Q) l l').
  { intros l l' Hi F. induction F as [|x y l l' Hxy F IHF]; constructor; [apply (IH x); auto; apply Hi; left; auto|]. apply IHF. intros z Hz. apply Hi. right. auto. }
  destruct H as [t u Ht|k op ch ch' Hc|e ch ch' Hc|l l' m op ch ch' Hl Hc]; cbn [children] in L; constructor; auto.
  - apply L; auto. apply incl_refl.
  - apply L; auto. apply incl_refl.
  - apply L; auto. apply incl_appl, incl_refl.
  - apply L; auto. apply incl_appr, incl_refl.
Qed.
Lemma alike_weaken_list : forall (R Q : token -> token -> Prop), (forall t u, R t u -> Q t u) -> forall l l', Forall2 (alike R) l l' -> Forall2 (alike Q) l l'.
Proof. intros R Q HR l l' F. induction F; constructor; auto. eapply alike_weaken; eauto. Qed.
Lemma same_repair : forall tl input tw op l l', Forall2 (alike (trel eq)) l l' ->
  match repair_group tl input tw op l, repair_group tl input tw op l' with Ok a, Ok b => Forall2 (alike (trel eq)) a b | _, _ => True end.
Proof.
  intros tl input tw op l l' F. rewrite (alike_eq_list _ trel_eq _ _ F). destruct (repair_group tl input tw op l') as [a| |] eqn:E; auto.
  apply repair_picks in E as (kept & -> & _). clear. induction kept; cbn; constructor; auto. constructor. repeat split.
Qed.
Lemma keep_repair : forall LR op l l', Forall2 (alike (trel LR)) l l' ->
  match keep op l, keep op l' with Ok a, Ok b => Forall2 (alike (trel LR)) a b | _, _ => True end.
Proof. intros LR op l l' F. exact F. Qed.

Lemma trees_same_places : forall o1 o2 dbg b input l1 l2 s1 s2, 0 < o_tab_width o1 -> same_places o1 o2 ->
  parse_cst_raw o1 dbg keep b input = Ok (l1, s1) -> parse_cst_raw o2 dbg keep b input = Ok (l2, s2) -> l1 = l2.
Proof.
  intros o1 o2 dbg b input l1 l2 s1 s2 Ht HP E1 E2. apply (alike_eq_list _ trel_eq).
  exact (parse_alike o1 o2 eq (adv_same o1 o2 (proj2 HP)) dbg keep keep (keep_repair eq) b input l1 l2 s1 s2 (rel_new_eq _ _ _ Ht HP) E1 E2).
Qed.
Lemma lexeme : forall t u, trel (fun _ _ => True) t u -> same_lexeme t u.
Proof. intros t u (H1 & _ & H2 & _). split; auto. Qed.
Lemma trees_same_lexemes : forall o1 o2 dbg b input l1 l2 s1 s2, 0 < o_tab_width o1 -> 0 < o_tab_width o2 ->
  parse_cst_raw o1 dbg keep b input = Ok (l1, s1) -> parse_cst_raw o2 dbg keep b input = Ok (l2, s2) -> Forall2 (alike same_lexeme) l1 l2.
Proof.
  intros o1 o2 dbg b input l1 l2 s1 s2 Ht Ht2 E1 E2. apply (alike_weaken_list _ _ lexeme).
  exact (parse_alike o1 o2 _ (fun _ _ _ _ => I) dbg keep keep (keep_repair _) b input l1 l2 s1 s2 (rel_new_any _ _ _ Ht Ht2) E1 E2).
Qed.
Lemma public_same_places : forall o1 o2 dbg b input l1 l2 s1 s2, 0 < o_tab_width o1 -> same_places o1 o2 -> o_alnum o1 = o_alnum o2 ->
  parse_cst_seq o1 dbg b input = Ok (l1, s1) -> parse_cst_seq o2 dbg b input = Ok (l2, s2) -> l1 = l2.
Proof.
  intros o1 o2 dbg b input l1 l2 s1 s2 Ht HP HA E1 E2. unfold parse_cst_seq in E1, E2.
  assert (ET : tokenize_line o2 = tokenize_line o1) by (unfold tokenize_line, options_default; rewrite HA; reflexivity). rewrite ET in E2.
  rewrite <- (proj2 HP) in E2.
  match type of E1 with rbind ?m _ = _ => destruct m as [[m1 t1]| |] eqn:R1; [cbn [rbind] in E1|discriminate E1|discriminate E1] end.
  match type of E2 with rbind ?m _ = _ => destruct m as [[m2 t2]| |] eqn:R2; [cbn [rbind] in E2|discriminate E2|discriminate E2] end.
  pose proof (parse_alike o1 o2 eq (adv_same o1 o2 (proj2 HP)) dbg _ _ (same_repair _ _ _) b input m1 m2 t1 t2 (rel_new_eq _ _ _ Ht HP) R1 R2) as F.
  apply (alike_eq_list _ trel_eq) in F. subst m2. destruct (utf8_valid input); [|congruence].
  match type of E1 with rmap _ ?m = _ => destruct m as [x| |]; [|discriminate E1|discriminate E1] end. injection E1 as <- _. injection E2 as <- _. reflexivity.
Qed.

(** ** Resuming a parse *)
Section Resume.
Variable o : opts.
Variable dbg : bool.
Variable base : st.
Local Notation good := (good o base).
Local Notation W := (parse_loop_ok o dbg keep base True (fun _ => I) (fun op ch _ _ _ => conj (fun _ => I) (keep_ok op ch)) (fun _ _ _ _ _ _ _ => I)).

Lemma loop_step : forall k z n l s', good z -> (len z < S k)%nat -> parse_loop o dbg keep (S k) (mkp z [] [] []) = Ok (n :: l, s') ->
  exists z2, good z2 /\ (len z2 < k)%nat /\ parse_loop o dbg keep k (mkp z2 [] [] []) = Ok (l, s').
Proof.
  intros k z n l s' Hg Hf.
  set (Q := fun (q : list cst) (x : pst) => q = n :: l -> exists z2, good z2 /\ (len z2 < k)%nat /\ parse_loop o dbg keep k (mkp z2 [] [] []) = Ok (l, x)).
  assert (T : forall z2 m, good z2 -> (len z2 < k)%nat ->
    PW True (l0 <- parse_loop o dbg keep k ;; pret (m :: l0)) (mkp z2 [] [] []) Q).
  { intros z2 m G2 L2. unfold PW, pbind. pose proof (W k z2 G2 L2) as K. unfold PW in K. destruct (parse_loop o dbg keep k (mkp z2 [] [] [])) as [[l0 x]| |] eqn:E; auto.
    cbn [pret]. intros HQ. injection HQ as _ ->. exists z2. auto. }
  assert (K : PW True (parse_loop o dbg keep (S k)) (mkp z [] [] []) Q).
  { cbn [parse_loop]. apply PW_bind, (PW_peek o base True (fun _ => I)); auto.
    intros t z1 G1 H1 _ HL R1. pose proof (len_here _ _ H1) as Ln1. pose proof (looks_reads _ _ _ _ HL) as Hr.
    destruct (Z.eqb_spec (t_kind t) TK_EndOfFile) as [Ee|Ne]; [apply PW_ret; discriminate|].
    destruct (isTrivia (t_kind t)) eqn:Et.
    { destruct (reads_trivia o (qtop []) _ t eq_refl Hr Et) as [T1 _].
      apply PW_bind. apply (PW_skip o base True (qtop []) z1 t); auto; [reflexivity|]. intros z2 G2 H2 R2 L2 S2. specialize (S2 T1). apply T; auto. lia. }
    assert (Hs : solidk (t_kind t) = true) by (eapply reads_solid; eauto).
    apply PW_bind. destruct (isCloser (t_kind t)) eqn:Ec.
    - unfold prefix_toplevel_closer. apply PW_bind, PW_assert; auto. apply PW_bind. apply PW_push_leaf; [reflexivity|]. cbn [app].
      apply (PW_skip o base True (qtop []) z1 t); auto; [reflexivity|]. intros z2 G2 H2 R2 L2 S2. specialize (S2 (reads_text _ _ _ _ Hr Ne)).
      apply PW_bind. apply (PW_pop_node True _ _ []). apply PW_bind. unfold PW at 1. cbn [assert_quiescent ctxs groups]. apply T; auto. lia.
    - unfold PW at 1. change (PW True (run o dbg keep (depth_bound (mkp z1 [] [] [])) (CPrefix t)) (mkp z1 [] [] []) (fun (_ : unit) (s' : pst) =>
        PW True (n <- pop_node ;; assert_quiescent ;; l <- parse_loop o dbg keep k ;; pret (n :: l)) s' Q)).
      eapply PW_conseq; [apply (run_ok o dbg keep base True (fun _ => I) (fun op ch _ _ _ => conj (fun _ => I) (keep_ok op ch)) (fun _ _ _ _ _ _ _ => I) (here z1) (good_within _ _ _ G1) _ (CPrefix t) [] [] [])|].
      + exists z1. split; auto. split; auto. split; [exists []; split; constructor|]. split; auto. split; auto. reflexivity.
      + unfold measure, depth_bound. cbn [tz]. pose proof (rank_prefix t). fold (len z1). lia.
      + intros [] s2 (z2 & m & -> & G2 & A2 & [O2 _] & L2 & X2). cbn [tz extra app] in *. assert (S2 : (len z2 < len z1)%nat) by (apply X2; right; auto).
        apply PW_bind. apply (PW_pop_node True _ _ []). apply PW_bind. unfold PW at 1. cbn [assert_quiescent ctxs groups]. apply T; auto. lia. }
  intros H. unfold PW in K. rewrite H in K. apply K. reflexivity.
Qed.

Lemma loop_split : forall l1 k z l2 s', good z -> (len z < k)%nat -> parse_loop o dbg keep k (mkp z [] [] []) = Ok (l1 ++ l2, s') ->
  exists z2 k2, good z2 /\ (len z2 < k2)%nat /\ parse_loop o dbg keep k2 (mkp z2 [] [] []) = Ok (l2, s').
Proof.
  induction l1 as [|n l1 IH]; intros k z l2 s' Hg Hf H; [exists z, k; auto|]. destruct k as [|k]; [lia|]. cbn [app] in H.
  destruct (loop_step _ _ _ _ _ Hg Hf H) as (z2 & G2 & L2 & H2). apply (IH k z2 l2 s' G2 L2 H2).
Qed.

Lemma loop_texts : forall k z l s', good z -> (len z < k)%nat -> parse_loop o dbg keep k (mkp z [] [] []) = Ok (l, s') ->
  rest (cur z) = concat (map t_text (leaves l)) ++ rest (cur (tz s')).
Proof.
  intros k z l s' Hg Hf H. pose proof (W k z Hg Hf) as K. unfold PW in K. rewrite H in K. destruct K as (z' & -> & _ & _ & _ & _ & (g & Hm & Hr) & _).
  rewrite (mended_keep _ _ Hm) in Hr. apply row_text in Hr. exact Hr.
Qed.
End Resume.

Lemma parse_resumes : forall o dbg b input s0 l1 l2 s1 ts r l2' s2, 0 < o_tab_width o -> handle_first_line o b (reader_new o input) = Ok (tt, s0) ->
  parse_cst_raw o dbg keep b input = Ok (l1 ++ l2, s1) -> all_tokens l1 ts -> rest (cur s0) = concat (map t_text ts) ++ r ->
  parse_cst_raw o dbg keep NotScript r = Ok (l2', s2) -> Forall2 (alike same_lexeme) l2 l2'.
Proof.
  intros o dbg b input s0 l1 l2 s1 ts r l2' s2 Ht EF E1 HA HI E2. apply all_tokens_leaves in HA. subst ts.
  unfold parse_cst_raw, do_parse, pbind, tk, session_new in E1, E2. cbn [tz stack ctxs groups] in E1, E2. rewrite EF in E1. cbn [handle_first_line] in E2.
  unfold pwith_fuel in E1, E2. cbn [tz] in E1, E2. change (ret tt (reader_new o r)) with (Ok (tt, reader_new o r)) in E2. cbv iota beta in E1, E2.
  match type of E1 with match ?x with _ => _ end = _ => destruct x as [[a t1]| |] eqn:P1; [|discriminate E1|discriminate E1] end.
  match type of E2 with match ?x with _ => _ end = _ => destruct x as [[c t2]| |] eqn:P2; [|discriminate E2|discriminate E2] end.
  destruct (dbg && _); [discriminate E1|]. destruct (dbg && _); [discriminate E2|]. injection E1 as -> <-. injection E2 as -> <-.
  assert (G0 : good o (reader_new o input) s0).
  { pose proof (handle_first_line_ok o b _ _ (reader_new_Inv o input Ht) (R_refl _ _)) as H. unfold wpr in H. rewrite EF in H. destruct H as (I0 & R0 & _).
    split; [exact I0|]. split; [exact R0|]. eapply first_line_weof; [|exact EF]. reflexivity. }
  destruct (loop_split o dbg _ _ _ _ _ _ G0 (Nat.lt_succ_diag_r _) P1) as (z2 & k2 & G2 & L2 & P3).
  pose proof (loop_texts o dbg _ _ _ _ _ G0 (Nat.lt_succ_diag_r _) P1) as X1. pose proof (loop_texts o dbg _ _ _ _ _ G2 L2 P3) as X3.
  assert (Er : rest (cur z2) = r).
  { rewrite HI, leaves_app, map_app, concat_app, <- app_assoc, <- X3 in X1. apply app_inv_head in X1. auto. }
  apply (alike_weaken_list _ _ lexeme).
  match type of P2 with parse_loop _ _ _ ?k ?x = _ => pose proof (ps_parse_loop o o (fun _ _ => True) (fun _ _ _ _ => I) dbg keep keep (keep_repair _) k2 k (mkp z2 [] [] []) x) as K end.
  rewrite P3, P2 in K. apply K. destruct G2 as (I2 & _ & W2). unfold psr. cbn [tz stack ctxs groups]. split; auto. split; auto. split; [|auto].
  split; [split; cbn; auto|]. split; [exact I2|apply reader_new_Inv; auto].
Qed.

(** ** Complete trees *)
Lemma alike_nodes : forall R n n', alike R n n' -> Forall2 (alike R) (nodes n) (nodes n') /\ Forall2 R (toks n) (toks n').
Proof.
  intros R. apply (cst_ind' (fun n => forall n', alike R n n' -> Forall2 (alike R) (nodes n) (nodes n') /\ Forall2 R (toks n) (toks n'))). intros n IH n' H. rewrite Forall_forall in IH.
  assert (L : forall l l', incl l (children n) -> Forall2 (alike R) l l' -> Forall2 (alike R) (flat_map nodes l) (flat_map nodes l') /\ Forall2 R (flat_map toks l) (flat_map toks l')).
  { intros l l' Hi F. induction F as [|x y l l' Hxy F IHF]; cbn [flat_map]; [split; constructor|]. destruct (IH x (Hi x (or_introl eq_refl)) y Hxy) as [A1 A2].
    destruct (IHF (fun z Hz => Hi z (or_intror Hz))) as [B1 B2]. split; apply Forall2_app; auto. }
  pose proof H as H0. destruct H as [t u Ht|k op ch ch' Hc|e ch ch' Hc|l l' m op ch ch' Hl Hc]; cbn [children] in L; rewrite !nodes_eq; cbn [children].
  - split; [constructor; auto; constructor|]. cbn. auto.
  - rewrite !toks_eq by discriminate. cbn [children]. destruct (L _ _ (incl_refl _) Hc). split; auto.
  - rewrite !toks_eq by discriminate. cbn [children]. destruct (L _ _ (incl_refl _) Hc). split; auto.
  - rewrite !toks_eq by discriminate. cbn [children]. rewrite !flat_map_app. destruct (L _ _ (incl_appr _ (incl_refl _)) Hc), (L _ _ (incl_appl _ (incl_refl _)) Hl).
    split; [constructor; auto|]; apply Forall2_app; auto.
Qed.
Lemma alike_complete : forall l l', Forall2 (alike same_lexeme) l l' -> complete l -> complete l'.
Proof.
  intros l l' F (C1 & C2). specialize (C2 _ (all_leaves l)). assert (K : Forall (everywhere (fun n => ~ lacks_closer n)) l' /\ Forall (fun t => ~ unterminated_kind (t_kind t)) (leaves l')).
  { unfold leaves in *. revert C1 C2. induction F as [|x y l l' Hxy F IH]; intros C1 C2; [split; constructor|]. inversion C1; subst. cbn [flat_map] in *. apply Forall_app in C2 as [K1 K2].
    destruct (IH H2 K2) as [I1 I2]. destruct (alike_nodes _ _ _ Hxy) as [N1 N2]. split.
    - constructor; auto. apply everywhere_nodes. apply everywhere_nodes in H1. clear - N1 H1. induction N1 as [|a b p q Hab N IHN]; constructor; inversion H1; subst; auto.
      intros [(op & ch & ->)|(h & op & ch & ->)]; apply H2; inversion Hab; subst; [left|right]; eauto.
    - apply Forall_app. split; auto. clear - N2 K1. induction N2 as [|a b p q Hab N IHN]; constructor; inversion K1; subst; auto. destruct Hab as [<- _]. auto. }
  destruct K as [K1 K2]. split; auto. intros ts A. apply all_tokens_leaves in A. subst. exact K2.
Qed.
Lemma public_same_lexemes : forall o1 o2 dbg b input l1 l2 s1 s2, 0 < o_tab_width o1 -> 0 < o_tab_width o2 -> complete l1 ->
  parse_cst_seq o1 dbg b input = Ok (l1, s1) -> parse_cst_seq o2 dbg b input = Ok (l2, s2) -> Forall2 (alike same_lexeme) l1 l2.
Proof.
  intros o1 o2 dbg b input l1 l2 s1 s2 Ht1 Ht2 C E1 E2. apply (public_complete _ _ _ _ _ _ Ht1 C) in E1. destruct (public_patched _ _ _ _ _ _ Ht2 E2) as (l0 & E0 & _).
  pose proof (trees_same_lexemes _ _ _ _ _ _ _ _ _ Ht1 Ht2 E1 E0) as F. pose proof (alike_complete _ _ F C) as C0.
  apply (public_complete _ _ _ _ _ _ Ht2 C0) in E0. rewrite E0 in E2. injection E2 as <-. exact F.
Qed.
Lemma complete_app : forall l1 l2, complete (l1 ++ l2) -> complete l2.
Proof.
  intros l1 l2 (C1 & C2). apply Forall_app in C1 as [_ C1]. split; auto. intros ts A. apply all_tokens_leaves in A. subst. specialize (C2 _ (all_leaves _)). rewrite leaves_app in C2.
  apply Forall_app in C2. apply C2.
Qed.
Lemma public_resumes : forall o dbg b input s0 l1 l2 s1 ts r l2' s2, 0 < o_tab_width o -> handle_first_line o b (reader_new o input) = Ok (tt, s0) ->
  parse_cst_seq o dbg b input = Ok (l1 ++ l2, s1) -> complete (l1 ++ l2) -> all_tokens l1 ts -> rest (cur s0) = concat (map t_text ts) ++ r ->
  parse_cst_seq o dbg NotScript r = Ok (l2', s2) -> Forall2 (alike same_lexeme) l2 l2'.
Proof.
  intros o dbg b input s0 l1 l2 s1 ts r l2' s2 Ht EF E1 C HA HI E2. apply (public_complete _ _ _ _ _ _ Ht C) in E1. destruct (public_patched _ _ _ _ _ _ Ht E2) as (l0 & E0 & _).
  pose proof (parse_resumes _ _ _ _ _ _ _ _ _ _ _ _ Ht EF E1 HA HI E0) as F. pose proof (alike_complete _ _ F (complete_app _ _ C)) as C0.
  apply (public_complete _ _ _ _ _ _ Ht C0) in E0. rewrite E0 in E2. injection E2 as <-. exact F.
Qed.
