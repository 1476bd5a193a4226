(** Proofs for C57: what is put is one expression of the documented form. *)
From Coq Require Import String.
From Coq Require Import ZArith List Bool Lia.
From Verif Require Import Base Source GenTokenKind TokenKind LongNames Cst Ast Utils BoxPosition Link SpecLink CstProofs.
Import ListNotations.
Local Open Scope string_scope.
Local Open Scope list_scope.
Local Open Scope Z_scope.

Local Notation "a ;+ b" := (wseq a b) (at level 62, right associativity).

(** ** One expression *)

Scheme denotes_min := Minimality for denotes Sort Prop with denotes_all_min := Minimality for denotes_all Sort Prop.
Combined Scheme denotes_both from denotes_min, denotes_all_min.

Lemma denotes_prefix :
  (forall ps e, denotes ps e -> forall ps' e' r r', denotes ps' e' -> ps ++ r = ps' ++ r' -> ps = ps' /\ e = e') /\
  (forall ps es, denotes_all ps es -> forall ps' es' r r', denotes_all ps' es' -> length es = length es' -> ps ++ r = ps' ++ r' -> ps = ps' /\ es = es').
Proof.
  apply denotes_both.
  - intros s ps' e' r r' H E. inversion H; subst; cbn in E; try discriminate E; injection E as -> _; auto.
  - intros s ps' e' r r' H E. inversion H; subst; cbn in E; try discriminate E; injection E as -> _; auto.
  - intros s ps' e' r r' H E. inversion H; subst; cbn in E; try discriminate E; injection E as -> _; auto.
  - intros s ps' e' r r' H E. inversion H; subst; cbn in E; try discriminate E; injection E as -> _; auto.
  - intros s ps' e' r r' H E. inversion H; subst; cbn in E; try discriminate E; injection E as -> _; auto.
  - intros h n ps es H IH L ps' e' r r' H' E. inversion H' as [| | | | |h' n' ps2 es2 H2 L2]; subst; cbn in E; try discriminate E. injection E as -> L' E.
    destruct (IH _ _ _ _ H2 L' E) as [-> ->]. auto.
  - intros ps' es' r r' H L E. destruct H; [auto|discriminate L].
  - intros p e ps es H IH H1 IH1 ps' es' r r' H' L E. destruct H' as [|p' e' ps' es' H2 H3]; [discriminate L|]. injection L as L.
    rewrite <- !app_assoc in E. destruct (IH _ _ _ _ H2 E) as [-> ->]. apply app_inv_head in E. destruct (IH1 _ _ _ _ H3 L E) as [-> ->]. auto.
Qed.
Lemma denotes_unique : forall ps e e', denotes ps e -> denotes ps e' -> e' = e.
Proof. intros ps e e' H H'. destruct (proj1 denotes_prefix ps e H ps e' [] [] H' eq_refl) as [_ ->]. reflexivity. Qed.
Lemma denotes_all_app : forall p1 e1 p2 e2, denotes_all p1 e1 -> denotes_all p2 e2 -> denotes_all (p1 ++ p2) (e1 ++ e2).
Proof. intros p1 e1 p2 e2 H. induction H; intros H'; cbn [app]; auto. rewrite <- app_assoc. constructor; auto. Qed.
Lemma denotes_all_one : forall p e, denotes p e -> denotes_all p [e].
Proof. intros p e H. rewrite <- (app_nil_r p). constructor; [exact H|constructor]. Qed.

(** ** Putting *)

Definition only (ab : bool) (q : list bool) : Prop := In true q -> ab = true.
Definition sends (ab : bool) (w : W) (P : expr -> Prop) : Prop :=
  forall q ps q', only ab q -> w q = Ok (ps, q') -> only ab q' /\ exists e, denotes ps e /\ P e.
Definition sends_all (ab : bool) (w : W) (P : list expr -> Prop) : Prop :=
  forall q ps q', only ab q -> w q = Ok (ps, q') -> only ab q' /\ exists es, denotes_all ps es /\ P es.

Lemma sends_weaken : forall ab w (P Q : expr -> Prop), sends ab w P -> (forall e, P e -> Q e) -> sends ab w Q.
Proof. intros ab w P Q H I q ps q' A E. destruct (H q ps q' A E) as (A' & e & D & p). eauto. Qed.
Lemma sends_all_weaken : forall ab w (P Q : list expr -> Prop), sends_all ab w P -> (forall e, P e -> Q e) -> sends_all ab w Q.
Proof. intros ab w P Q H I q ps q' A E. destruct (H q ps q' A E) as (A' & e & D & p). eauto. Qed.

Lemma wseq_Ok : forall a b q ps q', wseq a b q = Ok (ps, q') -> exists p1 q1 p2, a q = Ok (p1, q1) /\ b q1 = Ok (p2, q') /\ ps = p1 ++ p2.
Proof.
  intros a b q ps q' E. unfold wseq in E. destruct (a q) as [[p1 q1]| |]; cbn in E; try discriminate E. destruct (b q1) as [[p2 q2]| |] eqn:Eb; cbn in E; try discriminate E.
  injection E as <- <-. eauto 6.
Qed.
Lemma wdo_Ok : forall l q ps q', wdo l q = Ok (ps, q') -> ps = l /\ q' = q.
Proof. intros l q ps q' E. unfold wdo in E. injection E as <- <-. auto. Qed.

Lemma all_do : forall ab l es, denotes_all l es -> sends_all ab (wdo l) (eq es).
Proof. intros ab l es H q ps q' A E. apply wdo_Ok in E as [-> ->]. eauto. Qed.
Lemma one_do : forall ab l e, denotes l e -> sends ab (wdo l) (eq e).
Proof. intros ab l e H q ps q' A E. apply wdo_Ok in E as [-> ->]. eauto. Qed.
Lemma one_panic : forall ab P, sends ab wpanic P.
Proof. intros ab P q ps q' A E. discriminate E. Qed.
Lemma all_one : forall ab w P, sends ab w P -> sends_all ab w (fun es => exists e, es = [e] /\ P e).
Proof. intros ab w P H q ps q' A E. destruct (H q ps q' A E) as (A' & e & D & p). split; [exact A'|]. exists [e]. split; [apply denotes_all_one; exact D|eauto]. Qed.
Lemma all_app : forall ab w1 w2 P1 P2, sends_all ab w1 P1 -> sends_all ab w2 P2 -> sends_all ab (w1 ;+ w2) (fun es => exists a b, es = a ++ b /\ P1 a /\ P2 b).
Proof.
  intros ab w1 w2 P1 P2 H1 H2 q ps q' A E. apply wseq_Ok in E as (p1 & q1 & p2 & E1 & E2 & ->). destruct (H1 _ _ _ A E1) as (A1 & a & D1 & Pa). destruct (H2 _ _ _ A1 E2) as (A2 & b & D2 & Pb).
  split; [exact A2|]. exists (a ++ b). split; [apply denotes_all_app; auto|eauto 6].
Qed.
Lemma all_cons : forall ab w1 w2 P1 P2, sends ab w1 P1 -> sends_all ab w2 P2 -> sends_all ab (w1 ;+ w2) (fun es => exists a b, es = a :: b /\ P1 a /\ P2 b).
Proof.
  intros ab w1 w2 P1 P2 H1 H2. eapply sends_all_weaken; [apply (all_app _ _ _ _ _ (all_one _ _ _ H1) H2)|]. intros es (a & b & -> & (e & -> & p) & p2). exists e, b. auto.
Qed.
Lemma one_fun : forall ab h n l w P, sends_all ab (wdo l ;+ w) P -> (forall es, P es -> length es = n) -> sends ab (wdo (PFun h n :: l) ;+ w) (fun e => exists es, e = fn h es /\ P es).
Proof.
  intros ab h n l w P H L q ps q' A E. apply wseq_Ok in E as (p1 & q1 & p2 & E1 & E2 & ->). apply wdo_Ok in E1 as [-> ->].
  destruct (H q (l ++ p2) q' A) as (A' & es & D & p). { unfold wseq, wdo. cbn. rewrite E2. reflexivity. }
  split; [exact A'|]. exists (fn h es). split; [|eauto]. cbn [app]. constructor; auto.
Qed.
Lemma all_sym : forall ab s l w P, sends_all ab (wdo l ;+ w) P -> sends_all ab (wdo (PSym s :: l) ;+ w) (fun es => exists r, es = ESym s :: r /\ P r).
Proof.
  intros ab s l w P H q ps q' A E. apply wseq_Ok in E as (p1 & q1 & p2 & E1 & E2 & ->). apply wdo_Ok in E1 as [-> ->].
  destruct (H q (l ++ p2) q' A) as (A' & es & D & p). { unfold wseq, wdo. cbn. rewrite E2. reflexivity. }
  split; [exact A'|]. exists (ESym s :: es). split; [|eauto]. cbn [app]. apply (d_cons [PSym s]); [constructor|exact D].
Qed.
Lemma all_str : forall ab s l w P, sends_all ab (wdo l ;+ w) P -> sends_all ab (wdo (PStr s :: l) ;+ w) (fun es => exists r, es = EStr s :: r /\ P r).
Proof.
  intros ab s l w P H q ps q' A E. apply wseq_Ok in E as (p1 & q1 & p2 & E1 & E2 & ->). apply wdo_Ok in E1 as [-> ->].
  destruct (H q (l ++ p2) q' A) as (A' & es & D & p). { unfold wseq, wdo. cbn. rewrite E2. reflexivity. }
  split; [exact A'|]. exists (EStr s :: es). split; [|eauto]. cbn [app]. apply (d_cons [PStr s]); [constructor|exact D].
Qed.
Lemma all_expr : forall ab s l w P, sends_all ab (wdo l ;+ w) P -> sends_all ab (wdo (PExpr s :: l) ;+ w) (fun es => exists r, es = s :: r /\ P r).
Proof.
  intros ab s l w P H q ps q' A E. apply wseq_Ok in E as (p1 & q1 & p2 & E1 & E2 & ->). apply wdo_Ok in E1 as [-> ->].
  destruct (H q (l ++ p2) q' A) as (A' & es & D & p). { unfold wseq, wdo. cbn. rewrite E2. reflexivity. }
  split; [exact A'|]. exists (s :: es). split; [|eauto]. cbn [app]. apply (d_cons [PExpr s]); [constructor|exact D].
Qed.
Lemma all_nested : forall ab h n l w P, sends_all ab (wdo l ;+ w) P -> (forall es, P es -> length es = n) -> sends_all ab (wdo (PFun h n :: l) ;+ w) (fun es => exists r, es = [fn h r] /\ P r).
Proof. intros ab h n l w P H L. eapply sends_all_weaken; [apply (all_one _ _ _ (one_fun _ _ _ _ _ _ H L))|]. intros es (e & -> & r & -> & p). eauto. Qed.
Lemma all_skip : forall ab w P, sends_all ab w P -> sends_all ab (wdo [] ;+ w) P.
Proof. intros ab w P H q ps q' A E. apply wseq_Ok in E as (p1 & q1 & p2 & E1 & E2 & ->). apply wdo_Ok in E1 as [-> ->]. exact (H _ _ _ A E2). Qed.
Lemma one_lift : forall A ab (r : res A) k P, (forall a, r = Ok a -> sends ab (k a) P) -> sends ab (wlift r k) P.
Proof. intros A ab r k P H q ps q' O E. unfold wlift in E. destruct r as [a| |]; cbn in E; try discriminate E. exact (H a eq_refl q ps q' O E). Qed.
Lemma all_list : forall A ab (f : A -> W) (P : A -> expr -> Prop) l, (forall a, In a l -> sends ab (f a) (P a)) -> sends_all ab (wall (map f l)) (Forall2 P l).
Proof.
  intros A ab f P l. induction l as [|a l IH]; intros H; cbn [map wall].
  - eapply sends_all_weaken; [apply all_do; constructor|]. intros e <-. constructor.
  - eapply sends_all_weaken; [apply all_cons; [apply H; left; reflexivity|apply IH; intros b Hb; apply H; right; exact Hb]|]. intros es (e & b & -> & H1 & H2). constructor; auto.
Qed.
Lemma Forall2_length' : forall A B (P : A -> B -> Prop) l m, Forall2 P l m -> length m = length l.
Proof. intros A B P l m H. induction H; cbn; auto. Qed.
Lemma one_list : forall A ab (f : A -> W) (P : A -> expr -> Prop) l, (forall a, In a l -> sends ab (f a) (P a)) ->
  sends ab (put_list f l) (fun e => exists es, e = fn "System`List" es /\ Forall2 P l es).
Proof.
  intros A ab f P l H. unfold put_list. apply one_fun; [apply all_skip, all_list; exact H|]. intros es F. eapply Forall2_length'; eauto.
Qed.

(** *** Sources *)

Lemma one_ints : forall ab l, sends ab (wdo [PFun "System`List" (length l)] ;+ wall (map put_index l)) (eq (ints l)).
Proof.
  intros ab l. eapply sends_weaken; [apply one_fun; [apply all_skip; apply (all_list _ ab put_index (fun i e => e = EInt i))|]|].
  - intros i _. unfold put_index. destruct (i <? 2 ^ 63); [|apply one_panic]. eapply sends_weaken; [apply one_do; constructor|]. auto.
  - intros es F. eapply Forall2_length'; eauto.
  - intros e (es & -> & F). unfold ints. f_equal. induction F as [|a b l es H F IH]; [reflexivity|]. subst. cbn [map]. congruence.
Qed.
Lemma place_denotes : forall l, denotes (put_loc l) (place_form l).
Proof.
  intros [a b|i]; cbn [put_loc place_form]; unfold ints, fn; cbn [map].
  - apply d_fun; [|reflexivity]. apply (d_cons [PInt a] (EInt a) [PInt b]); [constructor|]. apply (d_cons [PInt b] (EInt b) []); constructor.
  - apply d_fun; [|reflexivity]. apply (d_cons [PInt 0] (EInt 0) [PInt i]); [constructor|]. apply (d_cons [PInt i] (EInt i) []); constructor.
Qed.
Lemma ints2_denotes : forall a b, denotes [PFun "System`List" 2; PInt a; PInt b] (ints [a; b]).
Proof. intros a b. exact (place_denotes (LineCol a b)). Qed.
Lemma one_position : forall ab c s, sends ab (put_source_rhs c s) (position_form s).
Proof.
  intros ab c [[[a b|a] [x y|z]]|[l|l [a b]|l|l]|]; cbn [put_source_rhs put_span_rhs put_box_position]; try apply one_panic.
  - eapply sends_weaken; [apply one_do; apply d_fun; [apply denotes_all_app; apply denotes_all_one; apply place_denotes|reflexivity]|]. intros e <-. cbn [app place_form]. constructor.
  - destruct (z =? 0) eqn:Eb.
    + apply Z.eqb_eq in Eb. subst z. destruct (asserts c); [apply one_panic|]. eapply sends_weaken; [apply one_do, ints2_denotes|]. intros e <-. constructor.
    + apply Z.eqb_neq in Eb. eapply sends_weaken; [apply one_do, ints2_denotes|]. intros e <-. constructor. exact Eb.
  - eapply sends_weaken; [apply one_ints|]. intros e <-. constructor.
  - destruct ((2 ^ 63 <=? a) || (2 ^ 63 <=? b)); [apply one_panic|].
    eapply sends_weaken; [apply one_fun; [apply all_skip; apply all_app; [apply (all_list _ ab put_index (fun i e => e = EInt i))|]|]|].
    + intros i _. unfold put_index. destruct (i <? 2 ^ 63); [|apply one_panic]. eapply sends_weaken; [apply one_do; constructor|]. auto.
    + apply all_one. apply one_do. apply (d_fun _ _ _ [EInt a; EInt b]); [|reflexivity]. apply (d_cons [PInt a] (EInt a) [PInt b]); [constructor|]. apply (d_cons [PInt b] (EInt b) []); constructor.
    + intros es (x & y & -> & F & e & -> & <-). rewrite app_length, (Forall2_length' _ _ _ _ _ F). reflexivity.
    + intros e (es & -> & x & y & -> & F & e' & -> & <-). replace x with (map EInt l); [constructor|]. clear -F. induction F as [|i e l es H F IH]; [reflexivity|]. subst. cbn [map]. congruence.
  - eapply sends_weaken; [apply one_fun; [apply (all_one _ _ _ (one_ints ab l))|]|].
    + intros es (e & -> & _). reflexivity.
    + intros e (es & -> & e' & -> & <-). constructor.
  - eapply sends_weaken; [apply one_fun; [apply (all_one _ _ _ (one_ints ab l))|]|].
    + intros es (e & -> & _). reflexivity.
    + intros e (es & -> & e' & -> & <-). constructor.
Qed.
Lemma include_hidden : forall c s, if include_source c s then ~ hidden (compat c) s else hidden (compat c) s.
Proof.
  intros c [sp|[l|l p|l|l]|]; cbn [include_source]; unfold hidden; try (intros [H|(_ & l' & p' & H)]; discriminate H).
  - destruct (compat c); cbn [negb]; [right; eauto|]. intros [H|[H _]]; discriminate H.
  - auto.
Qed.
Lemma all_rule : forall ab c s, sends_all ab (if include_source c s then wdo [PFun "System`Rule" 2; PSym "CodeParser`Source"] ;+ put_source_rhs c s else wdo [])
  (fun es => rule_form (compat c) s es /\ length es = if include_source c s then 1%nat else 0%nat).
Proof.
  intros ab c s. pose proof (include_hidden c s) as H. destruct (include_source c s).
  - eapply sends_all_weaken; [apply all_nested; [apply all_sym, all_skip, all_one, one_position|]|].
    + intros es (r & -> & e & -> & _). reflexivity.
    + intros es (r & -> & r' & -> & e & -> & p). split; [|reflexivity]. apply rf_shown; auto.
  - eapply sends_all_weaken; [apply all_do; constructor|]. intros es <-. split; [constructor; exact H|reflexivity].
Qed.
Lemma one_source : forall ab c s, sends ab (put_source c s) (source_form (compat c) s).
Proof.
  intros ab c s. unfold put_source. pose proof (include_hidden c s) as H. destruct (include_source c s); cbn [negb].
  - eapply sends_weaken; [apply one_fun; [apply all_nested; [apply all_sym, all_skip, all_one, one_position|]|]|].
    + intros es (r & -> & e & -> & _). reflexivity.
    + intros es (r & -> & _). reflexivity.
    + intros e (es & -> & r & -> & r' & -> & x & -> & p). eexists. split; [apply rf_shown; eauto|]. reflexivity.
  - eapply sends_weaken; [apply one_do; apply d_fun; [constructor|reflexivity]|]. intros e <-. exists []. split; [constructor; exact H|reflexivity].
Qed.

(** *** Nodes *)

Definition node_children (n : node) : list node :=
  match n with
  | NTok _ _ _ | NCode _ _ _ => []
  | NCall h _ _ b => (match h with Concrete l => l | Aggregate x => [x] end) ++ b
  | NSynErr _ ch | NOp _ _ ch | NBox _ ch _ => ch
  end.
Lemma node_ind' : forall P : node -> Prop, (forall n, Forall P (node_children n) -> P n) -> forall n, P n.
Proof.
  intros P H. fix F 1. intros n. apply H.
  assert (G : forall l : list node, Forall P l) by (fix G 1; intros [|a l]; [constructor|constructor; [apply F|apply G]]).
  destruct n as [k t s|[l|x] m op b|e ch|k op ch|k ch s|a b s]; cbn [node_children].
  - constructor.
  - apply Forall_app. split; apply G.
  - apply Forall_app. split; [constructor; [apply F|constructor]|apply G].
  - apply G.
  - apply G.
  - apply G.
  - constructor.
Qed.

Lemma source_between_enclosing : forall a b s, source_between a b = Ok s -> enclosing a b s.
Proof.
  intros a b s E. destruct a as [a|a|], b as [b|b|]; cbn in E; try discriminate E; try (injection E as <-; constructor).
  - unfold span_between in E. destruct (loc_leb (sp_start a) (sp_start b)) as [[|]|] eqn:E1; try discriminate E. unfold Span_new in E.
    destruct (loc_leb (sp_start a) (sp_end b)) as [[|]|] eqn:E2; try discriminate E. cbn in E. injection E as <-. constructor; auto.
  - apply rbind_Ok in E as (r & Er & E). injection E as <-. destruct r; constructor; exact Er.
Qed.

Lemma last_map : forall A B (f : A -> B) l d a, last (map f (l ++ [a])) d = f a.
Proof. intros A B f l d a. rewrite map_app. cbn [map]. apply last_last. Qed.
Lemma node_extent : forall n s, node_source n = Ok s -> extent n s.
Proof.
  intros n. induction n as [n IH] using node_ind'. intros s E.
  assert (Q : forall l, Forall (fun n => forall s, node_source n = Ok s -> extent n s) l -> forall s, sources_span (map node_source l) = Ok s -> extents l s).
  { intros l F s0 E0. destruct l as [|a l]; [discriminate E0|]. cbn [sources_span map] in E0. apply rbind_Ok in E0 as (x & Ex & E0). apply rbind_Ok in E0 as (y & Ey & E0). apply source_between_enclosing in E0.
    destruct l as [|b l] using rev_ind.
    - cbn in Ey. rewrite Ex in Ey. injection Ey as <-. inversion F; subst. econstructor; eauto.
    - change (node_source a :: map node_source (l ++ [b])) with (map node_source ((a :: l) ++ [b])) in Ey. rewrite last_map in Ey.
      apply Forall_cons_iff in F as [Fa F]. apply Forall_app in F as [_ F]. apply Forall_cons_iff in F as [Fb _]. econstructor; eauto. }
  destruct n as [k t src|[l|x] m op b|e ch|k op ch|k ch src|a b src]; cbn [node_children] in IH; cbn [node_source] in E.
  - injection E as <-. constructor.
  - destruct l as [|x l]; [discriminate E|]. apply rbind_Ok in E as (u & Eu & E). apply rbind_Ok in E as (v & Ev & E). apply source_between_enclosing in E.
    apply Forall_app in IH as [H1 H2]. apply Forall_cons_iff in H1 as [H1 _]. econstructor; eauto.
  - apply rbind_Ok in E as (u & Eu & E). apply rbind_Ok in E as (v & Ev & E). apply source_between_enclosing in E.
    apply Forall_app in IH as [H1 H2]. apply Forall_cons_iff in H1 as [H1 _]. econstructor; eauto.
  - constructor. auto.
  - constructor. auto.
  - injection E as <-. constructor.
  - injection E as <-. constructor.
Qed.
Lemma nodes_extents : forall l s, sources_span (map node_source l) = Ok s -> extents l s.
Proof. intros l s E. assert (H : extent (NSynErr ExpectedTilde l) s) by (apply node_extent; exact E). inversion H; subst; assumption. Qed.

Lemma one_kind : forall ab k, sends ab (put_kind k) (fun e => exists ks, tk_to_symbol k = Some ks /\ e = ESym ks).
Proof. intros ab k. unfold put_kind. destruct (tk_to_symbol k); [|apply one_panic]. eapply sends_weaken; [apply one_do; constructor|]. intros e <-. eauto. Qed.
Lemma one_operator : forall ab f op, sends ab (put_operator f op) (fun e => exists os, op_to_symbol f op = Some os /\ e = ESym os).
Proof. intros ab f op. unfold put_operator. destruct (op_to_symbol f op); [|apply one_panic]. eapply sends_weaken; [apply one_do; constructor|]. intros e <-. eauto. Qed.
Lemma one_text : forall ab t, sends ab (put_text t) (eq (EStr t)).
Proof. intros ab t. unfold put_text. destruct (Iter.utf8_valid t); [|apply one_panic]. apply one_do. constructor. Qed.
Lemma one_box_kind : forall ab c k, sends ab (put_box_kind c k) (fun e => exists s, box_symbol k s /\ e = ESym s).
Proof.
  intros ab c [s|ctx s]; cbn [put_box_kind box_symbol].
  - destruct (asserts c && negb (ends_with "Box" s)); [apply one_panic|]. eapply sends_weaken; [apply one_do; constructor|]. intros e <-. eauto.
  - destruct (ctx =? "System`")%string eqn:Ec; cbn [negb]; [|apply one_panic]. apply String.eqb_eq in Ec. subst ctx.
    destruct (asserts c && negb (ends_with "Box" s)); [apply one_panic|]. eapply sends_weaken; [apply one_do; constructor|]. intros e <-. eauto.
Qed.

Lemma one_element : forall ab w P, sends ab w P -> sends ab (put_element w) (fun e => P e \/ ab = true /\ e = ESym "System`$Aborted").
Proof.
  intros ab w P H q ps q' A E. unfold put_element in E. destruct q as [|[|] q].
  - destruct (H _ _ _ A E) as (A' & e & D & p). eauto.
  - injection E as <- <-. split; [intros I; apply A; right; exact I|]. exists (ESym "System`$Aborted"). split; [constructor|]. right. split; [apply A; left; reflexivity|reflexivity].
  - assert (A1 : only ab q) by (intros I; apply A; right; exact I). destruct (H _ _ _ A1 E) as (A' & e & D & p). eauto.
Qed.
Lemma one_seq : forall ab c l, Forall (fun n => sends ab (put_node c n) (node_form (compat c) ab n)) l -> sends ab (put_seq (map (put_node c) l)) (seq_form (compat c) ab l).
Proof.
  intros ab c l F. unfold put_seq. rewrite map_length, map_map.
  eapply sends_weaken; [apply one_fun; [apply all_skip; apply (all_list _ ab _ (fun n e => node_form (compat c) ab n e \/ ab = true /\ e = ESym "System`$Aborted"))|]|].
  - intros n Hn. apply one_element. rewrite Forall_forall in F. auto.
  - intros es G. eapply Forall2_length'; eauto.
  - intros e (es & -> & G). constructor. clear F. induction G as [|n e l es H G IH]; [constructor|]. destruct H as [H|[Ha ->]]; [apply ef_node|apply ef_abort]; auto.
Qed.

(** three arguments *)
Lemma three : forall ab h w1 w2 w3 P1 P2 P3, sends ab w1 P1 -> sends ab w2 P2 -> sends ab w3 P3 ->
  sends ab (wdo [PFun h 3] ;+ w1 ;+ w2 ;+ w3) (fun e => exists a b c, e = fn h [a; b; c] /\ P1 a /\ P2 b /\ P3 c).
Proof.
  intros ab h w1 w2 w3 P1 P2 P3 H1 H2 H3. eapply sends_weaken; [apply one_fun; [apply all_skip; apply all_cons; [exact H1|apply all_cons; [exact H2|apply all_one; exact H3]]|]|].
  - intros es (a & b & -> & _ & a' & b' & -> & _ & e & -> & _). reflexivity.
  - intros e (es & -> & a & b & -> & p1 & a' & b' & -> & p2 & e2 & -> & p3). eauto 8.
Qed.
Lemma three_sym : forall ab h s w2 w3 P2 P3, sends ab w2 P2 -> sends ab w3 P3 ->
  sends ab (wdo [PFun h 3; PSym s] ;+ w2 ;+ w3) (fun e => exists b c, e = fn h [ESym s; b; c] /\ P2 b /\ P3 c).
Proof.
  intros ab h s w2 w3 P2 P3 H2 H3. eapply sends_weaken; [apply one_fun; [apply all_sym, all_skip; apply all_cons; [exact H2|apply all_one; exact H3]|]|].
  - intros es (r & -> & a' & b' & -> & _ & e & -> & _). reflexivity.
  - intros e (es & -> & r & -> & a' & b' & -> & p2 & e2 & -> & p3). eauto 8.
Qed.
Lemma three_code : forall ab h s t w P, sends ab w P -> sends ab (wdo [PFun h 3; PExpr s; PExpr t] ;+ w) (fun e => exists c, e = fn h [s; t; c] /\ P c).
Proof.
  intros ab h s t w P H. eapply sends_weaken; [apply one_fun; [apply all_expr, all_expr, all_skip, all_one; exact H|]|].
  - intros es (r & -> & r' & -> & e & -> & _). reflexivity.
  - intros e (es & -> & r & -> & r' & -> & e2 & -> & p). eauto.
Qed.

Lemma head_same : forall k, op_head k = node_head k.
Proof. intros []; reflexivity. Qed.
Lemma one_token : forall ab c k t s, sends ab (put_token c k t s) (node_form (compat c) ab (NTok k t s)).
Proof.
  intros ab c k t s. unfold put_token. eapply sends_weaken; [apply three; [apply one_kind|apply one_text|apply one_source]|].
  intros e (a & b & d & -> & (ks & Ek & ->) & <- & Hs). constructor; auto.
Qed.
Lemma one_node : forall ab c n, sends ab (put_node c n) (node_form (compat c) ab n).
Proof.
  intros ab c n. induction n as [n IH] using node_ind'. destruct n as [k t src|h m op b|e ch|k op ch|k ch src|x y src]; cbn [node_children] in IH; cbn [put_node].
  - apply one_token.
  - apply one_lift. intros src Es. apply node_extent in Es. apply Forall_app in IH as [IH1 IH2].
    eapply sends_weaken; [apply three; [|apply one_lift; intros bsrc Eb; apply nodes_extents in Eb; eapply sends_weaken; [apply three; [apply one_operator|apply one_seq; exact IH2|apply one_source]|]|apply one_source]|].
    + instantiate (1 := head_form (compat c) ab h). destruct h as [l|x].
      * eapply sends_weaken; [apply one_seq; exact IH1|]. intros e H. constructor. exact H.
      * apply Forall_cons_iff in IH1 as [IH1 _]. eapply sends_weaken; [exact IH1|]. intros e H. constructor. exact H.
    + intros e (a & d & f & -> & (os & Eo & ->) & Hq & Hs). rewrite head_same. instantiate (1 := body_form (compat c) ab m op b). destruct m; cbn [node_head].
      * apply (bf _ _ true) with (src := bsrc); auto.
      * apply (bf _ _ false) with (src := bsrc); auto.
    + intros e (a & d & f & -> & Hh & Hb & Hs). econstructor; eauto.
  - eapply sends_weaken; [apply three_sym; [apply one_seq; exact IH|apply one_lift; intros src Es; apply nodes_extents in Es]|].
    + eapply sends_weaken; [apply one_source|]. intros e' H. instantiate (1 := fun e => exists src, extents ch src /\ source_form (compat c) src e). cbn. eauto.
    + intros e' (a & b & -> & Hq & src & Es & Hs). replace (syntax_error_symbol e) with (error_symbol e) by (destruct e; reflexivity). econstructor; eauto.
  - apply one_lift. intros src Es. apply nodes_extents in Es. rewrite head_same. eapply sends_weaken; [apply three; [apply one_operator|apply one_seq; exact IH|apply one_source]|].
    intros e (a & b & d & -> & (os & Eo & ->) & Hq & Hs). econstructor; eauto.
  - eapply sends_weaken; [apply three; [apply one_box_kind|apply one_seq; exact IH|apply one_source]|].
    intros e (a & b & d & -> & (s & Eo & ->) & Hq & Hs). constructor; auto.
  - eapply sends_weaken; [apply three_code; apply one_source|]. intros e (m & -> & Hs). constructor. exact Hs.
Qed.
Lemma one_nodes : forall ab c l, sends ab (put_nodes c l) (seq_form (compat c) ab l).
Proof. intros ab c l. apply one_seq. apply Forall_forall. intros n _. apply one_node. Qed.

(** *** Issues *)

Lemma one_action : forall ab c a, sends ab (put_action c a) (action_form (compat c) a).
Proof.
  intros ab c a. unfold put_action.
  assert (M : forall l es n, denotes_all l es -> S (length es) = n ->
    sends ab (wdo [PFun "CodeParser`CodeAction" 3; PStr (ac_label a); PSym (fst (action_text (ac_kind a))); PFun "System`Association" n] ;+ put_source c (SSpan (ac_src a)) ;+ wdo l)
      (fun e => exists m, source_form (compat c) (SSpan (ac_src a)) m /\
         e = fn "CodeParser`CodeAction" [EStr (ac_label a); ESym (fst (action_text (ac_kind a))); fn "System`Association" (m :: es)])).
  { intros l es n D L. eapply sends_weaken; [apply one_fun; [apply all_str, all_sym, all_nested; [apply all_skip; apply all_cons; [apply one_source|apply all_do; exact D]|]|]|].
    - intros x (m & b & -> & _ & <-). exact L.
    - intros x (r & -> & r' & -> & r2 & -> & _). reflexivity.
    - intros e (x & -> & r & -> & r' & -> & r2 & -> & m & b & -> & H & <-). eauto. }
  destruct a as [label [t|t|] sp]; cbn [ac_kind ac_label ac_src action_text fst snd] in *.
  - eapply sends_weaken; [apply (M _ [rule (str "ReplacementText") (EStr t)])|].
    + apply denotes_all_one. apply (d_fun _ _ _ [str "ReplacementText"; EStr t]); [|reflexivity]. apply (d_cons [_] _ [_]); [constructor|]. apply (d_cons [_] _ []); constructor.
    + reflexivity.
    + intros e (m & H & ->). apply (af _ (mk_action label (ReplaceText t) sp)). exact H.
  - eapply sends_weaken; [apply (M _ [rule (str "InsertionText") (EStr t)])|].
    + apply denotes_all_one. apply (d_fun _ _ _ [str "InsertionText"; EStr t]); [|reflexivity]. apply (d_cons [_] _ [_]); [constructor|]. apply (d_cons [_] _ []); constructor.
    + reflexivity.
    + intros e (m & H & ->). apply (af _ (mk_action label (InsertText t) sp)). exact H.
  - eapply sends_weaken; [apply (M _ [])|].
    + constructor.
    + reflexivity.
    + intros e (m & H & ->). apply (af _ (mk_action label DeleteText sp)). exact H.
Qed.

Lemma all_when : forall A ab (l : list A) w (P : expr -> Prop), sends ab w P -> sends_all ab (put_when l w) (fun es => length es = nonempty l /\ exists e, es = unless_empty l e /\ (l <> [] -> P e)).
Proof.
  intros A ab l w P H. unfold put_when. destruct l as [|a l].
  - eapply sends_all_weaken; [apply all_do; constructor|]. intros es <-. split; [reflexivity|]. exists (EInt 0). split; [reflexivity|congruence].
  - eapply sends_all_weaken; [apply all_one; exact H|]. intros es (e & -> & p). split; [reflexivity|]. exists e. auto.
Qed.
Lemma one_rule_sym : forall ab s w P, sends ab w P -> sends ab (wdo [PFun "System`Rule" 2; PSym s] ;+ w) (fun e => exists v, e = rule (ESym s) v /\ P v).
Proof.
  intros ab s w P H. eapply sends_weaken; [apply one_fun; [apply all_sym, all_skip, all_one; exact H|]|].
  - intros es (r & -> & e & -> & _). reflexivity.
  - intros e (es & -> & r & -> & v & -> & p). unfold rule. eauto.
Qed.
Lemma one_rule_str : forall ab s w P, sends ab w P -> sends ab (wdo [PFun "System`Rule" 2; PStr (bytes_of_string s)] ;+ w) (fun e => exists v, e = rule (str s) v /\ P v).
Proof.
  intros ab s w P H. eapply sends_weaken; [apply one_fun; [apply all_str, all_skip, all_one; exact H|]|].
  - intros es (r & -> & e & -> & _). reflexivity.
  - intros e (es & -> & r & -> & v & -> & p). unfold rule, str. eauto.
Qed.
Lemma Forall2_eq_map : forall A B (f : A -> B) l m, Forall2 (fun a b => f a = b) l m -> m = map f l.
Proof. intros A B f l m H. induction H; cbn; congruence. Qed.
Lemma one_strings : forall ab l, sends ab (put_list (fun d => wdo [PStr d]) l) (eq (fn "System`List" (map EStr l))).
Proof.
  intros ab l. eapply sends_weaken; [apply (one_list _ ab _ (fun d e => EStr d = e)); intros d _; apply one_do; constructor|].
  intros e (es & -> & F). rewrite (Forall2_eq_map _ _ _ _ _ F). reflexivity.
Qed.
Lemma unless_nil : forall A (l : list A) e1 e2, (l <> [] -> e1 = e2) -> unless_empty l e1 = unless_empty l e2.
Proof. intros A [|a l] e1 e2 H; cbn; [reflexivity|]. rewrite H by discriminate. reflexivity. Qed.
Lemma Forall2_nil_any : forall A B (P : A -> B -> Prop) l (Q : list B -> Prop), (l <> [] -> exists m, Q m /\ Forall2 P l m) -> (l = [] -> Q []) -> exists m, Q m /\ Forall2 P l m.
Proof. intros A B P [|a l] Q H H0; [exists []; auto|apply H; discriminate]. Qed.

Lemma one_issue : forall ab c i, sends ab (put_issue c i) (issue_form (compat c) i).
Proof.
  intros ab c i. unfold put_issue. eapply sends_weaken.
  - apply one_fun; [apply all_str, all_str, all_str, all_nested; [apply all_skip|]|].
    + apply all_cons; [apply one_source|]. apply all_cons; [apply (one_do ab _ (rule (ESym "System`ConfidenceLevel") (EReal (wi_val i)))); apply (d_fun _ _ _ [ESym "System`ConfidenceLevel"; EReal (wi_val i)]); [|reflexivity]; apply (d_cons [_] _ [_]); [constructor|]; apply (d_cons [_] _ []); constructor|].
      apply all_app; [apply all_when, one_rule_sym, (one_list _ ab (put_action c) (action_form (compat c))); intros a _; apply one_action|].
      apply all_app; [apply all_when, one_rule_str, one_strings|].
      apply all_when, one_rule_str, (one_list _ ab (put_source_rhs c) position_form); intros s _; apply one_position.
    + intros es (m & r & -> & _ & a & r1 & -> & _ & x & r2 & -> & [L1 _] & y & z & -> & [L2 _] & [L3 _]). cbn [length]. rewrite !app_length, L1, L2, L3. cbn [Init.Nat.add]. rewrite Nat.add_assoc. reflexivity.
    + intros es (r & -> & r1 & -> & r2 & -> & r3 & -> & _). reflexivity.
  - cbn beta. intros e (es & -> & r & -> & r1 & -> & r2 & -> & r3 & -> & m & r4 & -> & Hm & v & r5 & -> & <- & x & r6 & -> & (_ & ea & -> & Ha) & y & z & -> & (_ & ed & -> & Hd) & (_ & em & -> & He)).
    assert (A1 : exists acts, (wi_actions i <> [] -> ea = rule (ESym "CodeParser`CodeActions") (fn "System`List" acts)) /\ Forall2 (action_form (compat c)) (wi_actions i) acts).
    { apply Forall2_nil_any; [|congruence]. intros N. destruct (Ha N) as (v & -> & acts & -> & F). eauto. }
    assert (A2 : exists more, (wi_more i <> [] -> em = rule (str "AdditionalSources") (fn "System`List" more)) /\ Forall2 position_form (wi_more i) more).
    { apply Forall2_nil_any; [|congruence]. intros N. destruct (He N) as (v & -> & acts & -> & F). eauto. }
    destruct A1 as (acts & Ea & Fa). destruct A2 as (more & Em & Fm).
    rewrite (unless_nil _ _ _ _ Ea), (unless_nil _ _ _ _ Em).
    rewrite (unless_nil _ _ ed (rule (str "AdditionalDescriptions") (fn "System`List" (map EStr (wi_descs i))))) by (intros N; destruct (Hd N) as (v & -> & <-); reflexivity).
    apply (if_ (compat c) i m acts more); auto.
Qed.

(** *** Containers and results *)

Lemma all_opt : forall A ab (o : option A) (f : A -> W) (P : A -> expr -> Prop), (forall a, sends ab (f a) (P a)) ->
  sends_all ab (wopt o f) (fun es => length es = someness o /\ match o with Some a => exists e, es = [e] /\ P a e | None => es = [] end).
Proof.
  intros A ab [a|] f P H; cbn [wopt someness].
  - eapply sends_all_weaken; [apply all_one, H|]. intros es (e & -> & p). split; [reflexivity|eauto].
  - eapply sends_all_weaken; [apply all_do; constructor|]. intros es <-. auto.
Qed.
Lemma one_field : forall ab name e, sends ab (wdo [PFun "System`Rule" 2; PStr (bytes_of_string name); PExpr e]) (eq (rule (str name) e)).
Proof. intros ab name e. apply one_do. apply (d_fun _ _ _ [str name; e]); [|reflexivity]. apply (d_cons [_] _ [_]); [constructor|]. apply (d_cons [_] _ []); constructor. Qed.
Lemma given_field : forall (o : option expr) f es, match o with Some a => exists e, es = [e] /\ f a = e | None => es = [] end -> es = given o f.
Proof. intros [a|] f es H; cbn [given]; [destruct H as (e & -> & <-); reflexivity|exact H]. Qed.

Lemma one_metadata : forall ab c m, sends ab (put_metadata c m) (meta_form (compat c) m).
Proof.
  intros ab c m. unfold put_metadata. eapply sends_weaken.
  - apply one_fun; [apply all_skip|].
    + apply all_app; [apply (all_opt _ ab _ _ (fun l e => exists es, e = rule (ESym "CodeParser`SyntaxIssues") (fn "System`List" es) /\ Forall2 (issue_form (compat c)) l es))|].
      { intros l. eapply sends_weaken; [apply one_rule_sym, (one_list _ ab (put_issue c) (issue_form (compat c))); intros i _; apply one_issue|]. intros e (v & -> & es & -> & F). eauto. }
      apply all_app; [apply (all_opt _ ab _ _ (fun e x => rule (str "EmbeddedTabs") e = x)); intros e; apply one_field|].
      apply all_app; [apply (all_opt _ ab _ _ (fun e x => rule (str "EmbeddedNewlines") e = x)); intros e; apply one_field|].
      apply all_app; [apply (all_opt _ ab _ _ (fun e x => rule (str "SimpleLineContinuations") e = x)); intros e; apply one_field|].
      apply all_app; [apply (all_opt _ ab _ _ (fun e x => rule (str "ComplexLineContinuations") e = x)); intros e; apply one_field|].
      apply all_app; [apply all_rule|].
      apply all_app; [apply (all_opt _ ab _ _ (fun n x => number_form n = x)); intros n; apply one_do; destruct n; constructor|].
      apply all_app; [apply (all_opt _ ab _ _ (fun l e => exists es, e = rule (ESym "CodeParser`CodeActions") (fn "System`List" es) /\ Forall2 (action_form (compat c)) l es))|].
      { intros l. eapply sends_weaken; [apply one_rule_sym, (one_list _ ab (put_action c) (action_form (compat c))); intros i _; apply one_action|]. intros e (v & -> & es & -> & F). eauto. }
      apply all_app; [apply (all_opt _ ab _ _ (fun l e => rule (str "AdditionalDescriptions") (fn "System`List" (map EStr l)) = e))|].
      { intros l. eapply sends_weaken; [apply one_rule_str, one_strings|]. intros e (v & -> & <-). reflexivity. }
      apply (all_opt _ ab _ _ (fun e x => rule (str "FileName") e = x)); intros e; apply one_field.
    + intros es (x1 & r1 & -> & [L1 _] & x2 & r2 & -> & [L2 _] & x3 & r3 & -> & [L3 _] & x4 & r4 & -> & [L4 _] & x5 & r5 & -> & [L5 _] & x6 & r6 & -> & [_ L6] & x7 & r7 & -> & [L7 _] & x8 & r8 & -> & [L8 _] & x9 & r9 & -> & [L9 _] & [L10 _]).
      rewrite !app_length. lia.
  - cbn beta. intros e (es & -> & x1 & r1 & -> & [_ H1] & x2 & r2 & -> & [_ H2] & x3 & r3 & -> & [_ H3] & x4 & r4 & -> & [_ H4] & x5 & r5 & -> & [_ H5] & x6 & r6 & -> & [H6 _] & x7 & r7 & -> & [_ H7] & x8 & r8 & -> & [_ H8] & x9 & r9 & -> & [_ H9] & [_ H10]).
    apply given_field in H2, H3, H4, H5, H10. subst.
    assert (A7 : x7 = given (md_conf m) number_form) by (destruct (md_conf m); cbn [given]; [destruct H7 as (e & -> & <-); reflexivity|exact H7]).
    assert (A9 : x9 = given (md_descs m) (fun l => rule (str "AdditionalDescriptions") (fn "System`List" (map EStr l)))) by (destruct (md_descs m); cbn [given]; [destruct H9 as (e & -> & <-); reflexivity|exact H9]).
    assert (A1 : exists issues, x1 = given (md_issues m) (fun _ => rule (ESym "CodeParser`SyntaxIssues") (fn "System`List" issues)) /\ Forall2 (issue_form (compat c)) (match md_issues m with Some l => l | None => [] end) issues).
    { destruct (md_issues m) as [l|]; cbn [given]; [destruct H1 as (e & -> & l' & -> & F); eauto|exists []; auto]. }
    assert (A8 : exists actions, x8 = given (md_actions m) (fun _ => rule (ESym "CodeParser`CodeActions") (fn "System`List" actions)) /\ Forall2 (action_form (compat c)) (match md_actions m with Some l => l | None => [] end) actions).
    { destruct (md_actions m) as [l|]; cbn [given]; [destruct H8 as (e & -> & l' & -> & F); eauto|exists []; auto]. }
    destruct A1 as (issues & -> & F1). destruct A8 as (actions & -> & F8). subst. apply (mf (compat c) m x6 issues actions); auto.
Qed.
Lemma one_missing : forall ab r, sends ab (wdo [PFun "System`Missing" 1; PStr (missing_text r)]) (eq (missing_form r)).
Proof. intros ab r. apply one_do. replace (missing_form r) with (fn "System`Missing" [EStr (missing_text r)]) by (destruct r; reflexivity). apply d_fun; [|reflexivity]. apply denotes_all_one. constructor. Qed.
Lemma one_container : forall ab c x, sends ab (put_container c x) (container_form (compat c) ab x).
Proof.
  intros ab c [k b m]. unfold put_container. cbn [ct_kind ct_body ct_meta]. replace (container_symbol k) with (kind_symbol k) by (destruct k; reflexivity). destruct b as [l|r]; cbn [put_body].
  - eapply sends_weaken; [apply three_sym; [apply one_nodes|apply one_metadata]|]. intros e (a & b & -> & H1 & H2). constructor; auto.
  - eapply sends_weaken; [apply three_sym; [|apply one_metadata]|].
    + apply (one_do ab _ (fn "System`List" [missing_form r])). apply d_fun; [|reflexivity]. apply denotes_all_one.
      replace (missing_form r) with (fn "System`Missing" [EStr (missing_text r)]) by (destruct r; reflexivity). apply d_fun; [|reflexivity]. apply denotes_all_one. constructor.
    + intros e (a & b & -> & <- & H2). constructor; auto.
Qed.
Lemma one_locations : forall ab l, sends ab (put_locations l) (eq (fn "System`List" (map place_form l))).
Proof.
  intros ab l. apply one_do. apply d_fun; [|apply map_length]. induction l as [|a l IH]; cbn [map concat]; [constructor|]. constructor; [apply place_denotes|exact IH].
Qed.
Lemma one_result : forall ab c r, sends ab (put_result c r) (result_form (compat c) ab r).
Proof.
  intros ab c r. unfold put_result. destruct (r_tracked r) as [[[a1 a2] a3] a4] eqn:Et.
  assert (H : sends ab match r_unsafe r with None => put_nodes c (r_syntax r) | Some u => wdo (PFun "System`List" 1 :: put_unsafe u) end
    (fun e => match r_unsafe r with None => seq_form (compat c) ab (r_syntax r) e | Some u => e = fn "System`List" [missing_form (UnsafeEncoding u)] end)).
  { destruct (r_unsafe r) as [u|]; [|apply one_nodes]. eapply sends_weaken; [apply one_do; apply (d_fun _ _ _ [missing_form (UnsafeEncoding u)]); [|reflexivity]|].
    - apply denotes_all_one. apply d_fun; [|reflexivity]. apply denotes_all_one. constructor.
    - intros e <-. reflexivity. }
  eapply sends_weaken; [apply one_fun; [apply all_skip; apply all_cons; [exact H|apply all_cons; [apply (one_list _ ab (put_issue c) (issue_form (compat c))); intros i _; apply one_issue|]]|]|].
  - apply all_cons; [apply one_locations|]. apply all_cons; [apply one_locations|]. apply all_cons; [apply one_locations|]. apply all_one, one_locations.
  - intros es (x1 & r1 & -> & _ & x2 & r2 & -> & _ & x3 & r3 & -> & _ & x4 & r4 & -> & _ & x5 & r5 & -> & _ & x6 & -> & _). reflexivity.
  - intros e (es & -> & x1 & r1 & -> & H1 & x2 & r2 & -> & (is & -> & H2) & x3 & r3 & -> & <- & x4 & r4 & -> & <- & x5 & r5 & -> & <- & x6 & -> & <-).
    apply (rf (compat c) ab r x1 is a1 a2 a3 a4); auto. destruct (r_fatal r); exact H2.
Qed.

(** *** Abstract syntax trees *)

Lemma one_ameta : forall ab c fl m, sends ab (put_ameta c fl m) (ameta_form (compat c) fl m).
Proof.
  intros ab c fl m. unfold put_ameta. eapply sends_weaken; [apply one_fun; [apply all_skip; apply all_app; [apply all_rule|apply all_when, one_rule_sym, (one_list _ ab _ (fun i => issue_form (compat c) (of_aissue fl i))); intros i _; apply one_issue]|]|].
  - intros es (a & b & -> & [_ L1] & L2 & _). rewrite app_length. lia.
  - intros e (es & -> & a & b & -> & [H1 _] & _ & ei & -> & Hi).
    assert (A : exists issues, (m_issues m <> [] -> ei = rule (ESym "CodeParser`AbstractSyntaxIssues") (fn "System`List" issues)) /\ Forall2 (fun i => issue_form (compat c) (of_aissue fl i)) (m_issues m) issues).
    { apply Forall2_nil_any; [|congruence]. intros N. destruct (Hi N) as (v & -> & is & -> & F). eauto. }
    destruct A as (issues & E & F). rewrite (unless_nil _ _ _ _ E). apply (amf (compat c) fl m a issues); [exact H1|].
    clear -F. induction F; cbn [map]; constructor; auto.
Qed.

Definition ast_children (a : ast) : list ast :=
  match a with
  | ALeaf _ _ _ | AError _ _ _ | ACode _ _ _ => []
  | ACall h l _ | ACallMissingCloser h l _ => h :: l
  | ASyntaxError _ l _ | AAbstractSyntaxError _ l _ | ABox _ l _ | AGroupMissingCloser _ l _ | AGroupMissingOpener _ l _ => l
  | AGroup _ o b c _ => [o; b; c]
  | ATagBoxGroupParen o b c _ _ _ _ _ => [o; b; c]
  | APrefixLinearSyntaxBang x y _ => [x; y]
  end.
Lemma ast_ind_children : forall P : ast -> Prop, (forall n, Forall P (ast_children n) -> P n) -> forall n, P n.
Proof.
  intros P H. fix F 1. intros n. apply H.
  assert (G : forall l : list ast, Forall P l) by (fix G 1; intros [|a l]; [constructor|constructor; [apply F|apply G]]).
  destruct n; cbn [ast_children]; try apply G; try (constructor; [apply F|apply G]); repeat (constructor; [apply F|]); constructor.
Qed.
Lemma asts_list : forall ab c fl l, Forall (fun a => sends ab (put_ast c fl a) (ast_form (compat c) fl a)) l ->
  sends ab (wdo [PFun "System`List" (length l)] ;+ wall (map (put_ast c fl) l)) (fun e => exists es, e = fn "System`List" es /\ asts_form (compat c) fl l es).
Proof.
  intros ab c fl l F. eapply sends_weaken; [apply (one_list _ ab (put_ast c fl) (ast_form (compat c) fl)); rewrite Forall_forall in F; exact F|].
  intros e (es & -> & G). exists es. split; [reflexivity|]. clear F. induction G; constructor; auto.
Qed.
Lemma group_list : forall ab c fl o b cl, Forall (fun a => sends ab (put_ast c fl a) (ast_form (compat c) fl a)) [o; b; cl] ->
  sends ab (wdo [PFun "System`List" 3] ;+ put_ast c fl o ;+ put_ast c fl b ;+ put_ast c fl cl) (fun e => exists es, e = fn "System`List" es /\ asts_form (compat c) fl [o; b; cl] es).
Proof.
  intros ab c fl o b cl F. apply Forall_cons_iff in F as [F1 F]. apply Forall_cons_iff in F as [F2 F]. apply Forall_cons_iff in F as [F3 _].
  eapply sends_weaken; [apply three; eassumption|]. intros e (x & y & z & -> & H1 & H2 & H3). exists [x; y; z]. split; [reflexivity|]. repeat constructor; assumption.
Qed.
Lemma one_ast : forall ab c fl a, sends ab (put_ast c fl a) (ast_form (compat c) fl a).
Proof.
  intros ab c fl a. induction a as [a IH] using ast_ind_children. destruct a; cbn [ast_children] in IH; cbn [put_ast].
  - eapply sends_weaken; [apply three; [apply one_kind|apply one_text|apply one_ameta]|]. intros e (x & y & z & -> & (ks & Ek & ->) & <- & H). constructor; auto.
  - eapply sends_weaken; [apply three; [apply one_kind|apply one_text|apply one_ameta]|]. intros e (x & y & z & -> & (ks & Ek & ->) & <- & H). constructor; auto.
  - apply Forall_cons_iff in IH as [I1 I2]. eapply sends_weaken; [apply three; [exact I1|apply asts_list; exact I2|apply one_ameta]|]. intros e (x & y & z & -> & H1 & (es & -> & H2) & H3). constructor; auto.
  - apply Forall_cons_iff in IH as [I1 I2]. eapply sends_weaken; [apply three; [exact I1|apply asts_list; exact I2|apply one_ameta]|]. intros e (x & y & z & -> & H1 & (es & -> & H2) & H3). constructor; auto.
  - match goal with |- context [syntax_error_symbol ?k] => replace (syntax_error_symbol k) with (error_symbol k) by (destruct k; reflexivity) end.
    eapply sends_weaken; [apply three_sym; [apply asts_list; exact IH|apply one_ameta]|]. intros e (y & z & -> & (es & -> & H2) & H3). constructor; auto.
  - match goal with |- context [abstract_error_name ?k] => replace ("AbstractSyntaxError`" ++ abstract_error_name k)%string with (abstract_error_symbol k) by (destruct k; reflexivity) end.
    eapply sends_weaken; [apply three_sym; [apply asts_list; exact IH|apply one_ameta]|]. intros e (y & z & -> & (es & -> & H2) & H3). constructor; auto.
  - eapply sends_weaken; [apply three; [apply one_box_kind|apply asts_list; exact IH|apply one_ameta]|]. intros e (x & y & z & -> & (s & H1 & ->) & (es & -> & H2) & H3). constructor; auto.
  - eapply sends_weaken; [apply three_code, one_ameta|]. intros e (m & -> & H). constructor. exact H.
  - eapply sends_weaken; [apply three; [apply one_operator|apply group_list; exact IH|apply one_ameta]|]. intros e (x & y & z & -> & (os & H1 & ->) & (es & -> & H2) & H3). constructor; auto.
  - eapply sends_weaken; [apply three; [apply one_operator|apply asts_list; exact IH|apply one_ameta]|]. intros e (x & y & z & -> & (os & H1 & ->) & (es & -> & H2) & H3). constructor; auto.
  - eapply sends_weaken; [apply three; [apply one_operator|apply asts_list; exact IH|apply one_ameta]|]. intros e (x & y & z & -> & (os & H1 & ->) & (es & -> & H2) & H3). constructor; auto.
  - eapply sends_weaken; [apply three; [apply one_box_kind| |apply one_ameta]|].
    + apply one_fun; [apply all_skip; apply all_cons; [apply three; [apply one_operator|apply group_list; exact IH|apply one_source]|apply all_one, three_code, one_source]|].
      intros es (x & y & -> & _ & e & -> & _). reflexivity.
    + intros e (x & y & z & -> & (s & Hs & ->) & (es0 & -> & u & v & -> & (u1 & u2 & u3 & -> & (os & Ho & ->) & (es & -> & H2) & H3) & w & -> & m2 & -> & H4) & H5).
      cbn in Hs. subst s. vm_compute in Ho. injection Ho as <-. apply asf_tag_box; auto.
  - eapply sends_weaken; [apply three; [apply one_operator| |apply one_ameta]|].
    + apply Forall_cons_iff in IH as [I1 IH]. apply Forall_cons_iff in IH as [I2 _]. apply one_fun; [apply all_skip; apply all_cons; [exact I1|apply all_one; exact I2]|].
      intros es (x & y & -> & _ & e & -> & _). reflexivity.
    + intros e (x & y & z & -> & (os & Ho & ->) & (es & -> & u & v & -> & H1 & w & -> & H2) & H3). vm_compute in Ho. injection Ho as <-. apply asf_linear_bang; auto. repeat constructor; assumption.
Qed.
