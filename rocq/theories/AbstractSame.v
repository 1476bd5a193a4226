(** What the result of abstraction does not depend on. *)
From Coq Require Import String.
From Coq Require Import ZArith List Bool Lia.
From Verif Require Import Base Source SpecText SpecReader SpecTokenizer LongNames GenTokenKind TokenKind Tokenizer GenOps Cst SpecCst CstProofs Parser SpecParser SpecParse ParserTheorems
  Ast Abstract SpecAbstract SpecMove AbstractProofs AbstractShape AbstractTotal AbstractTheorems AbstractMap.
Import ListNotations.
Local Open Scope list_scope.
Local Open Scope Z_scope.

Lemma derivative_unknown : forall o rec n data a, derivative_node n = true -> abstract_node o rec n data = Ok a -> m_src (metadata a) = Unknown.
Proof.
  intros o rec n data a D E. destruct n as [t|h m op ch|e ch|k op ch|b ch src|x y src]; try discriminate D. destruct k; try discriminate D. cbn in D. cbn [abstract_node] in E. unfold abstract_postfix in E.
  apply Z.eqb_eq in D. subst op. destruct ch as [|x [|y [|? ?]]]; try discriminate E. change (POSTOP_Derivative =? POSTOP_HermitianConjugate) with false in E. change (POSTOP_Derivative =? POSTOP_Derivative) with true in E. cbv iota zeta in E.
  destruct y as [t| | | | |]; try discriminate E. destruct (_ =? _).
  - apply rbind_Ok in E as ([z b] & _ & E). injection E as <-. reflexivity.
  - destruct (_ =? _); [|discriminate E]. apply rbind_Ok in E as (s & _ & E). apply rbind_Ok in E as (b & _ & E). injection E as <-. reflexivity.
Qed.
Lemma source_unchecked : forall n a data, derivative_node n = true -> m_src (metadata a) = Unknown -> source_checked n a data = false.
Proof. intros n a data D E. destruct n as [t|h m op ch|e ch|k op ch|b ch src|x y src]; try discriminate D. destruct k; try discriminate D. cbn [source_checked]. rewrite E. reflexivity. Qed.

Section same.
  Variables (g : token -> token) (sg : span -> span).
  Hypothesis g_kind : forall t, t_kind (g t) = t_kind t.
  Hypothesis g_text : forall t, t_text (g t) = t_text t.
  Hypothesis g_src : forall t, t_src (g t) = sg (t_src t).
  Variable P : cst -> Prop.
  Hypothesis closed : forall m k, P m -> In k (nodes m) -> P k.
  Hypothesis Hsrc : forall m, P m -> get_source (move g sg m) = rmap sg (get_source m).
  Hypothesis Hpair : forall op ch k t b s, P (Op KInfix op ch) -> nth_error ch (2 * k + 1) = Some (Tok t) -> nth_error ch (2 * k + 2) = Some b -> get_source b = Ok s ->
    span_between (sg (t_src t)) (sg s) = rmap sg (span_between (t_src t) s).

  Lemma move_derivative : forall n, derivative_node (move g sg n) = derivative_node n.
  Proof. intros n. destruct n as [t|[l|h] m op ch|e ch|k op ch|b ch src|x y src]; reflexivity. Qed.
  Lemma abstract_move : forall o k k' n, (k <= k')%nat -> P n -> lk (move_ast sg) (abstract_ o k n) (abstract_ o k' (move g sg n)).
  Proof.
    intros o k. induction k as [|k IH]; intros k' n L H; [exact I|]. destruct k' as [|k']; [lia|]. cbn [abstract_]. eapply lk_bind; [apply lk_eq, Hsrc, H|]. intros data Ed.
    assert (K : lk (move_ast sg) (abstract_node o (abstract_ o k) n data) (abstract_node o (abstract_ o k') (move g sg n) (sg data))).
    { apply (m_node g sg g_kind g_text g_src o (abstract_ o k) (abstract_ o k') P closed Hsrc Hpair); [|exact H]. intros m Hm. apply IH; [lia|exact Hm]. }
    destruct (abstract_node o (abstract_ o k) n data) as [a| |] eqn:E; [|cbn in K; cbn [rbind]; rewrite K; reflexivity|exact I]. cbn in K. cbn [rbind]. rewrite K. cbn [rbind].
    assert (S : source_checked (move g sg n) (move_ast sg a) (sg data) = source_checked n a data).
    { destruct (derivative_node n) eqn:D.
      - pose proof (derivative_unknown _ _ _ _ _ D E) as U1. rewrite (source_unchecked n a data D U1). assert (D2 : derivative_node (move g sg n) = true) by (rewrite move_derivative; exact D). apply source_unchecked; [exact D2|]. exact (derivative_unknown _ _ _ _ _ D2 K).
      - rewrite (source_checked_ok _ _ _ _ _ Ed D E). apply (source_checked_ok o (abstract_ o k') _ _ _); [rewrite (Hsrc n H), Ed; reflexivity|rewrite move_derivative; exact D|exact K]. }
    rewrite S. destruct (a_dbg o && negb (source_checked n a data)); reflexivity.
  Qed.
End same.

(** ** Trees moved nowhere *)
Lemma ast_ind' : forall P : ast -> Prop,
  (forall k s d, P (ALeaf k s d)) -> (forall k s d, P (AError k s d)) ->
  (forall h l d, P h -> Forall P l -> P (ACall h l d)) -> (forall h l d, P h -> Forall P l -> P (ACallMissingCloser h l d)) ->
  (forall e l d, Forall P l -> P (ASyntaxError e l d)) -> (forall e l d, Forall P l -> P (AAbstractSyntaxError e l d)) ->
  (forall k l d, Forall P l -> P (ABox k l d)) -> (forall a b d, P (ACode a b d)) ->
  (forall k x b c d, P x -> P b -> P c -> P (AGroup k x b c d)) ->
  (forall k l d, Forall P l -> P (AGroupMissingCloser k l d)) -> (forall k l d, Forall P l -> P (AGroupMissingOpener k l d)) ->
  (forall x b c s f1 f2 ts d, P x -> P b -> P c -> P (ATagBoxGroupParen x b c s f1 f2 ts d)) ->
  (forall a b d, P a -> P b -> P (APrefixLinearSyntaxBang a b d)) ->
  forall a, P a.
Proof.
  intros P H1 H2 H3 H4 H5 H6 H7 H8 H9 H10 H11 H12 H13. fix F 1. intros a.
  assert (L : forall l, Forall P l) by (fix G 1; intros [|x l]; constructor; [apply F|apply G]).
  destruct a; [apply H1|apply H2|apply H3|apply H4|apply H5|apply H6|apply H7|apply H8|apply H9|apply H10|apply H11|apply H12|apply H13]; auto.
Qed.
Lemma map_same : forall A (f : A -> A) l, Forall (fun a => f a = a) l -> map f l = l.
Proof. intros A f l H. induction H; cbn; congruence. Qed.
Lemma move_id : forall n, move (fun t => t) (fun s => s) n = n.
Proof.
  apply cst_ind'. intros n IH. destruct n as [t|[l|h] m op ch|e ch|k op ch|b ch src|x y src]; cbn [move children] in *; try reflexivity.
  - apply Forall_app in IH as [I1 I2]. rewrite !map_same; auto.
  - apply Forall_cons_iff in IH as [I1 I2]. rewrite I1, map_same; auto.
  - rewrite map_same; auto.
  - rewrite map_same; auto.
  - rewrite map_same; auto.
Qed.
Lemma move_source_id : forall s, move_source (fun s => s) s = s.  Proof. intros []; reflexivity. Qed.
Lemma move_meta_id : forall d, move_meta (fun s => s) d = d.
Proof.
  intros [s l]. unfold move_meta. cbn. rewrite move_source_id, map_same; auto. apply Forall_forall. intros [t v x c m] _. unfold move_issue. cbn. rewrite move_source_id, map_same; auto. apply Forall_forall. intros. apply move_source_id.
Qed.
Lemma move_ast_id : forall a, move_ast (fun s => s) a = a.
Proof. intros a. induction a using ast_ind'; cbn [move_ast]; rewrite ?move_meta_id, ?move_source_id; try (rewrite map_same by assumption); congruence. Qed.
Lemma rmap_same : forall A (f : A -> A) r, (forall a, f a = a) -> rmap f r = r.
Proof. intros A f [a| |] H; cbn; congruence. Qed.
Lemma fuel_more : forall o k k' n, (k <= k')%nat -> abstract_ o k n <> OutOfFuel -> abstract_ o k' n = abstract_ o k n.
Proof.
  intros o k k' n L H. pose proof (abstract_move (fun t => t) (fun s => s) (fun _ => eq_refl) (fun _ => eq_refl) (fun _ => eq_refl) (fun _ => True) (fun _ _ _ _ => I)) as K.
  assert (S : forall r : res span, rmap (fun s => s) r = r) by (intros r; apply rmap_same; auto).
  specialize (K (fun m _ => eq_trans (f_equal get_source (move_id m)) (eq_sym (S _))) (fun _ _ _ _ _ _ _ _ _ _ => eq_sym (S _)) o k k' n L I). rewrite move_id in K. unfold lk in K.
  destruct (abstract_ o k n) as [a| |]; [rewrite K; cbn; rewrite move_ast_id; reflexivity|exact K|contradiction].
Qed.
Theorem fuel_enough : forall o k n, (size n <= k)%nat -> abstract_ o k n = abstract_cst o n.
Proof. intros o k n L. apply fuel_more; [exact L|]. apply abstract_nf. apply Nat.le_refl. Qed.

(** ** Moving in order *)
Lemma in_order_between : forall h, in_order h -> forall a b, span_between (span_to h a) (span_to h b) = rmap (span_to h) (span_between a b).
Proof. intros h H a b. unfold span_between, span_to at 1 2 3, Span_new. cbn. rewrite !H. destruct (loc_leb (sp_start a) (sp_start b)) as [[]|]; try reflexivity. destruct (loc_leb (sp_start a) (sp_end b)) as [[]|]; reflexivity. Qed.
Lemma last_res_map : forall A (l : list (res A)) f, last (map (rmap f) l) Panic = rmap f (last l Panic) :> res A.
Proof. intros A l f. induction l as [|a l IH]; [reflexivity|]. destruct l; [reflexivity|]. exact IH. Qed.
Lemma between_map : forall h, in_order h -> forall l, sources_between (map (rmap (span_to h)) l) = rmap (span_to h) (sources_between l).
Proof.
  intros h H l. unfold sources_between. destruct l as [|a l]; [reflexivity|]. cbn [map]. change (rmap (span_to h) a :: map (rmap (span_to h)) l) with (map (rmap (span_to h)) (a :: l)). rewrite last_res_map.
  destruct a as [a| |]; try reflexivity. cbn [rbind rmap]. destruct (last _ _) as [b| |]; try reflexivity. cbn [rbind rmap]. apply in_order_between, H.
Qed.
Lemma shift_source : forall h, in_order h -> forall n, get_source (shift h n) = rmap (span_to h) (get_source n).
Proof.
  intros h H. assert (L : forall l, Forall (fun m => get_source (shift h m) = rmap (span_to h) (get_source m)) l -> map get_source (map (shift h) l) = map (rmap (span_to h)) (map get_source l)).
  { intros l F. rewrite !map_map. apply map_ext_in. rewrite Forall_forall in F. exact F. }
  apply cst_ind'. intros n IH. destruct n as [t|[l|m] mi op ch|e ch|k op ch|b ch src|x y src]; try reflexivity.
  - rewrite children_call in IH. apply Forall_app in IH as [I1 I2]. unfold shift. cbn [move get_source]. fold (shift h). rewrite (L ch I2). rewrite between_map by exact H. destruct l as [|a l]; [reflexivity|]. cbn [map]. apply Forall_cons_iff in I1 as [I1 _]. rewrite I1.
    destruct (get_source a) as [s| |]; try reflexivity. cbn [rbind rmap]. destruct (sources_between _) as [s2| |]; try reflexivity. apply in_order_between, H.
  - rewrite children_call in IH. apply Forall_app in IH as [I1 I2]. unfold shift. cbn [move get_source]. fold (shift h). rewrite (L ch I2). rewrite between_map by exact H. apply Forall_cons_iff in I1 as [I1 _]. rewrite I1.
    destruct (get_source m) as [s| |]; try reflexivity. cbn [rbind rmap]. destruct (sources_between _) as [s2| |]; try reflexivity. apply in_order_between, H.
  - unfold shift. cbn [move get_source children] in *. fold (shift h). rewrite (L ch IH). apply between_map, H.
  - unfold shift. cbn [move get_source children] in *. fold (shift h). rewrite (L ch IH). apply between_map, H.
Qed.
Lemma move_size : forall g sg n, size (move g sg n) = size n.
Proof.
  intros g sg. apply cst_ind'. intros n IH.
  assert (L : forall l, Forall (fun m => size (move g sg m) = size m) l -> sum (map (move g sg) l) = sum l) by (intros l F; induction F as [|a l Ha F IHF]; [reflexivity|]; cbn; rewrite Ha; f_equal; exact IHF).
  rewrite !size_eq. f_equal. destruct n as [t|[l|m] mi op ch|e ch|k op ch|b ch src|x y src]; cbn [move children]; try reflexivity; try (apply L; exact IH).
  - rewrite <- map_app. apply L. exact IH.
  - rewrite children_call in *. cbn [head_nodes app] in *. change (move g sg m :: map (move g sg) ch) with (map (move g sg) (m :: ch)). apply L. exact IH.
Qed.
Theorem abstract_shift : forall h, in_order h -> forall o n, abstract_cst o (shift h n) = rmap (shift_ast h) (abstract_cst o n).
Proof.
  intros h H o n. unfold abstract_cst. unfold shift at 1. rewrite move_size.
  pose proof (abstract_move (token_to h) (span_to h) (fun _ => eq_refl) (fun _ => eq_refl) (fun _ => eq_refl) (fun _ => True) (fun _ _ _ _ => I) (fun m _ => shift_source h H m)
    (fun _ _ _ _ _ _ _ _ _ _ => in_order_between h H _ _) o (size n) (size n) n (Nat.le_refl _) I) as K. pose proof (abstract_nf o (size n) n (Nat.le_refl _)) as N. unfold lk in K. destruct (abstract_ o (size n) n); [exact K|exact K|contradiction N; reflexivity].
Qed.

(** ** Forgetting positions *)
Lemma nowhere_between : span_between nowhere nowhere = Ok nowhere.  Proof. reflexivity. Qed.
Lemma sources_nowhere : forall l, l <> [] -> Forall (fun r => r = Ok nowhere) l -> sources_between l = Ok nowhere.
Proof.
  intros l N H. assert (K : forall k, k <> [] -> Forall (fun r => r = Ok nowhere) k -> last k Panic = Ok nowhere).
  { intros k Nk F. induction F as [|x k Hx F IH]; [contradiction|]. destruct k; [exact Hx|]. apply IH. discriminate. }
  unfold sources_between. destruct l as [|a l]; [contradiction|]. rewrite (K (a :: l) N H). apply Forall_cons_iff in H as [-> _]. reflexivity.
Qed.
Lemma forget_source : forall n, solid n -> get_source (forget n) = Ok nowhere.
Proof.
  assert (L : forall l, Forall (fun m => solid m -> get_source (forget m) = Ok nowhere) l -> Forall solid l -> l <> [] -> sources_between (map get_source (map forget l)) = Ok nowhere).
  { intros l F S N. apply sources_nowhere; [destruct l; [contradiction|discriminate]|]. rewrite map_map. apply Forall_forall. intros r Hr. apply in_map_iff in Hr as (m & <- & Hm). rewrite Forall_forall in F, S. auto. }
  apply (cst_ind' (fun n => solid n -> get_source (forget n) = Ok nowhere)). intros n IH S. destruct S as [t|h m op body N1 N2 S1 S2|e ch N1 S1|k op ch N1 S1].
  - reflexivity.
  - rewrite children_call in IH. apply Forall_app in IH as [I1 I2]. destruct h as [l|x]; unfold forget; cbn [move get_source]; fold forget; rewrite (L body I2 S2 N2).
    + destruct l as [|a l]; [contradiction|]. cbn [map]. apply Forall_cons_iff in I1 as [I1 _]. apply Forall_cons_iff in S1 as [S1 _]. rewrite (I1 S1). reflexivity.
    + apply Forall_cons_iff in I1 as [I1 _]. apply Forall_cons_iff in S1 as [S1 _]. rewrite (I1 S1). reflexivity.
  - unfold forget. cbn [move get_source]. fold forget. apply L; auto.
  - unfold forget. cbn [move get_source]. fold forget. apply L; auto.
Qed.
Lemma good_pair : forall op ch k t b s, good (Op KInfix op ch) -> nth_error ch (2 * k + 1) = Some (Tok t) -> nth_error ch (2 * k + 2) = Some b -> get_source b = Ok s ->
  exists s2, span_between (t_src t) s = Ok s2.
Proof.
  intros op ch k t b s H H1 H2 E0. replace (2 * k + 2)%nat with (S (2 * k + 1)) in H2 by lia.
  assert (E : exists l1 l2, ch = l1 ++ Tok t :: b :: l2).
  { revert H1 H2. generalize (2 * k + 1)%nat as j. clear. induction ch as [|x ch IH]; intros [|j] H1 H2; try discriminate H1.
    - injection H1 as ->. destruct ch as [|y ch]; [discriminate H2|]. injection H2 as ->. exists [], ch. reflexivity.
    - destruct (IH j H1 H2) as (l1 & l2 & ->). exists (x :: l1), l2. reflexivity. }
  destruct E as (l1 & l2 & E). destruct H as (F & _ & a & e & Sp). rewrite toks_eq in Sp by discriminate. cbn [children] in Sp. rewrite E, flat_map_app in Sp. cbn [flat_map toks] in Sp.
  apply spaced_app in Sp as (m1 & _ & Sp). inversion Sp as [|? ? ? ? S1 S2 S3]; subst. apply spaced_app in S3 as (m2 & S3 & _).
  assert (Hb : Forall fits (nodes b)). { rewrite Forall_forall in *. intros c Hc. apply F. eapply nodes_trans; [apply child_nodes|exact Hc]. cbn [children]. apply in_or_app. right. right. left. reflexivity. }
  destruct (get_source_spaced b _ _ (fits_solid b Hb) S3) as (s' & Es & _ & L1 & L2 & _). rewrite Es in E0. injection E0 as <-. eexists. apply between_spaced; [|exact L2]. eapply loc_leb_trans; [exact S2|exact L1].
Qed.
Theorem abstract_forget : forall o n, good n -> abstract_cst o (forget n) = rmap forget_ast (abstract_cst o n).
Proof.
  intros o n G. unfold abstract_cst. unfold forget at 1. rewrite move_size.
  assert (K : lk forget_ast (abstract_ o (size n) n) (abstract_ o (size n) (forget n))).
  { apply (abstract_move unplaced (fun _ => nowhere) (fun _ => eq_refl) (fun _ => eq_refl) (fun _ => eq_refl) good good_down); [| |apply Nat.le_refl|exact G].
    - intros m Gm. destruct (good_source m Gm) as (s & E & _). rewrite E. apply forget_source. apply fits_solid. apply Gm.
    - intros op ch k t b s Gm H1 H2 E. destruct (good_pair _ _ _ _ _ _ Gm H1 H2 E) as (s2 & E2). rewrite E2. reflexivity. }
  pose proof (abstract_nf o (size n) n (Nat.le_refl _)) as N. unfold lk in K. destruct (abstract_ o (size n) n); [exact K|exact K|contradiction N; reflexivity].
Qed.
