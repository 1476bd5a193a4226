(** Proofs about abstraction. *)
From Coq Require Import String.
From Coq Require Import ZArith List Bool Lia.
From Verif Require Import Base Source GenTokenKind GenOps TokenKind Tokenizer Iter Cst SpecCst CstProofs Ast Abstract SpecAbstract.
Import ListNotations.
Local Open Scope list_scope.
Local Open Scope Z_scope.

(** ** Lists *)

Lemma mapr_ext : forall A B (f g : A -> res B) l, (forall a, In a l -> f a = g a) -> mapr f l = mapr g l.
Proof. intros A B f g l H. induction l as [|a l IH]; cbn; [reflexivity|]. rewrite (H a (or_introl eq_refl)). rewrite IH; auto. intros; apply H; right; auto. Qed.
Lemma mapr_Ok : forall A B (f : A -> res B) l bs, mapr f l = Ok bs <-> Forall2 (fun a b => f a = Ok b) l bs.
Proof.
  intros A B f l. induction l as [|a l IH]; intros bs; cbn.
  - split; [intros [= <-]; constructor|intros H; inversion H; reflexivity].
  - split.
    + intros H. apply rbind_Ok in H as (b & E & H). apply rbind_Ok in H as (bs' & E' & H). injection H as <-. constructor; auto. apply IH; auto.
    + intros H. inversion H as [|? b ? bs' E F]; subst. rewrite E. cbn. apply IH in F. rewrite F. reflexivity.
Qed.
Lemma pair_ind : forall A (P : list A -> Prop), P [] -> (forall a, P [a]) -> (forall a b l, P l -> P (a :: b :: l)) -> forall l, P l.
Proof.
  intros A P H0 H1 H2. assert (K : forall l, P l /\ forall a, P (a :: l)).
  { induction l as [|b l [IH1 IH2]]; auto. }
  intros l. apply K.
Qed.
Lemma evens_in : forall A (l : list A) a, In a (evens l) -> In a l.
Proof. intros A l. induction l as [|a|a b l IH] using pair_ind; cbn; auto. intros x [H|H]; auto. Qed.
Lemma odds_in : forall A (l : list A) a, In a (odds l) -> In a l.
Proof. intros A l. induction l as [|a|a b l IH] using pair_ind; cbn; auto. intros x [H|H]; auto. Qed.

(** ** Nodes below *)

Definition subnodes (n : cst) : list cst := flat_map nodes (children n).
Lemma nodes_subnodes : forall n, nodes n = n :: subnodes n.
Proof. exact nodes_eq. Qed.
Lemma nodes_self : forall n, In n (nodes n).
Proof. intros n. rewrite nodes_eq. left. reflexivity. Qed.
Lemma below_child : forall n c m, In c (children n) -> In m (nodes c) -> In m (subnodes n).
Proof. intros n c m H1 H2. apply in_flat_map. eauto. Qed.
Lemma nodes_trans : forall n m k, In m (nodes n) -> In k (nodes m) -> In k (nodes n).
Proof.
  apply (cst_ind' (fun n => forall m k, In m (nodes n) -> In k (nodes m) -> In k (nodes n))). intros n IH m k H1 H2.
  rewrite nodes_subnodes in H1. destruct H1 as [<-|H1]; auto. rewrite nodes_subnodes. right. apply in_flat_map in H1 as (c & Hc & H1).
  apply in_flat_map. exists c. split; auto. rewrite Forall_forall in IH. eauto.
Qed.
Lemma below_trans : forall n m k, In m (subnodes n) -> In k (nodes m) -> In k (subnodes n).
Proof. intros n m k H1 H2. apply in_flat_map in H1 as (c & Hc & H1). apply in_flat_map. exists c. split; auto. eapply nodes_trans; eauto. Qed.

Definition sum (l : list cst) : nat := fold_right (fun m k => (size m + k)%nat) 0%nat l.
Lemma size_eq : forall n, size n = S (sum (children n)).
Proof.
  intros [t|[l|x] m op body|e ch|k op ch|b ch src|a b src]; try reflexivity.
  change (S (sum l + sum body) = S (sum (l ++ body))). f_equal. induction l as [|a l IH]; [reflexivity|].
  change (size a + sum l + sum body = size a + sum (l ++ body))%nat. lia.
Qed.
Lemma sum_in : forall l c, In c l -> (size c <= sum l)%nat.
Proof. intros l c. induction l as [|a l IH]; cbn; [contradiction|]. fold (sum l). intros [<-|H]; [lia|]. specialize (IH H). lia. Qed.
Lemma size_nodes : forall n m, In m (nodes n) -> (size m <= size n)%nat.
Proof.
  apply (cst_ind' (fun n => forall m, In m (nodes n) -> (size m <= size n)%nat)). intros n IH m H. rewrite nodes_subnodes in H. destruct H as [<-|H]; auto.
  apply in_flat_map in H as (c & Hc & H). rewrite Forall_forall in IH. specialize (IH c Hc m H). pose proof (sum_in _ _ Hc). rewrite (size_eq n). lia.
Qed.
Lemma size_below : forall n m, In m (subnodes n) -> (size m < size n)%nat.
Proof. intros n m H. apply in_flat_map in H as (c & Hc & H). apply size_nodes in H. pose proof (sum_in _ _ Hc). rewrite (size_eq n). lia. Qed.

(** ** Numbers and products *)

Definition number (g : negated) : Prop := match g with InfixTimesSeq _ => False | _ => True end.

Lemma negate_number : forall n g, parenthesizedIntegerOrRealQ n = Ok true -> negate n = Ok g -> number g.
Proof.
  apply (cst_ind' (fun n => forall g, parenthesizedIntegerOrRealQ n = Ok true -> negate n = Ok g -> number g)). intros n IH g H1 H2.
  destruct n as [t|h m op body|e ch|k op ch|b ch src|a b src]; cbn -[zin] in H1; try discriminate H1.
  - cbn in H2. injection H1 as H1. cbn in H1. destruct (t_kind t =? TK_Integer) eqn:E1; [|destruct (t_kind t =? TK_Real) eqn:E2].
    + apply rbind_Ok in H2 as (s & _ & H2). injection H2 as <-. destruct (zlist_eqb s [48]); exact I.
    + injection H2 as <-. exact I.
    + cbn in H1. discriminate H1.
  - destruct k; try discriminate H1. destruct (op =? GOP_CodeParser_GroupParen) eqn:Eo; [|discriminate H1].
    destruct ch as [|x [|c [|y [|? ?]]]]; try discriminate H1. cbn [negate] in H2. rewrite Eo in H2. apply rbind_Ok in H2 as (z & Ez & H2).
    cbn [parenthesizedIntegerOrRealQ] in H2. rewrite Eo, H1 in H2. cbn [rbind] in H2. cbn [children] in IH. rewrite Forall_forall in IH.
    assert (E : negate c = Ok g) by (destruct z; exact H2). eapply IH; eauto. right. left. reflexivity.
Qed.

Lemma flatten_infix : forall o data ch,
  (fix go l := match l with
     | [] => Ok []
     | [a] => flatten_times_cst o a data
     | a :: _ :: r => rbind (flatten_times_cst o a data) (fun x => rbind (go r) (fun y => Ok (x ++ y)))
     end) ch = rbind (mapr (fun n => flatten_times_cst o n data) (evens ch)) (fun ls => Ok (concat ls)).
Proof.
  intros o data ch. induction ch as [|a|a b l IH] using pair_ind; cbn.
  - reflexivity.
  - destruct (flatten_times_cst o a data); cbn; try reflexivity. rewrite app_nil_r. reflexivity.
  - destruct (flatten_times_cst o a data) as [x| |]; cbn; try reflexivity. rewrite IH. destruct (mapr _ (evens l)); reflexivity.
Qed.

Definition from_below (n : cst) (x : oper) : Prop :=
  match x with OCst m | OReciprocate m _ => In m (nodes n) | ONegativeOne => True | ONegated g _ => number g end.
Lemma from_below_trans : forall n m x, In m (nodes n) -> from_below m x -> from_below n x.
Proof. intros n m [c|c d| |g d] H1 H2; cbn in *; auto; eapply nodes_trans; eauto. Qed.
Lemma child_nodes : forall n c, In c (children n) -> In c (nodes n).
Proof. intros n c H. rewrite nodes_subnodes. right. eapply below_child; eauto. apply nodes_self. Qed.

(** what a product is flattened to *)
Lemma flatten_times_numbers : forall o data n l, flatten_times_cst o n data = Ok l -> Forall (from_below n) l.
Proof.
  intros o data. apply (cst_ind' (fun n => forall l, flatten_times_cst o n data = Ok l -> Forall (from_below n) l)). intros n IH l E.
  assert (D : Ok [OCst n] = Ok l -> Forall (from_below n) l) by (intros [= <-]; constructor; [apply nodes_self|constructor]).
  rewrite Forall_forall in IH.
  destruct n as [t|h m op body|e ch|k op ch|b ch src|a b src]; try (apply D; exact E).
  destruct k; try (apply D; exact E); cbn [flatten_times_cst] in E.
  - destruct (op =? PREOP_Minus) eqn:Eo; [|apply D; exact E]. destruct ch as [|t [|c [|? ?]]]; try discriminate E. apply rbind_Ok in E as (q & Eq & E).
    assert (Q : parenthesizedIntegerOrRealQ c = Ok q).
    { destruct c as [u| | | | |]; auto. cbn in *. destruct ((t_kind u =? TK_Integer) || ((t_kind u =? TK_Real) || false)); auto. }
    destruct q.
    + apply rbind_Ok in E as (g & Eg & E). injection E as <-. repeat constructor. cbn. eapply negate_number; eauto.
    + destruct (q_flatten_times o); [|apply D; exact E]. apply rbind_Ok in E as (r & Er & E). injection E as <-. constructor; [exact I|].
      eapply Forall_impl; [|apply (IH c)]; eauto; [|right; left; reflexivity]. intros y. apply from_below_trans. apply child_nodes. right. left. reflexivity.
  - destruct (op =? IOP_Times) eqn:Eo; [|apply D; exact E]. destruct (a_dbg o && _); [discriminate E|]. rewrite flatten_infix in E.
    apply rbind_Ok in E as (ls & E & H). injection H as <-. apply mapr_Ok in E. apply Forall_concat. rewrite Forall_forall. intros x Hx.
    assert (K : forall cs, (forall c, In c cs -> In c ch) -> Forall2 (fun a b => flatten_times_cst o a data = Ok b) cs ls -> Forall (from_below (Op KInfix op ch)) x).
    { intros cs Hc F. clear E D. revert Hx. induction F as [|c b cs bs E F IHF]; intros Hx; [contradiction|]. destruct Hx as [<-|Hx]; [|apply IHF; auto; intros; apply Hc; right; auto].
      assert (Hin : In c ch) by (apply Hc; left; reflexivity). eapply Forall_impl; [|apply (IH c Hin _ E)]. intros y. apply from_below_trans. apply child_nodes. exact Hin. }
    eapply K; [|exact E]. intros c. apply evens_in.
  - destruct (op =? BOP_Divide) eqn:Eo; [|apply D; exact E]. destruct (q_flatten_times o); [|apply D; exact E].
    destruct ch as [|a [|t [|b [|? ?]]]]; try discriminate E. apply rbind_Ok in E as (r & Er & E). injection E as <-. apply Forall_app. split.
    + eapply Forall_impl; [|apply (IH a)]; eauto; [|left; reflexivity]. intros y. apply from_below_trans. apply child_nodes. left. reflexivity.
    + constructor; [|constructor]. apply child_nodes. right. right. left. reflexivity.
Qed.

Lemma flattenTimes_from : forall o data cs l, flattenTimes o cs data = Ok l -> Forall (fun x => exists c, In c cs /\ from_below c x) l.
Proof.
  intros o data cs l E. unfold flattenTimes in E. apply rbind_Ok in E as (ls & E & H). injection H as <-. apply mapr_Ok in E.
  induction E as [|c b cs bs E F IH]; cbn; [constructor|]. apply Forall_app. split.
  - eapply Forall_impl; [|eapply flatten_times_numbers; exact E]. intros x Hx. exists c. split; [left; reflexivity|exact Hx].
  - eapply Forall_impl; [|exact IH]. intros x (c' & H1 & H2). exists c'. split; [right; exact H1|exact H2].
Qed.

(** ** Termination *)

Definition nf {A} (r : res A) : Prop := r <> OutOfFuel.
Lemma nf_bind : forall A B (e : res A) (k : A -> res B), nf e -> (forall a, e = Ok a -> nf (k a)) -> nf (rbind e k).
Proof. intros A B [a| |] k H1 H2; cbn; [apply H2; reflexivity|intros H; discriminate H|destruct (H1 eq_refl)]. Qed.
Lemma nf_mapr : forall A B (f : A -> res B) l, (forall a, In a l -> nf (f a)) -> nf (mapr f l).
Proof.
  intros A B f l H. induction l as [|a l IH]; cbn; [intros X; discriminate X|]. apply nf_bind; [apply H; left; reflexivity|]. intros b _.
  apply nf_bind; [apply IH; intros; apply H; right; auto|]. intros bs _ X. discriminate X.
Qed.
Lemma nf_Ok : forall A (a : A), nf (Ok a).  Proof. intros A a H. discriminate H. Qed.
Lemma nf_Panic : forall A, nf (@Panic A).  Proof. intros A H. discriminate H. Qed.
Lemma nf_as_str : forall t, nf (as_str t).
Proof. intros t. unfold as_str. destruct (utf8_valid (t_text t)); [apply nf_Ok|apply nf_Panic]. Qed.
Lemma nf_span_between : forall a b, nf (span_between a b).
Proof. intros a b. unfold span_between, Span_new. destruct (loc_leb (sp_start a) (sp_start b)) as [[]|]; try apply nf_Panic. destruct (loc_leb _ _) as [[]|]; try apply nf_Panic. apply nf_Ok. Qed.
Lemma nf_sources : forall l, Forall nf l -> nf (sources_between l).
Proof.
  intros l H. unfold sources_between. destruct l as [|a l]; [apply nf_Panic|]. assert (nf (last (a :: l) Panic)).
  { clear - H. rewrite Forall_forall in H. apply H. clear. revert a. induction l as [|b l IH]; intros a; [left; reflexivity|]. right. apply IH. }
  apply nf_bind; [inversion H; auto|]. intros x _. apply nf_bind; auto. intros y _. apply nf_span_between.
Qed.
Lemma nf_source : forall n, nf (get_source n).
Proof.
  apply cst_ind'. intros n IH.
  assert (M : forall l, (forall c, In c l -> In c (children n)) -> Forall nf (map get_source l)).
  { intros l H. apply Forall_forall. intros r Hr. apply in_map_iff in Hr as (c & <- & Hc). rewrite Forall_forall in IH. auto. }
  destruct n as [t|[l|x] m op body|e ch|k op ch|b ch src|a b src]; cbn [get_source]; try apply nf_Ok; try (apply nf_sources; apply M; auto; fail).
  - apply nf_bind.
    + destruct l as [|c l]; cbn; [apply nf_Panic|]. rewrite Forall_forall in IH. apply IH. left. reflexivity.
    + intros s _. apply nf_bind; [apply nf_sources, M|intros; apply nf_span_between]. intros c Hc. apply in_or_app. auto.
  - apply nf_bind; [rewrite Forall_forall in IH; apply IH; left; reflexivity|]. intros s _. apply nf_bind; [apply nf_sources, M|intros; apply nf_span_between]. intros c Hc. right. auto.
Qed.

Section fuel.
  Variables (o : aopts) (rec : cst -> res ast) (P : cst -> Prop).
  Hypothesis closed : forall m k, P m -> In k (nodes m) -> P k.
  Hypothesis Hrec : forall m, P m -> nf (rec m).

  Lemma P_children : forall n, P n -> Forall P (children n).
  Proof. intros n H. apply Forall_forall. intros c Hc. eapply closed; eauto. apply child_nodes; auto. Qed.
  Lemma P_op : forall k op ch, P (Op k op ch) -> Forall P ch.
  Proof. intros k op ch H. exact (P_children _ H). Qed.
  Lemma P_evens : forall l, Forall P l -> Forall P (evens l).
  Proof. intros l H. rewrite Forall_forall in *. intros c Hc. apply H, evens_in, Hc. Qed.
  Lemma P_removelast : forall l, Forall P l -> Forall P (removelast l).
  Proof. intros l H. induction H as [|a l Ha H IH]; cbn; [constructor|]. destruct l; [constructor|]. constructor; auto. Qed.
  Lemma P_in : forall l c, Forall P l -> In c l -> P c.
  Proof. intros l c H. rewrite Forall_forall in H. apply H. Qed.

  Ltac split_ch := repeat match goal with
    | H : Forall P (_ :: _) |- _ => apply Forall_cons_iff in H as [? H]
    end.
  Ltac deep_ch := split_ch; repeat match goal with H : P (Op _ _ ?ch) |- _ => apply P_op in H end; split_ch.
  Ltac known := split_ch; first [assumption|deep_ch; assumption|deep_ch; deep_ch; assumption].
  Ltac nfs := repeat first
    [ apply nf_Ok | apply nf_Panic | apply nf_as_str | apply nf_source | apply nf_span_between | assumption
    | (apply Hrec; first [known|eapply P_in; [|eassumption]; first [known|solve [split_ch; eauto using P_evens, P_removelast]|solve [deep_ch; eauto using P_evens, P_removelast]]])
    | apply nf_bind; [|intros ? ?]
    | apply nf_mapr; intros ? ?
    | match goal with |- nf (match ?x with _ => _ end) => destruct x eqn:?; subst end
    | match goal with |- nf (let _ := _ in _) => cbv zeta end ].

  Lemma nf_replace : forall t, nf (abstract_replace_token t).
  Proof. intros t. unfold abstract_replace_token. cbv zeta. nfs. Qed.
  Lemma nf_paren : forall n, nf (parenthesizedIntegerOrRealQ n).
  Proof. apply cst_ind'. intros n IH. destruct n as [t|h m op body|e ch|k op ch|b ch src|a b src]; cbn [parenthesizedIntegerOrRealQ]; nfs. cbn [children] in IH. rewrite Forall_forall in IH. apply IH. right. left. reflexivity. Qed.
  Lemma nf_zero : forall n, nf (possiblyNegatedZeroQ n).
  Proof.
    apply cst_ind'. intros n IH. destruct n as [t|h m op body|e ch|k op ch|b ch src|a b src]; cbn [possiblyNegatedZeroQ]; nfs; cbn [children] in IH; rewrite Forall_forall in IH; apply IH; right; left; reflexivity.
  Qed.
  Lemma nf_negate : forall n, nf (negate n).
  Proof.
    apply cst_ind'. intros n IH. cbn [children] in IH. destruct n as [t|h m op body|e ch|k op ch|b ch src|a b src]; try (cbn [negate]; nfs; fail).
    destruct k; cbn [negate]; cbn [children] in IH; nfs; try apply nf_zero; try apply nf_paren; rewrite Forall_forall in IH; apply IH; right; left; reflexivity.
  Qed.
  Lemma nf_flatten : forall data n, nf (flatten_times_cst o n data).
  Proof.
    intros data. apply cst_ind'. intros n IH. rewrite Forall_forall in IH. destruct n as [t|h m op body|e ch|k op ch|b ch src|a b src]; try (cbn [flatten_times_cst]; nfs; fail).
    destruct k; try (cbn [flatten_times_cst]; nfs; fail).
    - cbn [flatten_times_cst]; nfs; try apply nf_paren; try apply nf_negate; apply IH; right; left; reflexivity.
    - cbn [flatten_times_cst]. destruct (op =? IOP_Times); [|nfs]. destruct (a_dbg o && _); [nfs|]. rewrite flatten_infix. nfs. apply IH. cbn [children]. apply evens_in. assumption.
    - cbn [flatten_times_cst]; nfs. apply IH. left. reflexivity.
  Qed.
  Lemma nf_flattens : forall data l, nf (flattenTimes o l data).
  Proof. intros data l. unfold flattenTimes. nfs. apply nf_flatten. Qed.
  Lemma nf_number : forall g data, number g -> nf (negated_number g data).
  Proof. intros [|t|t|l] data H; cbn in *; nfs; contradiction. Qed.
  Lemma nf_operand : forall f cs data l x, Forall P cs -> (forall m, P m -> nf (f m)) -> flattenTimes o cs data = Ok l -> In x l -> nf (operand_into_ast rec f x).
  Proof.
    intros f cs data l x Hcs Hf E Hx. apply flattenTimes_from in E. rewrite Forall_forall in E. destruct (E x Hx) as (c & Hc & F). rewrite Forall_forall in Hcs.
    destruct x as [n|n d| |g d]; cbn in *; nfs.
    - apply Hf. eapply closed; eauto.
    - apply Hrec. eapply closed; eauto.
    - apply nf_number. exact F.
  Qed.
  Lemma at_quirk : forall n s m, processInfixBinaryAtQuirk o n s = Ok m -> In m (nodes n).
  Proof.
    intros n s m E. unfold processInfixBinaryAtQuirk in E. assert (D : Ok n = Ok m -> In m (nodes n)) by (intros [= <-]; apply nodes_self).
    destruct (negb (q_infix_binary_at o)); auto. destruct n as [| | |k op ch| |]; auto. destruct k; auto. destruct (op =? BOP_CodeParser_BinaryAt); auto.
    destruct ch as [|a [|b [|c [|? ?]]]]; try discriminate E. apply rbind_Ok in E as (q & _ & E). destruct q; auto.
    destruct b as [t| | | | |]; try discriminate E. destruct (t_kind t =? TK_At); [|discriminate E]. injection E as ->. apply child_nodes. right. right. left. reflexivity.
  Qed.
  Lemma nf_quirk : forall n s, nf (processInfixBinaryAtQuirk o n s).
  Proof. intros n s. unfold processInfixBinaryAtQuirk. nfs. Qed.
  Lemma nf_quirk_rec : forall n s, P n -> nf (rbind (processInfixBinaryAtQuirk o n s) rec).
  Proof. intros n s H. apply nf_bind; [apply nf_quirk|]. intros m E. apply Hrec. eapply closed; eauto. eapply at_quirk; eauto. Qed.
  Lemma nf_times : forall cs data, Forall P cs -> nf (abstractTimes_InfixNode o rec cs data).
  Proof.
    intros cs data H. unfold abstractTimes_InfixNode. apply nf_bind; [apply nf_flattens|]. intros l E. apply nf_bind; [|intros; apply nf_Ok].
    apply nf_mapr. intros x Hx. eapply nf_operand; eauto. intros m Hm. exact (nf_quirk_rec m _ Hm).
  Qed.
  Lemma negate_seq : forall n l, negate n = Ok (InfixTimesSeq l) -> P n -> Forall P l.
  Proof.
    apply (cst_ind' (fun n => forall l, negate n = Ok (InfixTimesSeq l) -> P n -> Forall P l)). intros n IH l E H.
    assert (D : Ok (InfixTimesSeq [n]) = Ok (InfixTimesSeq l) -> Forall P l) by (intros [= <-]; auto).
    rewrite Forall_forall in IH.
    destruct n as [t|h m op body|e ch|k op ch|b ch src|a b src]; try (apply D; exact E).
    - cbn in E. destruct (t_kind t =? TK_Integer); [apply rbind_Ok in E as (s & _ & E); destruct (zlist_eqb s [48]); discriminate E|]. destruct (t_kind t =? TK_Real); [discriminate E|]. auto.
    - pose proof (P_op _ _ _ H) as Hch. destruct k; try (apply D; exact E); cbn [negate] in E.
      + destruct (op =? PREOP_Minus); auto. destruct ch as [|x [|c r]]; try discriminate E. apply rbind_Ok in E as (z & _ & E). destruct z; auto. eapply IH; eauto; [right; left; reflexivity|]. known.
      + destruct (op =? IOP_Times); auto. injection E as <-. exact Hch.
      + destruct (op =? GOP_CodeParser_GroupParen); auto. destruct ch as [|x [|c r]]; try discriminate E. split_ch. apply rbind_Ok in E as (z & _ & E). destruct z; [eapply IH; eauto; right; left; reflexivity|].
        apply rbind_Ok in E as (q & _ & E). destruct q; auto. destruct r as [|y [|? ?]]; try discriminate E. eapply IH; eauto. right; left; reflexivity.
  Qed.
  Lemma nf_negated : forall n g data, negate n = Ok g -> P n -> nf (negated_into_ast o rec g data).
  Proof.
    intros n g data E H. destruct g as [|t|t|l]; try (apply nf_number; exact I). cbn. unfold part_span_even_children.
    destruct (a_dbg o && _); cbn; [nfs|]. apply nf_bind; [apply nf_times, P_evens; eapply negate_seq; eauto|]. intros a _. nfs.
  Qed.
  Lemma nf_span_even : forall sep l, nf (part_span_even_children o sep l).
  Proof. intros. unfold part_span_even_children. nfs. Qed.
  Lemma span_even : forall sep l r, part_span_even_children o sep l = Ok r -> r = evens l.
  Proof. intros sep l r. unfold part_span_even_children. destruct (a_dbg o && _); [discriminate|]. intros [= <-]. reflexivity. Qed.
  Lemma nf_chunks : forall A (l : list A), nf (chunks2 l).
  Proof. intros A l. induction l as [|a|a b l IH] using pair_ind; cbn; nfs. Qed.
  Lemma chunks_in : forall A (l : list A) ps a b, chunks2 l = Ok ps -> In (a, b) ps -> In a l /\ In b l.
  Proof.
    intros A l. induction l as [|x|x y l IH] using pair_ind; intros ps a b E H; cbn in E.
    - injection E as <-. contradiction.
    - discriminate E.
    - apply rbind_Ok in E as (ps' & E & X). injection X as <-. destruct H as [[= <- <-]|H]; [split; [left|right; left]; reflexivity|].
      destruct (IH _ _ _ E H). split; right; right; assumption.
  Qed.
  Lemma nf_flatten_plus : forall n, nf (flattenPrefixPlus n).
  Proof. apply cst_ind'. intros n IH. rewrite Forall_forall in IH. destruct n as [t|h m op body|e ch|k op ch|b ch src|a b src]; cbn [flattenPrefixPlus]; nfs. apply IH. right. left. reflexivity. Qed.
  Lemma flatten_plus_in : forall n m, flattenPrefixPlus n = Ok m -> In m (nodes n).
  Proof.
    apply (cst_ind' (fun n => forall m, flattenPrefixPlus n = Ok m -> In m (nodes n))). intros n IH m E. assert (D : Ok n = Ok m -> In m (nodes n)) by (intros [= <-]; apply nodes_self).
    rewrite Forall_forall in IH. destruct n as [t|h b op body|e ch|k op ch|b ch src|a b src]; auto. destruct k; auto. cbn [flattenPrefixPlus] in E. destruct (op =? PREOP_Plus); auto.
    destruct ch as [|x [|c [|? ?]]]; try discriminate E. eapply nodes_trans; [|eapply IH; eauto]; [apply child_nodes|]; right; left; reflexivity.
  Qed.
  Lemma nf_plus : forall l data, Forall P l -> nf (abstractPlus o rec l data).
  Proof.
    intros l data H. unfold abstractPlus. destruct l as [|first r]; [nfs|]. split_ch. apply nf_bind; [apply nf_chunks|]. intros pairs Ep. apply nf_bind.
    - apply nf_mapr. intros [a b] _. unfold processPlusPair. nfs. apply nf_negate.
    - intros ps Es. apply nf_bind; [|intros; apply nf_Ok]. apply nf_mapr. intros x Hx.
      assert (K : forall n, P n -> nf (rbind (processInfixBinaryAtQuirk o n (LongNames.bytes_of_string "Plus")) (fun m => rbind (flattenPrefixPlus m) (fun m => rec m)))).
      { intros n Hn. apply nf_bind; [apply nf_quirk|]. intros m E. apply nf_bind; [apply nf_flatten_plus|]. intros k Ek. apply Hrec. apply at_quirk in E. apply flatten_plus_in in Ek. eapply closed; [|exact Ek]. eapply closed; eauto. }
      destruct Hx as [<-|Hx]; [apply K; assumption|]. apply mapr_Ok in Es.
      assert (S : exists a b, In (a, b) pairs /\ processPlusPair a b = Ok x).
      { clear - Es Hx. induction Es as [|[a b] y ps ys E F IH]; [contradiction|]. destruct Hx as [<-|Hx]; [exists a, b; split; [left; reflexivity|exact E]|].
        destruct (IH Hx) as (a' & b' & H1 & H2). exists a', b'. split; [right; exact H1|exact H2]. }
      destruct S as (a & b & Hin & Ex). destruct (chunks_in _ _ _ _ _ Ep Hin) as [_ Hb]. rewrite Forall_forall in H. specialize (H _ Hb).
      unfold processPlusPair in Ex. destruct a as [t| | | | |]; try discriminate Ex. destruct (zin _ _); [injection Ex as <-; auto|]. destruct (zin _ _); [|discriminate Ex].
      apply rbind_Ok in Ex as (s & _ & Ex). apply rbind_Ok in Ex as (s2 & _ & Ex). apply rbind_Ok in Ex as (g & Eg & Ex). injection Ex as <-. eapply nf_negated; eauto.
  Qed.
  Lemma nf_prefix_plus : forall data n, P n -> nf (abstractPrefixPlus rec n data).
  Proof.
    intros data. apply (cst_ind' (fun n => P n -> nf (abstractPrefixPlus rec n data))). intros n IH H. rewrite Forall_forall in IH.
    destruct n as [t|h m op body|e ch|k op ch|b ch src|a b src]; cbn [abstractPrefixPlus]; nfs. apply IH; [right; left; reflexivity|]. known.
  Qed.
  Lemma nf_derivative : forall n, P n -> nf (derivativeOrderAndAbstractedBody rec n).
  Proof.
    apply (cst_ind' (fun n => P n -> nf (derivativeOrderAndAbstractedBody rec n))). intros n IH H. rewrite Forall_forall in IH.
    destruct n as [t|h m op body|e ch|k op ch|b ch src|a b src]; cbn [derivativeOrderAndAbstractedBody]; nfs. apply IH; [left; reflexivity|]. known.
  Qed.
  Lemma nf_inequality : forall data pairs first r aff, (forall t c, In (t, c) pairs -> P c) -> nf (inequality_loop rec pairs first r aff data).
  Proof.
    intros data pairs. induction pairs as [|[t c] pairs IH]; intros first r aff H; cbn [inequality_loop]; [nfs|].
    apply nf_bind; [unfold inequalityOperatorToSymbol; nfs|]. intros s _. apply nf_bind; [apply Hrec, (H t); left; reflexivity|]. intros a _.
    apply nf_bind; [unfold vectorInequalityAffinity; nfs|]. intros v _. nfs; apply IH; intros; eapply H; right; eauto.
  Qed.
  Lemma nf_inequalities : forall l data, Forall P l -> nf (abstractInfixInequality rec l data).
  Proof.
    intros l data H. unfold abstractInfixInequality. destruct l as [|first r]; [nfs|]. split_ch. apply nf_bind; [nfs|]. intros a _. apply nf_bind; [apply nf_chunks|]. intros ps Ep.
    apply nf_bind; [nfs|]. intros qs Eq. apply nf_inequality. intros t c Hin. apply mapr_Ok in Eq.
    assert (S : exists x, In (x, c) ps).
    { clear - Eq Hin. induction Eq as [|[x y] [t' c'] ps qs E F IH]; [contradiction|]. destruct Hin as [[= -> ->]|Hin].
      - exists x. left. f_equal. destruct x; try discriminate E. injection E as _ <-. reflexivity.
      - destruct (IH Hin) as (x' & Hx). exists x'. right. exact Hx. }
    destruct S as (x & Hx). destruct (chunks_in _ _ _ _ _ Ep Hx) as [_ Hc]. eapply P_in; eauto.
  Qed.
  Lemma nf_tilde_rest : forall r lhs data, Forall P r -> nf (abstractInfixTilde_rest rec lhs r data).
  Proof.
    intros r. induction r as [|a|a b l IH] using pair_ind; intros lhs data H; cbn [abstractInfixTilde_rest]; split_ch.
    - nfs.
    - nfs.
    - destruct l as [|c l]; [nfs|]. apply nf_bind; [nfs|]. intros m _. apply nf_bind; [nfs|]. intros x _. apply IH. assumption.
  Qed.
  Lemma nf_tilde : forall l data, Forall P l -> nf (abstractInfixTilde rec l data).
  Proof.
    intros l data H. unfold abstractInfixTilde. destruct l as [|a [|b [|c [|d l]]]]; split_ch; try (nfs; fail).
    - apply nf_bind; [nfs|]. intros x _. apply nf_bind; [apply nf_tilde_rest; repeat constructor; auto|]. intros y _. apply nf_tilde_rest. constructor; auto.
  Qed.
  Lemma nf_group_args : forall ch, Forall P ch -> nf (abstractGroupNode rec ch).
  Proof.
    intros ch H. unfold abstractGroupNode. apply nf_bind; [unfold part_span_drop_first_and_last; nfs|]. intros cs E.
    assert (Forall P cs). { unfold part_span_drop_first_and_last in E. destruct ch as [|a [|b r]]; try discriminate E. injection E as <-. split_ch. apply (P_removelast (b :: r)). constructor; auto. }
    nfs.
  Qed.
  Lemma nf_missing_closer : forall ch, Forall P ch -> nf (abstractGroupMissingCloser rec ch).
  Proof. intros ch H. unfold abstractGroupMissingCloser. nfs. Qed.
  Lemma nf_issue : forall i ch, nf (issue_between i ch).
  Proof. intros i ch. unfold issue_between. nfs. Qed.
  Lemma nf_children : forall data, nf (into_children_and_source data).
  Proof. intros a. unfold into_children_and_source. nfs. Qed.

  Ltac listed := first [assumption|split_ch; repeat (apply Forall_cons; [assumption|]); assumption|deep_ch; repeat (apply Forall_cons; [assumption|]); assumption].
  Ltac nf2 := repeat first
    [ apply nf_Ok | apply nf_Panic | apply nf_as_str | apply nf_source | apply nf_span_between | assumption
    | apply nf_replace | apply nf_issue | apply nf_children | apply nf_zero | apply nf_paren | apply nf_negate | apply nf_span_even | apply nf_quirk
    | (eapply nf_negated; [eassumption|known])
    | (apply nf_group_args; solve [listed])
    | (apply nf_missing_closer; solve [listed])
    | (apply nf_prefix_plus; known)
    | (apply nf_derivative; known)
    | (apply nf_plus; solve [listed])
    | (apply nf_inequalities; solve [listed])
    | (apply nf_tilde; solve [split_ch; eauto using P_evens])
    | (apply nf_times; solve [split_ch; eauto using P_evens])
    | (apply Hrec; first [known|eapply P_in; [|eassumption]; first [known|solve [split_ch; eauto using P_evens, P_removelast]|solve [deep_ch; eauto using P_evens, P_removelast]]])
    | apply nf_bind; [|intros ? ?]
    | match goal with H : part_span_even_children _ _ _ = Ok _ |- _ => apply span_even in H; subst end
    | apply nf_mapr; intros ? ?
    | match goal with |- nf (match ?x with _ => _ end) => destruct x eqn:?; subst end
    | match goal with |- nf (let _ := _ in _) => cbv zeta end ].

  Lemma nf_paren_group : forall ch data, Forall P ch -> nf (abstract_paren o rec ch data).
  Proof.
    intros ch data H. unfold abstract_paren. assert (K : nf (rbind (part_span_drop_first_and_last ch) (fun cs => rbind (mapr rec cs) (fun l => Ok (AAbstractSyntaxError OpenParen l (from_src data)))))).
    { apply nf_bind; [unfold part_span_drop_first_and_last; nf2|]. intros cs E.
      assert (Forall P cs). { unfold part_span_drop_first_and_last in E. destruct ch as [|a [|b r]]; try discriminate E. injection E as <-. split_ch. apply (P_removelast (b :: r)). constructor; auto. }
      nf2. }
    destruct ch as [|a [|b [|c [|? ?]]]]; try exact K. clear K. split_ch. destruct b as [| | |k op cs| |]; nf2.
  Qed.
  Lemma nf_naked : forall e ch data, Forall P ch -> nf (abstract_naked o rec e ch data).
  Proof. intros e ch data H. unfold abstract_naked. nf2. Qed.
  Lemma nf_call : forall h missing op ch data, P (Call h missing op ch) -> nf (abstract_call_node rec h missing op ch data).
  Proof.
    intros h missing op ch data H. pose proof (P_children _ H) as Hc. destruct h as [l|head]; [apply nf_Panic|]. cbn [children] in Hc. split_ch.
    unfold abstract_call_node. cbv zeta. nf2.
  Qed.
  Lemma nf_box : forall kind ch data, Forall P ch -> nf (abstract_box_node rec kind ch data).
  Proof.
    intros kind ch data H. unfold abstract_box_node. destruct (zin kind _); [nf2|]. apply nf_bind.
    - unfold try_subscript. nf2.
    - intros x _. destruct x; [nf2|]. apply nf_bind; [|intros; nf2]. unfold try_superscript. nf2; apply Hrec.
      all: match goal with K : Forall P (_ :: BoxN _ _ _ :: _) |- _ => apply Forall_cons_iff in K as [? K]; apply Forall_cons_iff in K as [K ?]; apply P_children in K; cbn [children] in K | _ => idtac end; known.
  Qed.
  Lemma quirk_all : forall s l l', mapr (fun n => processInfixBinaryAtQuirk o n s) l = Ok l' -> Forall P l -> Forall P l'.
  Proof.
    intros s l l' E. apply mapr_Ok in E. induction E as [|a b l l' E F IH]; intros H; constructor; split_ch; auto. eapply closed; eauto. eapply at_quirk; eauto.
  Qed.
  Lemma nf_mapr_rec : forall l, Forall P l -> nf (mapr rec l).
  Proof. intros l H. apply nf_mapr. intros a Ha. apply Hrec. eapply P_in; eauto. Qed.
  Lemma nf_infix : forall op ch data, Forall P ch -> nf (abstract_infix o rec op ch data).
  Proof.
    intros op ch data H. pose proof (P_evens _ H) as He. unfold abstract_infix.
    destruct (op =? _); [apply nf_inequalities; auto|]. destruct (op =? _); [apply nf_plus; auto|].
    destruct (op =? _); [apply nf_bind; [apply nf_span_even|]; intros l E; apply span_even in E; subst l; apply nf_times; auto|].
    destruct (op =? _).
    { apply nf_bind; [apply nf_span_even|]. intros l E. apply span_even in E. subst l. apply nf_bind; [apply nf_mapr; intros; apply nf_quirk|]. intros l E. apply quirk_all in E; auto.
      apply nf_bind; [|intros; apply nf_Ok]. apply nf_mapr_rec. apply Forall_rev. exact E. }
    destruct (op =? _).
    { apply nf_bind; [apply nf_span_even|]. intros l E. apply span_even in E. subst l. apply nf_bind; [|intros; apply nf_Ok]. apply nf_mapr. intros a Ha. pose proof (P_in _ _ He Ha). destruct a; nf2. }
    destruct (op =? _).
    { apply nf_bind; [apply nf_span_even|]. intros l E. apply span_even in E. subst l. unfold abstractMessageName. destruct (evens ch) as [|c l]; [nf2|]. cbv zeta. split_ch.
      apply nf_bind; [nf2|]. intros x _. apply nf_bind; [|intros; apply nf_Ok]. apply nf_mapr. intros a Ha. pose proof (P_in _ _ He Ha). destruct a; nf2. }
    destruct (op =? _).
    { apply nf_bind; [apply nf_span_even|]. intros l E. apply span_even in E. subst l. apply nf_tilde; auto. }
    destruct (Nat.even _); [nf2|]. apply nf_bind; [apply nf_span_even|]. intros l E. apply span_even in E. subst l. apply nf_bind.
    - destruct (zin _ _); [nf2|]. apply nf_mapr. intros; apply nf_quirk.
    - intros l E. assert (Forall P l) by (destruct (zin _ _); [injection E as <-; auto|eapply quirk_all; eauto]). apply nf_bind; [apply nf_mapr_rec; auto|intros; apply nf_Ok].
  Qed.
  Lemma nf_node : forall n data, (forall c, In c (children n) -> P c) -> nf (abstract_node o rec n data).
  Proof.
    intros n data Hn. assert (H : Forall P (children n)) by (apply Forall_forall; exact Hn). clear Hn. destruct n as [t|h m op body|e ch|k op ch|b ch src|a b src]; cbn [abstract_node children] in *.
    - apply nf_replace.
    - destruct h as [l|head]; [apply nf_Panic|]. split_ch. unfold abstract_call_node. cbv zeta. nf2.
    - nf2.
    - destruct k.
      + unfold abstract_prefix, abstractNot2. nf2.
      + apply nf_infix; assumption.
      + unfold abstract_postfix. cbv zeta. nf2.
      + unfold abstract_binary. destruct ch as [|a [|b [|c [|? ?]]]]; try apply nf_Panic. split_ch. destruct (op =? BOP_Divide); [|nf2].
        unfold abstractTimes_BinaryNode_Divide. apply nf_bind; [apply nf_flatten|]. intros l E. apply nf_bind; [|intros; unfold reciprocate_into_ast; nf2].
        apply nf_mapr. intros x Hx. apply (nf_operand rec [a] data l x); auto. unfold flattenTimes, mapr. rewrite E. cbn. rewrite app_nil_r. reflexivity.
      + unfold abstract_ternary. nf2.
      + unfold abstract_prefix_binary. nf2.
      + unfold abstract_compound. nf2.
      + unfold abstract_group. repeat match goal with |- nf (if ?b then _ else _) => destruct b end; try (apply nf_naked; assumption); [apply nf_paren_group; assumption|nf2].
      + nf2.
      + unfold abstractGroupMissingOpener. nf2.
    - apply nf_box; assumption.
    - apply nf_Ok.
  Qed.
End fuel.

(** enough fuel *)
Lemma abstract_nf : forall o fuel n, (size n <= fuel)%nat -> nf (abstract_ o fuel n).
Proof.
  intros o fuel. induction fuel as [|k IH]; intros n H; [rewrite size_eq in H; lia|]. cbn [abstract_]. apply nf_bind; [apply nf_source|]. intros data _. apply nf_bind.
  - apply (nf_node o (abstract_ o k) (fun m => (size m <= k)%nat)); auto.
    + intros m j H1 H2. apply size_nodes in H2. lia.
    + intros c Hc. apply sum_in in Hc. rewrite size_eq in H. lia.
  - intros a _. destruct (a_dbg o && _); [apply nf_Panic|apply nf_Ok].
Qed.
