(** Binary search over the generated tables agrees with list membership. *)
From Coq Require Import String Ascii ZArith List Bool Lia Arith.
From Verif Require Import Base LongNames GenLongNames.
Import ListNotations.
Local Open Scope Z_scope.

(** ** General correctness of the search loop *)
Section BSearch.
Context {A : Type} (f : A -> comparison) (l : list A) (d : A).

(** Sorted relative to the probe: once [Gt] always [Gt], [Lt] only before. *)
Definition mono : Prop :=
  forall i j, (i < j < length l)%nat ->
    (f (nth j l d) = Lt -> f (nth i l d) = Lt) /\
    (f (nth j l d) = Eq -> f (nth i l d) = Lt) /\
    (f (nth i l d) = Gt -> f (nth j l d) = Gt) /\
    (f (nth i l d) = Eq -> f (nth j l d) = Gt).

Lemma bsearch_fuel : forall k lo hi, (hi - lo < k)%nat -> bsearch k f l d lo hi <> OutOfFuel.
Proof.
  induction k as [|k IH]; intros lo hi H; [lia|]. cbn [bsearch].
  destruct (Nat.ltb_spec lo hi); [|discriminate].
  pose proof (Nat.div2_decr (hi - lo) (hi - lo) ltac:(lia)).
  assert (Nat.div2 (hi - lo) < hi - lo)%nat by (apply Nat.lt_div2; lia).
  destruct (f _); [discriminate | apply IH; lia | apply IH; lia].
Qed.

Lemma bsearch_no_panic : forall k lo hi, bsearch k f l d lo hi <> Panic.
Proof.
  induction k as [|k IH]; intros lo hi; cbn [bsearch]; [discriminate|].
  destruct (Nat.ltb lo hi); [|discriminate]. destruct (f _); [discriminate | apply IH | apply IH].
Qed.

Lemma bsearch_sound : forall k lo hi i, bsearch k f l d lo hi = Ok (Some i) ->
  (lo <= i < hi)%nat /\ f (nth i l d) = Eq.
Proof.
  induction k as [|k IH]; intros lo hi i H; cbn [bsearch] in H; [discriminate|].
  destruct (Nat.ltb_spec lo hi); [|discriminate].
  assert (Nat.div2 (hi - lo) < hi - lo)%nat by (apply Nat.lt_div2; lia).
  destruct (f (nth _ l d)) eqn:E.
  - injection H as <-. split; [lia|auto].
  - apply IH in H. split; [lia | apply H].
  - apply IH in H. split; [lia | apply H].
Qed.

Lemma bsearch_complete : mono -> forall k lo hi, (hi <= length l)%nat ->
  bsearch k f l d lo hi = Ok None -> forall i, (lo <= i < hi)%nat -> f (nth i l d) <> Eq.
Proof.
  intros Hm. induction k as [|k IH]; intros lo hi Hh H i Hi; cbn [bsearch] in H; [discriminate|].
  destruct (Nat.ltb_spec lo hi); [|lia].
  assert (Nat.div2 (hi - lo) < hi - lo)%nat by (apply Nat.lt_div2; lia).
  set (mid := (lo + Nat.div2 (hi - lo))%nat) in *.
  destruct (f (nth mid l d)) eqn:E; [discriminate| |].
  - destruct (le_lt_dec i mid) as [L|L].
    + destruct (Nat.eq_dec i mid) as [->|]; [congruence|].
      destruct (Hm i mid ltac:(lia)) as [Q _]. rewrite Q; congruence.
    + eapply IH; eauto; lia.
  - destruct (le_lt_dec mid i) as [L|L].
    + destruct (Nat.eq_dec i mid) as [->|]; [congruence|].
      destruct (Hm mid i ltac:(lia)) as [_ [_ [Q _]]]. rewrite Q; congruence.
    + eapply (IH lo mid); eauto; lia.
Qed.

Lemma binary_search_some : forall i, binary_search f l d = Some i -> (i < length l)%nat /\ f (nth i l d) = Eq.
Proof.
  intros i H. unfold binary_search in H. destruct (bsearch _ _ _ _ _ _) as [[j|]| |] eqn:E; try discriminate.
  injection H as ->. apply bsearch_sound in E. intuition lia.
Qed.

Lemma binary_search_none : mono -> binary_search f l d = None -> forall x, In x l -> f x <> Eq.
Proof.
  intros Hm H x Hx. unfold binary_search in H.
  destruct (bsearch (S (length l)) f l d 0 (length l)) as [[j|]| |] eqn:E; try discriminate.
  - apply (In_nth _ _ d) in Hx as [i [Hi <-]].
    apply (bsearch_complete Hm _ _ _ (le_n _) E). lia.
  - exfalso; eapply bsearch_no_panic; eauto.
  - exfalso. eapply (bsearch_fuel (S (length l)) 0 (length l)); [lia|eauto].
Qed.

End BSearch.

(** ** Sortedness *)
Fixpoint sorted_by {A} (lt : A -> A -> bool) (l : list A) : bool :=
  match l with
  | [] => true
  | x :: r => match r with [] => true | y :: _ => lt x y && sorted_by lt r end
  end.

Lemma sorted_nth : forall A (lt : A -> A -> bool) (tr : forall a b c, lt a b = true -> lt b c = true -> lt a c = true)
  l d i j, sorted_by lt l = true -> (i < j < length l)%nat -> lt (nth i l d) (nth j l d) = true.
Proof.
  intros A lt tr l d. induction l as [|x r IH]; intros i j S H; [cbn in H; lia|].
  destruct r as [|y r']; [cbn in H; lia|].
  cbn [sorted_by] in S. apply andb_true_iff in S as [S1 S2].
  destruct j as [|j]; [lia|]. destruct i as [|i].
  - destruct j as [|j]; [exact S1|].
    eapply tr; [exact S1|]. apply (IH 0%nat (S j)); auto. cbn [length] in *; lia.
  - apply (IH i j); auto. cbn [length] in *; lia.
Qed.

(** ** The orders *)
Lemma bytes_cmp_eq : forall a b, bytes_cmp a b = Eq <-> a = b.
Proof.
  induction a as [|x a IH]; destruct b as [|y b]; cbn; split; intros H; try discriminate; auto.
  - destruct (Z.compare_spec x y); try discriminate. subst. f_equal. apply IH; auto.
  - injection H as -> ->. rewrite Z.compare_refl. apply IH; auto.
Qed.

Lemma bytes_cmp_antisym : forall a b, bytes_cmp a b = CompOpp (bytes_cmp b a).
Proof.
  induction a as [|x a IH]; destruct b as [|y b]; cbn; auto.
  rewrite (Z.compare_antisym y x). destruct (y ?= x); cbn; auto.
Qed.

Lemma bytes_cmp_trans : forall a b c, bytes_cmp a b = Lt -> bytes_cmp b c = Lt -> bytes_cmp a c = Lt.
Proof.
  induction a as [|x a IH]; destruct b as [|y b]; destruct c as [|z c]; cbn; intros H1 H2; try discriminate; auto.
  destruct (Z.compare_spec x y), (Z.compare_spec y z); try discriminate; subst.
  - rewrite Z.compare_refl. eauto.
  - replace (y ?= z) with Lt by (symmetry; apply Z.compare_lt_iff; auto). auto.
  - replace (x ?= z) with Lt by (symmetry; apply Z.compare_lt_iff; auto). auto.
  - replace (x ?= z) with Lt by (symmetry; apply Z.compare_lt_iff; lia). auto.
Qed.

Definition bytes_ltb (a b : list Z) : bool := match bytes_cmp a b with Lt => true | _ => false end.
Lemma bytes_ltb_trans : forall a b c, bytes_ltb a b = true -> bytes_ltb b c = true -> bytes_ltb a c = true.
Proof.
  unfold bytes_ltb; intros a b c H1 H2.
  destruct (bytes_cmp a b) eqn:E1; try discriminate. destruct (bytes_cmp b c) eqn:E2; try discriminate.
  rewrite (bytes_cmp_trans a b c); auto.
Qed.

Lemma mono_bytes : forall A (key : A -> list Z) (l : list A) d name,
  sorted_by (fun a b => bytes_ltb (key a) (key b)) l = true ->
  mono (fun e => bytes_cmp (key e) name) l d.
Proof.
  intros A key l d name S i j H.
  assert (L : bytes_ltb (key (nth i l d)) (key (nth j l d)) = true).
  { apply (sorted_nth _ (fun a b => bytes_ltb (key a) (key b))); auto.
    intros; eapply bytes_ltb_trans; eauto. }
  unfold bytes_ltb in L. destruct (bytes_cmp (key (nth i l d)) (key (nth j l d))) eqn:E; try discriminate.
  repeat split; intros Q.
  - eapply bytes_cmp_trans; eauto.
  - apply bytes_cmp_eq in Q. subst. auto.
  - rewrite bytes_cmp_antisym in Q |- *. destruct (bytes_cmp name (key (nth i l d))) eqn:E1; try discriminate.
    erewrite bytes_cmp_trans; eauto.
  - apply bytes_cmp_eq in Q. subst. rewrite bytes_cmp_antisym, E. reflexivity.
Qed.

Lemma mono_Z : forall A (key : A -> Z) (l : list A) d c,
  sorted_by (fun a b => key a <? key b) l = true -> mono (fun e => key e ?= c) l d.
Proof.
  intros A key l d c S i j H.
  assert (L : (key (nth i l d) <? key (nth j l d)) = true).
  { apply (sorted_nth _ (fun a b => key a <? key b)); auto. intros a b c0 H1 H2.
    apply Z.ltb_lt in H1, H2. apply Z.ltb_lt. lia. }
  apply Z.ltb_lt in L.
  repeat split; rewrite ?Z.compare_lt_iff, ?Z.compare_eq_iff, ?Z.compare_gt_iff; lia.
Qed.

(** ** The tables *)
Lemma LN_TABLE_sorted : sorted_by (fun a b => bytes_ltb (fst a) (fst b)) LN_TABLE = true.
Proof. vm_compute. reflexivity. Qed.
Lemma RAW_TABLE_sorted : sorted_by (fun a b => bytes_ltb a b) RAW_TABLE = true.
Proof. vm_compute. reflexivity. Qed.

(** General lookup lemma, for any sorted table. *)
Lemma lookup_In : forall (l : list (list Z * Z)) name p,
  sorted_by (fun a b => bytes_ltb (fst a) (fst b)) l = true ->
  (match binary_search (fun e => bytes_cmp (fst e) name) l ([], 0) with
   | Some i => Some (snd (nth i l ([], 0)))
   | None => None
   end = Some p <-> In (name, p) l).
Proof.
  intros l name p S.
  pose proof (mono_bytes _ fst l ([], 0) name S) as Hm.
  destruct (binary_search _ l ([], 0)) as [i|] eqn:E.
  - apply binary_search_some in E as [Hi E]. apply bytes_cmp_eq in E.
    assert (I : In (nth i l ([], 0)) l) by (apply nth_In; auto).
    split.
    + intros Q. injection Q as <-. rewrite <- E. rewrite <- surjective_pairing. exact I.
    + intros Q. f_equal. apply (In_nth _ _ ([], 0)) in Q as [j [Hj Ej]].
      assert (NE : forall a b, (a < b < length l)%nat -> fst (nth a l ([], 0)) <> fst (nth b l ([], 0))).
      { intros a b H F.
        pose proof (sorted_nth _ (fun a b => bytes_ltb (fst a) (fst b))
          (fun a b c => bytes_ltb_trans (fst a) (fst b) (fst c)) l ([], 0) a b S H) as Q.
        cbn beta in Q. rewrite F in Q. unfold bytes_ltb in Q.
        rewrite (proj2 (bytes_cmp_eq _ _) eq_refl) in Q. discriminate. }
      destruct (Nat.lt_trichotomy i j) as [L|[->|L]].
      * exfalso. apply (NE i j); [lia|]. rewrite E, Ej. reflexivity.
      * rewrite Ej. reflexivity.
      * exfalso. apply (NE j i); [lia|]. rewrite E, Ej. reflexivity.
  - split; [discriminate|]. intros I. exfalso.
    apply (binary_search_none _ _ _ Hm E _ I). apply bytes_cmp_eq. reflexivity.
Qed.

Lemma longname_to_codepoint_In : forall name p, longname_to_codepoint name = Some p <-> In (name, p) LN_TABLE.
Proof. intros name p. exact (lookup_In LN_TABLE name p LN_TABLE_sorted). Qed.

Lemma member_In : forall (l : list (list Z)) name, sorted_by (fun a b => bytes_ltb a b) l = true ->
  (match binary_search (fun e => bytes_cmp e name) l [] with Some _ => true | None => false end = true <-> In name l).
Proof.
  intros l name S. pose proof (mono_bytes _ (fun x => x) l [] name S) as Hm.
  destruct (binary_search _ l []) as [i|] eqn:E.
  - apply binary_search_some in E as [Hi E]. apply bytes_cmp_eq in E. split; auto.
    intros _. rewrite <- E. apply nth_In; auto.
  - split; [discriminate|]. intros I. exfalso. apply (binary_search_none _ _ _ Hm E _ I).
    apply bytes_cmp_eq. reflexivity.
Qed.

Lemma isRaw_In : forall name, isRaw name = true <-> In name RAW_TABLE.
Proof. intros name. exact (member_In RAW_TABLE name RAW_TABLE_sorted). Qed.

Definition zsorted (l : list Z) : bool := sorted_by Z.ltb l.

Lemma table_mem_In : forall l c, zsorted l = true -> (table_mem l c = true <-> In c l).
Proof.
  intros l c S. unfold table_mem. pose proof (mono_Z _ (fun x => x) l 0 c S) as Hm.
  destruct (binary_search _ l 0) as [i|] eqn:E.
  - apply binary_search_some in E as [Hi E]. apply Z.compare_eq_iff in E. split; auto.
    intros _. rewrite <- E. apply nth_In; auto.
  - split; [discriminate|]. intros I. exfalso. eapply (binary_search_none _ _ _ Hm E); eauto.
    apply Z.compare_eq_iff. reflexivity.
Qed.

Lemma MB_tables_sorted :
  zsorted MB_NOT_STRANGE_LETTERLIKE = true /\ zsorted MB_PUNCTUATION = true /\ zsorted MB_WHITESPACE = true /\
  zsorted MB_NEWLINE = true /\ zsorted MB_UNINTERPRETABLE = true.
Proof. vm_compute. repeat split. Qed.

(** Every registered name is an upper case letter followed by ASCII letters and digits. *)
Definition ascii_alnum (b : Z) : bool := between 65 b 90 || between 97 b 122 || between 48 b 57.
Definition good_name (n : list Z) : bool :=
  match n with b :: _ => between 65 b 90 | [] => false end && forallb ascii_alnum n.

Lemma names_good_b : forallb (fun e => good_name (fst e)) LN_TABLE = true.
Proof. vm_compute. reflexivity. Qed.

Lemma names_good : forall name p, longname_to_codepoint name = Some p -> good_name name = true.
Proof.
  intros name p H. apply longname_to_codepoint_In in H.
  pose proof (proj1 (forallb_forall _ _) names_good_b _ H). auto.
Qed.
