From Coq Require Import ZArith List Bool Lia.
From Verif Require Import Base BoxPosition SpecBox.
Import ListNotations.
Local Open Scope Z_scope.

Lemma split_last_some : forall l x m, split_last l = Some (x, m) -> l = m ++ [x].
Proof.
  induction l as [|a r IH]; intros x m H; cbn in H; [discriminate|]. destruct (split_last r) as [[y n]|] eqn:E.
  - injection H as <- <-. rewrite (IH y n eq_refl). reflexivity.
  - injection H as <- <-. destruct r as [|b r]; auto. cbn in E. destruct (split_last r) as [[? ?]|]; discriminate.
Qed.
Lemma split_last_none : forall l, split_last l = None -> l = [].
Proof. intros [|a r] H; auto. cbn in H. destruct (split_last r) as [[? ?]|]; discriminate. Qed.
Lemma split_last_app : forall m x, split_last (m ++ [x]) = Some (x, m).
Proof. induction m as [|a m IH]; intros x; auto. cbn [app split_last]. rewrite IH. reflexivity. Qed.
Lemma most_slice_some : forall l m, most_slice l = Some m -> exists x, l = m ++ [x].
Proof. intros l m H. unfold most_slice in H. destruct (split_last l) as [[x n]|] eqn:E; [|discriminate]. injection H as <-. exists x. apply split_last_some. auto. Qed.

Definition ordered (s e : box_position) : Prop := in_order (start_path s) (start_path e).
Lemma order_last : forall m x y, in_order (m ++ [x]) (m ++ [y]) -> x <= y.
Proof.
  intros m x y H. remember (m ++ [x]) as P eqn:EP. remember (m ++ [y]) as Q eqn:EQ. destruct H as [p q|c i j p q L].
  - subst p. rewrite <- app_assoc in EQ. apply app_inv_head in EQ. injection EQ as <- _. lia.
  - revert c EP EQ. induction m as [|a m IH]; intros [|b c] EP EQ; cbn [app] in EP, EQ.
    + injection EP as -> _. injection EQ as -> _. lia.
    + injection EP as _ EP. destruct c; discriminate.
    + injection EP as -> _. injection EQ as -> _. lia.
    + injection EP as _ EP. injection EQ as _ EQ. eapply IH; eauto.
Qed.
Lemma bp_eqb_eq : forall a b, bp_eqb a b = true -> a = b.
Proof.
  intros [p|p [x y]|p|p] [q|q [x' y']|q|q] H; cbn in H; try discriminate; try (apply zlist_eqb_eq in H; subst; reflexivity).
  apply andb_prop in H as [H H3]. apply andb_prop in H as [H1 H2]. apply zlist_eqb_eq in H1. f_equal; auto. f_equal; lia.
Qed.

(** the common core: the start, or the cut end, has the index [j] under [m] *)
Lemma between_core : forall s e r, ordered s e -> rbind (common_prefix s e) (fun r => match r with Done r => Ok r | Common common a b => rmap Some (combine common a b) end) = Ok (Some r) ->
  forall q, covers s q \/ covers e q -> covers r q.
Proof.
  intros s e r O H q C.
  assert (K : forall sp ep, (s = BAt sp \/ s = BBefore sp) -> (e = BAt ep \/ e = BAfter ep) -> (exists i, q = sp ++ i) \/ (exists i, q = ep ++ i) -> in_order sp ep ->
    match split_last sp, split_last ep with
    | Some (sl, sm), Some (el, em) => if zlist_eqb sm em then rmap Some (combine sm (PIndex sl) (PIndex el)) else Panic
    | None, None => Ok (Some (BAt [])) | _, _ => Ok None end = Ok (Some r) -> covers r q).
  { clear. intros sp ep _ _ C O H. destruct (split_last sp) as [[sl sm]|] eqn:E1; destruct (split_last ep) as [[el em]|] eqn:E2; try discriminate.
    - destruct (zlist_eqb sm em) eqn:E; [|discriminate]. apply zlist_eqb_eq in E. subst em. apply split_last_some in E1, E2. subst sp ep. unfold combine in H. apply order_last in O.
      assert (C' : exists k i, q = sm ++ k :: i /\ sl <= k <= el).
      { destruct C as [[i ->]|[i ->]]; rewrite <- app_assoc; cbn [app]; [exists sl, i|exists el, i]; split; auto; lia. } clear C.
      destruct C' as (k & i & -> & Hk). destruct (Z.eqb_spec sl 1).
      + destruct (most_slice sm) as [p|] eqn:Em; [|discriminate]. injection H as <-. apply most_slice_some in Em as [x ->]. cbn [covers]. rewrite <- !app_assoc. eauto.
      + destruct (Z.eqb_spec sl 2); [|discriminate]. injection H as <-. cbn [covers]. exists k, i. split; auto. lia.
    - injection H as <-. exists q. reflexivity. }
  destruct s as [sp|sp [x y]|sp|sp]; destruct e as [ep|ep [x' y']|ep|ep]; cbn [common_prefix] in H; try discriminate; cbn [covers] in C; unfold ordered in O; cbn [start_path] in O;
    try (apply (K sp ep); auto; destruct (split_last sp) as [[? ?]|]; destruct (split_last ep) as [[? ?]|]; auto; destruct (zlist_eqb _ _); exact H).
  clear K. destruct (split_last sp) as [[sl sm]|] eqn:E1; [|discriminate]. destruct (zlist_eqb sm ep) eqn:E; [|discriminate]. apply zlist_eqb_eq in E. subst ep. cbn [negb rbind combine] in H.
  destruct (Z.eqb_spec sl 1); [|discriminate]. destruct (Z.eqb_spec x' 2); [|discriminate]. cbn [andb] in H. destruct (most_slice sm) as [p|] eqn:Em; [|discriminate]. injection H as <-.
  apply most_slice_some in Em as [z ->]. apply split_last_some in E1. subst sp. cbn [covers]. destruct C as [[i ->]|(i & i' & -> & _)]; rewrite <- !app_assoc; eauto.
Qed.

Lemma order_cut : forall a x b, in_order a (b ++ x) -> length b = length a -> in_order a b.
Proof.
  intros a x b H L. remember (b ++ x) as Q eqn:E. destruct H as [p q|c i j p q Lt].
  - assert (E' : firstn (length b) (p ++ q) = firstn (length b) (b ++ x)) by congruence. rewrite L in E' at 1. rewrite !firstn_app, !firstn_all, !Nat.sub_diag in E'. cbn [firstn] in E'. rewrite !app_nil_r in E'. subst p.
    rewrite <- (app_nil_r b) at 2. apply io_prefix.
  - rewrite app_length in L. cbn [length] in L. assert (E' : firstn (length b) (c ++ j :: q) = firstn (length b) (b ++ x)) by congruence. rewrite (firstn_app (length b) b), firstn_all, Nat.sub_diag in E'. cbn [firstn] in E'. rewrite app_nil_r in E'.
    rewrite firstn_app, firstn_all2 in E' by lia. replace (length b - length c)%nat with (S (length p)) in E' by lia. cbn [firstn] in E'. rewrite <- E'. apply io_before. auto.
Qed.

Lemma between_covers : forall s e r, in_order (start_path s) (start_path e) -> between s e = Ok (Some r) -> forall q, covers s q \/ covers e q -> covers r q.
Proof.
  intros s e r O H q C. unfold between in H. destruct (bp_eqb s e) eqn:E.
  - injection H as <-. apply bp_eqb_eq in E. subst e. tauto.
  - clear E. assert (K : normalize s e = (s, e) \/ exists a b x, s = BAt a /\ e = BAt (b ++ x) /\ length b = length a /\ normalize s e = (BAt a, BAt b)).
    { destruct s as [a|? ?|?|?]; auto. destruct e as [f|? ?|?|?]; auto. unfold normalize. destruct (Nat.eqb_spec (length f) (length a + 2)); auto.
      destruct (most_slice a); auto. destruct (most_slice _); auto. destruct (zlist_eqb _ _); auto. right.
      exists a, (firstn (length f - 2) f), (skipn (length f - 2) f). rewrite firstn_skipn. repeat split; auto. rewrite firstn_length. lia. }
    destruct K as [K|(a & b & x & -> & -> & L & K)]; rewrite K in H.
    + exact (between_core s e r O H q C).
    + apply (between_core (BAt a) (BAt b) r); auto.
      * cbn [start_path] in O. unfold ordered. cbn [start_path]. eapply order_cut; eauto.
      * destruct C as [C|[i ->]]; auto. right. cbn [covers]. rewrite <- app_assoc. eauto.
Qed.

(** the first or the second box up to a later one in the same row *)
Lemma between_first : forall p r j, j <> 1 -> between (BAt (p ++ [r; 1])) (BAt (p ++ [r; j])) = Ok (Some (BAt p)).
Proof.
  intros p r j N. unfold between. assert (E : bp_eqb (BAt (p ++ [r; 1])) (BAt (p ++ [r; j])) = false).
  { apply not_true_is_false. intros X. apply bp_eqb_eq in X. injection X as X. apply app_inv_head in X. injection X as X. lia. }
  rewrite E. unfold normalize. destruct (Nat.eqb_spec (length (p ++ [r; j])) (length (p ++ [r; 1]) + 2)); [rewrite !app_length in *; cbn [length] in *; lia|].
  change (p ++ [r; 1]) with (p ++ [r] ++ [1]). change (p ++ [r; j]) with (p ++ [r] ++ [j]). rewrite !app_assoc. unfold common_prefix. rewrite !split_last_app.
  assert (Q : zlist_eqb (p ++ [r]) (p ++ [r]) = true) by (apply zlist_eqb_eq; reflexivity). rewrite Q. cbn [rbind combine]. change (1 =? 1) with true. cbv iota. unfold most_slice. rewrite split_last_app. reflexivity.
Qed.
Lemma between_second : forall p j, 2 < j -> between (BAt (p ++ [2])) (BAt (p ++ [j])) = Ok (Some (BSpanning p (2, j))).
Proof.
  intros p j N. unfold between. assert (E : bp_eqb (BAt (p ++ [2])) (BAt (p ++ [j])) = false).
  { apply not_true_is_false. intros X. apply bp_eqb_eq in X. injection X as X. apply app_inv_head in X. injection X as X. lia. }
  rewrite E. unfold normalize. destruct (Nat.eqb_spec (length (p ++ [j])) (length (p ++ [2]) + 2)); [rewrite !app_length in *; cbn [length] in *; lia|].
  unfold common_prefix. rewrite !split_last_app.
  assert (Q : zlist_eqb p p = true) by (apply zlist_eqb_eq; reflexivity). rewrite Q. reflexivity.
Qed.
