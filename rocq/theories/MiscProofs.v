(** Proofs about the helpers of Utils.v. *)
From Coq Require Import String ZArith List Bool Lia.
From Verif Require Import Base Source Tokenizer Utils SpecMisc.
Import ListNotations.
Local Open Scope Z_scope.

(** ** split_by_pairs *)
Lemma adjacent_snoc : forall T (x y : T) l z, adjacent x y (l ++ [z]) ->
  adjacent x y l \/ (exists p, l = p ++ [x]) /\ y = z.
Proof.
  intros T x y l z [p [q E]].
  destruct (exists_last (l := y :: q)) as [q' [w Eq]]; [discriminate|].
  assert (E' : l ++ [z] = (p ++ x :: q') ++ [w]).
  { rewrite E, Eq, <- app_assoc. reflexivity. }
  apply app_inj_tail in E' as [-> ->].
  destruct q' as [|a q''].
  - simpl in Eq. injection Eq as -> ->. right. split; [exists p; reflexivity|reflexivity].
  - simpl in Eq. injection Eq as -> ->. left. exists p, q''. reflexivity.
Qed.

Lemma split_from_grouped : forall T (P : T -> T -> bool) l cur last c0,
  cur = c0 ++ [last] ->
  (forall x y, adjacent x y cur -> P x y = true) ->
  exists gs, split_by_pairs_from (fun a b => Ok (P a b)) cur last l = Ok gs /\
    grouped P (cur ++ l) gs /\ (exists t gs', gs = (cur ++ t) :: gs').
Proof.
  intros T P; induction l as [|y l IH]; intros cur last c0 E A; cbn [split_by_pairs_from].
  - exists [cur]. split; [reflexivity|]. split.
    + split; [cbn; rewrite app_nil_r; reflexivity|]. split; [|split].
      * intros g [<-|[]]. rewrite E. destruct c0; discriminate.
      * intros g a b [<-|[]]. apply A.
      * intros g h p a b q [p' [q' X]]. destruct p' as [|? p']; [discriminate|].
        destruct p'; discriminate.
    + exists [], []. rewrite app_nil_r. reflexivity.
  - cbn [rbind]. destruct (P last y) eqn:Py.
    + destruct (IH (cur ++ [y]) y cur eq_refl) as [gs [G1 [G2 [t [gs' G3]]]]].
      { intros a b H. apply adjacent_snoc in H as [H|[[p Ep] ->]]; auto.
        rewrite E in Ep. apply app_inj_tail in Ep as [_ ->]. auto. }
      exists gs. split; [exact G1|]. rewrite <- app_assoc in G2. split; [exact G2|].
      exists (y :: t), gs'. rewrite G3, <- app_assoc. reflexivity.
    + destruct (IH [y] y [] eq_refl) as [gs [G1 [[C1 [C2 [C3 C4]]] [t [gs' G3]]]]].
      { intros a b [p [q X]]. destruct p as [|? p]; [discriminate|]. destruct p; discriminate. }
      exists (cur :: gs). rewrite G1. split; [reflexivity|]. split.
      * split; [cbn; rewrite C1; reflexivity|]. split; [|split].
        -- intros g [<-|H]; [rewrite E; destruct c0; discriminate | apply C2; exact H].
        -- intros g a b [<-|H] HA; [apply A; exact HA | exact (C3 g a b H HA)].
        -- intros g h p a b q [p' [q' X]] Eg Eh. destruct p' as [|z p'].
           ++ injection X as X1 X2. rewrite G3 in X2. injection X2 as X2 _.
              rewrite <- X2 in Eh. injection Eh as -> _. rewrite <- X1, E in Eg.
              apply app_inj_tail in Eg as [_ ->]. exact Py.
           ++ injection X as _ X. apply (C4 g h p a b q); auto. exists p', q'. exact X.
      * exists [], gs. rewrite app_nil_r. reflexivity.
Qed.

Lemma split_by_pairs_grouped : forall T (P : T -> T -> bool) l,
  exists gs, split_by_pairs (fun a b => Ok (P a b)) l = Ok gs /\ grouped P l gs.
Proof.
  intros T P [|x l]; cbn [split_by_pairs].
  - exists []. split; [reflexivity|]. split; [reflexivity|]. split; [intros g []|].
    split; [intros g a b []|]. intros g h p a b q [p' [q' X]]. destruct p'; discriminate.
  - destruct (split_from_grouped T P l [x] x [] eq_refl) as [gs [G1 [G2 _]]].
    + intros a b [p [q X]]. destruct p as [|? p]; [discriminate|]. destruct p; discriminate.
    + exists gs. auto.
Qed.

Lemma adjacent_cons : forall T (x y z : T) l, adjacent x y l -> adjacent x y (z :: l).
Proof. intros T x y z l [p [q ->]]. exists (z :: p), q. reflexivity. Qed.

(** The grouping is determined by its specification. *)
Lemma grouped_unique : forall T (P : T -> T -> bool) n l gs hs,
  (length l <= n)%nat -> grouped P l gs -> grouped P l hs -> gs = hs.
Proof.
  intros T P; induction n as [|n IH]; intros l gs hs Hn [G1 [G2 [G3 G4]]] [H1 [H2 [H3 H4]]].
  - destruct l; [|simpl in Hn; lia].
    destruct gs as [|g gs]; destruct hs as [|h hs]; auto; exfalso.
    + cbn in H1. apply app_eq_nil in H1 as [E _]. apply (H2 h); simpl; auto.
    + cbn in G1. apply app_eq_nil in G1 as [E _]. apply (G2 g); simpl; auto.
    + cbn in G1. apply app_eq_nil in G1 as [E _]. apply (G2 g); simpl; auto.
  - destruct gs as [|g gs]; destruct hs as [|h hs]; auto.
    + rewrite <- G1 in H1. cbn in H1. apply app_eq_nil in H1 as [E _].
      exfalso. apply (H2 h); simpl; auto.
    + rewrite <- H1 in G1. cbn in G1. apply app_eq_nil in G1 as [E _].
      exfalso. apply (G2 g); simpl; auto.
    + assert (Egh : g = h).
      { cbn in G1, H1. rewrite <- G1 in H1.
        assert (Ng : g <> []) by (apply G2; simpl; auto).
        assert (Nh : h <> []) by (apply H2; simpl; auto).
        symmetry in H1. apply app_eq_app in H1 as [r [[E1 E2]|[E1 E2]]].
        - (* g = h ++ r *)
          destruct r as [|y r]; [rewrite app_nil_r in E1; auto|].
          exfalso. destruct (exists_last Nh) as [h0 [x Eh]].
          destruct hs as [|k hs]; [cbn in E2; discriminate|].
          assert (Nk : k <> []) by (apply H2; simpl; auto).
          destruct k as [|k0 k]; [auto|]. cbn in E2. injection E2 as E2 _.
          assert (B : P x k0 = false).
          { apply (H4 h (k0 :: k) h0 x k0 k); auto. exists [], hs. reflexivity. }
          assert (B' : P x y = true).
          { apply (G3 g); [simpl; auto|]. exists h0, r. rewrite E1, Eh, <- app_assoc. reflexivity. }
          congruence.
        - destruct r as [|y r]; [rewrite app_nil_r in E1; auto|].
          exfalso. destruct (exists_last Ng) as [g0 [x Eg]].
          destruct gs as [|k gs]; [cbn in E2; discriminate|].
          assert (Nk : k <> []) by (apply G2; simpl; auto).
          destruct k as [|k0 k]; [auto|]. cbn in E2. injection E2 as E2 _.
          assert (B : P x k0 = false).
          { apply (G4 g (k0 :: k) g0 x k0 k); auto. exists [], gs. reflexivity. }
          assert (B' : P x y = true).
          { apply (H3 h); [simpl; auto|]. exists g0, r. rewrite E1, Eg, <- app_assoc. reflexivity. }
          congruence. }
      subst h. f_equal. cbn in G1, H1.
      assert (E : concat gs = concat hs) by (rewrite <- G1 in H1; apply app_inv_head in H1; auto).
      apply (IH (concat gs)).
      * assert (Ng : g <> []) by (apply G2; simpl; auto).
        rewrite <- G1, app_length in Hn. destruct g; [contradiction|]. simpl in Hn. lia.
      * split; [reflexivity|]. split; [intros; apply G2; simpl; auto|].
        split; [intros k x y Hk; apply G3; simpl; auto|].
        intros k k' p x y q HA. apply G4. apply adjacent_cons; exact HA.
      * split; [auto|]. split; [intros; apply H2; simpl; auto|].
        split; [intros k x y Hk; apply H3; simpl; auto|].
        intros k k' p x y q HA. apply H4. apply adjacent_cons; exact HA.
Qed.

(** ** Lines *)
Lemma no_break_nil : no_break [].
Proof. split; intros []. Qed.

Lemma no_break_snoc : forall l c, no_break l -> c <> 10 -> c <> 13 -> no_break (l ++ [c]).
Proof.
  intros l c [A B] C D; split; intros H; apply in_app_iff in H as [H|[H|[]]]; auto; congruence.
Qed.

Lemma split_lines_from_ok : forall n input line, (length input <= n)%nat -> no_break line ->
  lines_of (line ++ input) (split_lines_from line input).
Proof.
  induction n as [|n IH]; intros input line Hn NB.
  - destruct input; [|simpl in Hn; lia]. cbn. rewrite app_nil_r.
    destruct line; constructor; auto. discriminate.
  - destruct input as [|c r]; cbn [split_lines_from].
    + rewrite app_nil_r. destruct line; constructor; auto. discriminate.
    + simpl in Hn. destruct (Z.eqb_spec c 10) as [->|N10].
      { apply (lines_more line [10] r (split_lines_from [] r)); auto.
        - left; reflexivity.
        - apply (IH r []); [lia|apply no_break_nil].
        - intros H; discriminate. }
      destruct (Z.eqb_spec c 13) as [->|N13].
      { destruct r as [|d r'].
        - apply (lines_more line [13] [] (split_lines_from [] [])); auto.
          + right; left; reflexivity.
          + constructor.
          + intros _ r' H; discriminate.
        - destruct (Z.eqb_spec d 10) as [->|ND].
          + apply (lines_more line [13; 10] r' (split_lines_from [] r')); auto.
            * right; right; reflexivity.
            * apply (IH r' []); [simpl in Hn; lia|apply no_break_nil].
            * intros H; discriminate.
          + apply (lines_more line [13] (d :: r') (split_lines_from [] (d :: r'))); auto.
            * right; left; reflexivity.
            * apply (IH (d :: r') []); [lia|apply no_break_nil].
            * intros _ q H. injection H as -> _. congruence. }
      replace (line ++ c :: r) with ((line ++ [c]) ++ r) by (rewrite <- app_assoc; reflexivity).
      apply IH; [lia|]. apply no_break_snoc; auto.
Qed.

Lemma split_lines_ok : forall input, input <> [] -> lines_of input (split_lines_keep_sep input).
Proof.
  intros [|c r] H; [contradiction|]. unfold split_lines_keep_sep.
  apply (split_lines_from_ok (length (c :: r)) (c :: r) []); [lia|apply no_break_nil].
Qed.

Lemma lines_of_concat : forall t ls, lines_of t ls -> concat (map (fun p => fst p ++ snd p) ls) = t.
Proof.
  induction 1 as [|l N B|l s r ls NB LB H IH C]; cbn; auto.
  - rewrite !app_nil_r. reflexivity.
  - rewrite IH, <- app_assoc. reflexivity.
Qed.

Lemma split_lossless : forall input,
  concat (map (fun p => fst p ++ snd p) (split_lines_keep_sep input)) = input.
Proof.
  intros [|c r]; [reflexivity|]. apply lines_of_concat, split_lines_ok. discriminate.
Qed.

(** A text starting with a break-free line and then a break splits in one way. *)
Lemma no_break_prefix : forall l l' t t',
  no_break l -> no_break l' ->
  (t = [] \/ exists c q, t = c :: q /\ (c = 10 \/ c = 13)) ->
  (t' = [] \/ exists c q, t' = c :: q /\ (c = 10 \/ c = 13)) ->
  l ++ t = l' ++ t' -> l = l' /\ t = t'.
Proof.
  induction l as [|x l IH]; intros l' t t' [A B] [A' B'] T T' E.
  - destruct l' as [|y l']; [auto|]. exfalso. cbn in E. subst t.
    destruct T as [|[c [q [T H]]]]; [discriminate|]. injection T as -> _.
    destruct H as [->| ->]; [apply A'|apply B']; simpl; auto.
  - destruct l' as [|y l'].
    + exfalso. cbn in E. subst t'.
      destruct T' as [|[c [q [T' H]]]]; [discriminate|]. injection T' as -> _.
      destruct H as [->| ->]; [apply A|apply B]; simpl; auto.
    + cbn in E. injection E as -> E.
      destruct (IH l' t t') as [-> ->]; auto;
        split; intros H; [apply A|apply B|apply A'|apply B']; simpl; auto.
Qed.

Lemma lb_start : forall s (r : list Z), line_break s -> exists c q, s ++ r = c :: q /\ (c = 10 \/ c = 13).
Proof. intros s r [->|[->| ->]]; cbn; eauto 6. Qed.

Lemma lines_of_unique : forall t ls, lines_of t ls -> forall ls', lines_of t ls' -> ls = ls'.
Proof.
  induction 1 as [|l N B|l s r ls NB LB H IH C]; intros ls' H'.
  - inversion H' as [|l N B|l s r ls NB LB H C]; subst; auto; try contradiction.
    destruct LB as [->|[->| ->]]; destruct l; discriminate.
  - inversion H' as [|l' N' B'|l' s r ls NB LB H C]; subst; auto; try contradiction.
    exfalso. destruct LB as [->|[->| ->]]; destruct B as [B1 B2];
      [apply B1|apply B2|apply B2]; apply in_app_iff; right; simpl; auto.
  - inversion H' as [E|l' N' B' E|l' s' r' ls1 NB' LB' H1 C' E].
    + exfalso. destruct LB as [->|[->| ->]]; destruct l; discriminate.
    + exfalso. subst l'. destruct LB as [->|[->| ->]]; destruct B' as [B1 B2];
      [apply B1|apply B2|apply B2]; apply in_app_iff; right; simpl; auto.
    + destruct (no_break_prefix l' l (s' ++ r') (s ++ r)) as [-> E']; auto;
        try (right; apply lb_start; assumption).
      assert (X : s' = s /\ r' = r).
      { destruct LB as [->|[->| ->]]; destruct LB' as [->|[->| ->]];
          cbn in E'; try discriminate E'; injection E' as E'; subst; auto.
        - exfalso. apply (C eq_refl r'). reflexivity.
        - exfalso. apply (C' eq_refl r). reflexivity. }
      destruct X as [-> ->]. f_equal. apply IH. exact H1.
Qed.

(** ** Spans *)
Lemma lc_contains_iff : forall l1 c1 l2 c2 l c,
  pos_le (l1, c1) (l2, c2) ->
  (lc_contains l1 c1 l2 c2 l c = true <-> in_span (l1, c1) (l2, c2) (l, c)).
Proof.
  intros l1 c1 l2 c2 l c W. unfold lc_contains, in_span, pos_le in *. cbn [fst snd] in *.
  destruct (Z.leb_spec l1 l), (Z.leb_spec l l2), (Z.eqb_spec l l1), (Z.eqb_spec l1 l2),
    (Z.eqb_spec l l2); cbn [negb andb];
    rewrite ?andb_true_iff, ?Z.leb_le; split; intros; try discriminate; try lia; auto.
Qed.

Lemma lc_overlaps_iff : forall l1 c1 l2 c2 m1 d1 m2 d2,
  pos_le (l1, c1) (l2, c2) ->
  (lc_overlaps l1 c1 l2 c2 m1 d1 m2 d2 = true <->
   in_span (l1, c1) (l2, c2) (m1, d1) \/ in_span (l1, c1) (l2, c2) (m2, d2)).
Proof. intros. unfold lc_overlaps. rewrite orb_true_iff, !lc_contains_iff; tauto. Qed.

Lemma lc_overlaps_either : forall l1 c1 l2 c2 m1 d1 m2 d2,
  pos_le (l1, c1) (l2, c2) -> pos_le (m1, d1) (m2, d2) ->
  (lc_overlaps l1 c1 l2 c2 m1 d1 m2 d2 = true \/ lc_overlaps m1 d1 m2 d2 l1 c1 l2 c2 = true <->
   exists p, in_span (l1, c1) (l2, c2) p /\ in_span (m1, d1) (m2, d2) p).
Proof.
  intros l1 c1 l2 c2 m1 d1 m2 d2 W1 W2. rewrite !lc_overlaps_iff by assumption.
  unfold in_span, pos_le in *. cbn [fst snd] in *. split.
  - intros [[H|H]|[H|H]].
    + exists (m1, d1). cbn [fst snd]. lia.
    + exists (m2, d2). cbn [fst snd]. lia.
    + exists (l1, c1). cbn [fst snd]. lia.
    + exists (l2, c2). cbn [fst snd]. lia.
  - intros [[l c] H]. cbn [fst snd] in H. lia.
Qed.

Lemma intersection_ok : forall a b c d, a <= b -> c <= d ->
  exists r, intersection (a, b) (c, d) = Ok r /\
    forall p, (a <= p <= b /\ c <= p <= d) <-> match r with Some (x, y) => x <= p <= y | None => False end.
Proof.
  intros a b c d H1 H2. unfold intersection. cbn [fst].
  destruct (Z.ltb_spec a c).
  - rewrite (proj2 (Z.leb_le a b)), (proj2 (Z.leb_le c d)) by lia. cbn [negb].
    destruct (Z.ltb_spec (Z.min b d) (Z.max a c)); (eexists; split; [reflexivity|]; cbn beta iota; intros p; split; intros; lia).
  - rewrite (proj2 (Z.leb_le a b)), (proj2 (Z.leb_le c d)) by lia. cbn [negb].
    destruct (Z.ltb_spec (Z.min d b) (Z.max c a)); (eexists; split; [reflexivity|]; cbn beta iota; intros p; split; intros; lia).
Qed.

Lemma char_intersects_iff : forall a b c d, a <= b -> c <= d ->
  exists r, char_intersects (a, b) (c, d) = Ok r /\
    (r = true <-> exists p, a <= p <= b /\ c <= p <= d).
Proof.
  intros a b c d H1 H2. destruct (intersection_ok a b c d H1 H2) as [r [E H]].
  unfold char_intersects, rmap. rewrite E. cbn [rbind]. destruct r as [[x y]|]; eexists; (split; [reflexivity|]).
  - split; auto. intros _. exists (Z.max a c). 
    unfold intersection in E. cbn [fst] in E. 
    destruct (a <? c) eqn:L; 
    rewrite (proj2 (Z.leb_le a b)), (proj2 (Z.leb_le c d)) in E by lia; cbn [negb] in E;
    [destruct (Z.ltb_spec (Z.min b d) (Z.max a c))|destruct (Z.ltb_spec (Z.min d b) (Z.max c a))];
      try discriminate; lia.
  - split; [discriminate|]. intros [p Hp]. exfalso. exact (proj1 (H p) Hp).
Qed.

(** ** Orders *)
Lemma loc_cmp_antisym : forall a b r, loc_cmp a b = Some r -> loc_cmp b a = Some (CompOpp r).
Proof.
  intros [l1 c1|i] [l2 c2|j] r; cbn; try discriminate; intros H; injection H as <-; f_equal.
  - rewrite (Z.compare_antisym l1 l2). destruct (l1 ?= l2); cbn; auto. apply Z.compare_antisym.
  - apply Z.compare_antisym.
Qed.

(** Issues at the same place are ordered lawfully, by decreasing tag. *)
Lemma issue_cmp_same_place : forall s t u,
  issue_cmp (SrcSpan s, t) (SrcSpan s, u) = CompOpp (Z.compare (tag_rank t) (tag_rank u)).
Proof.
  intros. unfold issue_cmp. cbn [fst snd source_cmp]. destruct (sp_start s); cbn [loc_cmp];
    rewrite ?Z.compare_refl; reflexivity.
Qed.

Lemma issue_cmp_earlier : forall s t x y, loc_cmp (sp_start s) (sp_start t) = Some Lt ->
  issue_cmp (SrcSpan s, x) (SrcSpan t, y) = Lt /\
  issue_cmp (SrcSpan t, y) (SrcSpan s, x) = CompOpp (Z.compare (tag_rank y) (tag_rank x)).
Proof.
  intros s t x y H. unfold issue_cmp. cbn [fst snd source_cmp]. rewrite H.
  apply loc_cmp_antisym in H. rewrite H. split; reflexivity.
Qed.

(** The two answers agree exactly when the places coincide (or are unrelated), or the
    earlier issue also has the greater tag. *)
Lemma issue_cmp_lawful_iff : forall a b,
  issue_cmp b a = CompOpp (issue_cmp a b) <->
  match source_cmp (fst a) (fst b) with
  | Some Lt => tag_rank (snd b) < tag_rank (snd a)
  | Some Gt => tag_rank (snd a) < tag_rank (snd b)
  | _ => True
  end.
Proof.
  intros [sa x] [sb y]. unfold issue_cmp. cbn [fst snd].
  assert (A : forall r, source_cmp sa sb = Some r -> source_cmp sb sa = Some (CompOpp r)).
  { destruct sa, sb; cbn [source_cmp]; try discriminate. apply loc_cmp_antisym. }
  assert (N : source_cmp sa sb = None -> source_cmp sb sa = None).
  { destruct sa as [sa|?|], sb as [sb|?|]; cbn [source_cmp]; auto.
    destruct (sp_start sa), (sp_start sb); cbn [loc_cmp]; auto; discriminate. }
  rewrite (Z.compare_antisym (tag_rank x) (tag_rank y)).
  destruct (source_cmp sa sb) as [[| |]|].
  - rewrite (A _ eq_refl). cbn [CompOpp]. tauto.
  - rewrite (A _ eq_refl). cbn [CompOpp]. rewrite CompOpp_involutive.
    rewrite (Z.compare_gt_iff (tag_rank x)). tauto.
  - rewrite (A _ eq_refl). cbn [CompOpp].
    rewrite CompOpp_involutive, <- Z.compare_lt_iff. split; intros H; [symmetry|]; congruence.
  - rewrite (N eq_refl). tauto.
Qed.

(** ** Names and codes *)
Lemma tag_roundtrip : forall t, tag_from_str (tag_as_str t) = Some t.
Proof. intros []; reflexivity. Qed.
Lemma severity_roundtrip : forall v, severity_from_str (severity_as_str v) = Some v.
Proof. intros []; reflexivity. Qed.
Lemma unsafe_roundtrip : forall v, unsafe_from_str (unsafe_as_str v) = Some v.
Proof. intros []; reflexivity. Qed.
Lemma reason_roundtrip : forall v, from_missing_reason (missing_reason v) = Some v.
Proof. intros []; vm_compute; reflexivity. Qed.

Lemma string_match_in : forall A s (arms : list (string * A)) v,
  string_match s arms = Some v -> In (s, v) arms.
Proof.
  induction arms as [|[k w] r IH]; cbn; intros v H; [discriminate|].
  destruct (String.eqb_spec s k) as [->|]; [injection H as ->; auto|right; auto].
Qed.

Lemma tag_from_exact : forall s t, tag_from_str s = Some t -> s = tag_as_str t.
Proof.
  intros s t H. apply string_match_in in H. repeat (destruct H as [H|H]; [injection H as <- <-; reflexivity|]).
  destruct H.
Qed.
Lemma severity_from_exact : forall s t, severity_from_str s = Some t -> s = severity_as_str t.
Proof.
  intros s t H. apply string_match_in in H. repeat (destruct H as [H|H]; [injection H as <- <-; reflexivity|]).
  destruct H.
Qed.
Lemma unsafe_from_exact : forall s t, unsafe_from_str s = Some t -> s = unsafe_as_str t.
Proof.
  intros s t H. apply string_match_in in H. repeat (destruct H as [H|H]; [injection H as <- <-; reflexivity|]).
  destruct H.
Qed.

Ltac codes := intros v e; destruct v as [|[p|[q|q|]|]|p]; cbn; destruct e; split; intros H; try reflexivity; try discriminate.

Lemma first_line_codes : forall v e, first_line_of_i32 v = Some e <-> v = first_line_code e.
Proof. codes. Qed.
Lemma encoding_codes : forall v e, encoding_of_i32 v = Some e <-> v = encoding_code e.
Proof. codes. Qed.
Lemma stringify_codes : forall v e, stringify_of_i32 v = Some e <-> v = stringify_code e.
Proof. codes. Qed.
Lemma convention_codes : forall v e, convention_of_i32 v = Some e <-> v = convention_code e.
Proof. codes. Qed.

Lemma span_between_covers : forall a b,
  loc_leb (sp_start a) (sp_end a) = Some true -> loc_leb (sp_start b) (sp_end b) = Some true ->
  loc_leb (sp_start a) (sp_start b) = Some true -> loc_leb (sp_end a) (sp_end b) = Some true ->
  exists r, Span_between a b = Ok r /\ forall p,
    (loc_leb (sp_start a) p = Some true /\ loc_leb p (sp_end a) = Some true) \/
    (loc_leb (sp_start b) p = Some true /\ loc_leb p (sp_end b) = Some true) ->
    loc_leb (sp_start r) p = Some true /\ loc_leb p (sp_end r) = Some true.
Proof.
  intros [[a1 a2|a1] [a3 a4|a3]] [[b1 b2|b1] [b3 b4|b3]]; cbn [sp_start sp_end loc_leb];
    intros H1 H2 H3 H4; try discriminate;
    injection H1 as H1; injection H2 as H2; injection H3 as H3; injection H4 as H4;
    unfold Span_between, Span_new; cbn [sp_start sp_end loc_leb]; rewrite H3.
  - assert (E : (a1 <? b3) || (a1 =? b3) && (a2 <=? b4) = true).
    { rewrite ?orb_true_iff, ?andb_true_iff, ?Z.ltb_lt, ?Z.eqb_eq, ?Z.leb_le in *. lia. }
    rewrite E. eexists; split; [reflexivity|]. intros [p q|p]; cbn [loc_leb sp_start sp_end];
      [|intros [[? ?]|[? ?]]; discriminate].
    intros [[G1 G2]|[G1 G2]]; injection G1 as G1; injection G2 as G2; split; f_equal;
      rewrite ?orb_true_iff, ?andb_true_iff, ?Z.ltb_lt, ?Z.eqb_eq, ?Z.leb_le in *; lia.
  - assert (E : (a1 <=? b3) = true).
    { rewrite ?Z.leb_le in *. lia. }
    rewrite E. eexists; split; [reflexivity|]. intros [p q|p]; cbn [loc_leb sp_start sp_end];
      [intros [[? ?]|[? ?]]; discriminate|].
    intros [[G1 G2]|[G1 G2]]; injection G1 as G1; injection G2 as G2; split; f_equal;
      rewrite ?Z.leb_le in *; lia.
Qed.
