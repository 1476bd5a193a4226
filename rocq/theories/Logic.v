(** Program logic for the reader monad: every action moves along source characters,
    keeps the reader invariant, only appends to the log, and can panic only if the
    input contains a surrogate escape. *)
From Coq Require Import ZArith List Bool Lia.
From Verif Require Import Base Source WLChar ByteDecoder Decode SpecText Iter TextProofs CharDecoder.
Import ListNotations.
Local Open Scope Z_scope.

Definition lflag (s : st) : Prop := l_flag (lg s) <> None.

Definition R (o : opts) (s s' : st) : Prop :=
  (exists cs, moves o (rest (cur s)) (ploc (cur s)) cs (rest (cur s')) (ploc (cur s'))
     /\ (existsb unsafe_char cs = true -> lflag s'))
  /\ logext o (lg s) (lg s')
  /\ (lflag s' -> lflag s \/ dirty (rest (cur s))).

Lemma R_refl : forall o s, R o s s.
Proof.
  intros; split; [|split; [apply le_refl|auto]]. exists []. split; [constructor|discriminate].
Qed.

Lemma R_flag : forall o s s', R o s s' -> lflag s -> lflag s'.
Proof. intros o s s' [_ [H _]]. apply (logext_flag o); auto. Qed.

Lemma R_trans : forall o s1 s2 s3, R o s1 s2 -> R o s2 s3 -> R o s1 s3.
Proof.
  intros o s1 s2 s3 H12 H23. pose proof (R_flag _ _ _ H23) as F.
  destruct H12 as [[cs [M1 U1]] [L1 D1]], H23 as [[ds [M2 U2]] [L2 D2]].
  split; [|split].
  - exists (cs ++ ds). split; [eapply moves_trans; eauto|]. rewrite existsb_app, orb_true_iff. intros [H|H]; auto.
  - eapply logext_trans; eauto.
  - intros H. destruct (D2 H) as [H'|H']; auto. right. eapply dirty_moves; eauto.
Qed.

Lemma R_suffix : forall o s s', R o s s' -> exists pre, rest (cur s) = pre ++ rest (cur s').
Proof. intros o s s' [[cs [M _]] _]. eapply moves_suffix; eauto. Qed.

Lemma R_length : forall o s s', R o s s' -> (length (rest (cur s')) <= length (rest (cur s)))%nat.
Proof. intros o s s' H. destruct (R_suffix _ _ _ H) as [pre ->]. rewrite app_length; lia. Qed.

Lemma R_leb : forall o s s', Inv o s -> R o s s' -> loc_leb (ploc (cur s)) (ploc (cur s')) = Some true.
Proof. intros o s s' [Ht [_ Hl]] [[cs [M _]] _]. eapply moves_leb; eauto. Qed.

Lemma R_nil : forall o s s', R o s s' -> rest (cur s) = [] -> rest (cur s') = [].
Proof. intros o s s' H E. pose proof (R_length _ _ _ H). rewrite E in H0. destruct (rest (cur s')); auto. cbn in H0; lia. Qed.

(** If two states are equal except for the position, and we know how the position was
    reached, [R] holds. *)
Lemma R_seek : forall o s0 s1 s, R o s0 s1 -> R o s1 s -> R o s0 (mkst (cur s1) (lg s)).
Proof.
  intros o s0 s1 s H1 H2. pose proof (R_flag _ _ _ H2) as F. pose proof (R_trans _ _ _ _ H1 H2) as H3.
  destruct H1 as [[cs [M1 U1]] [L1 D1]], H2 as [_ [L2 D2]], H3 as [_ [L3 D3]].
  split; [|split]; auto.
  exists cs. split; auto.
Qed.

(** The same where only the bytes and location are restored. *)
Lemma R_seek_loc : forall o s0 s1 s w, R o s0 s1 -> R o s1 s ->
  R o s0 (mkst (mkpos (rest (cur s1)) w (ploc (cur s1))) (lg s)).
Proof. intros o s0 s1 s w H1 H2. pose proof (R_seek _ _ _ _ H1 H2) as H. exact H. Qed.

Lemma surr_suffix : forall pre bs, has_surrogate_escape bs -> has_surrogate_escape (pre ++ bs).
Proof. intros pre bs (p & q & -> & H). exists (pre ++ p), q. rewrite app_assoc; auto. Qed.

Lemma R_surr : forall o s s', R o s s' -> has_surrogate_escape (rest (cur s')) -> has_surrogate_escape (rest (cur s)).
Proof. intros o s s' H S. destruct (R_suffix _ _ _ H) as [pre ->]. apply surr_suffix; auto. Qed.

(** ** Weakest preconditions relative to a base state *)
Section PanicCondition.
(** what a panic of the program must imply *)
Context (E : Prop).

Definition wpr {A} (o : opts) (s0 : st) (m : M A) (s : st) (Q : A -> st -> Prop) : Prop :=
  match m s with
  | Ok (a, s') => Inv o s' /\ R o s0 s' /\ Q a s'
  | Panic => E
  | OutOfFuel => False
  end.


Lemma wpr_ret : forall A o s0 (a : A) s (Q : A -> st -> Prop), Inv o s -> R o s0 s -> Q a s -> wpr o s0 (ret a) s Q.
Proof. intros; unfold wpr, ret; auto. Qed.

Lemma wpr_bind : forall A B o s0 (m : M A) (k : A -> M B) s Q,
  wpr o s0 m s (fun a s1 => wpr o s0 (k a) s1 Q) -> wpr o s0 (bind m k) s Q.
Proof.
  intros A B o s0 m k s Q H. unfold wpr, bind in *. destruct (m s) as [[a s1]| |]; auto. apply H.
Qed.

Lemma wpr_conseq : forall A o s0 (m : M A) s (P Q : A -> st -> Prop),
  wpr o s0 m s P -> (forall a s', Inv o s' -> R o s0 s' -> P a s' -> Q a s') -> wpr o s0 m s Q.
Proof. intros A o s0 m s P Q H HI. unfold wpr in *. destruct (m s) as [[a s']| |]; auto. intuition. Qed.

(** Use of a specification proved relative to the current state. *)
Lemma wpr_call : forall A o s0 (m : M A) s (P Q : A -> st -> Prop),
  R o s0 s -> wpr o s m s P ->
  (forall a s', Inv o s' -> R o s s' -> R o s0 s' -> P a s' -> Q a s') -> wpr o s0 m s Q.
Proof.
  intros A o s0 m s P Q HR H HI. unfold wpr in *. destruct (m s) as [[a s']| |]; auto.
  destruct H as [H1 [H2 H3]]. pose proof (R_trans _ _ _ _ HR H2). auto.
Qed.

Lemma wpr_base : forall A o s0 s1 (m : M A) s Q,
  R o s0 s1 -> wpr o s1 m s Q -> wpr o s0 m s Q.
Proof.
  intros A o s0 s1 m s Q HR H. unfold wpr in *. destruct (m s) as [[a s']| |]; auto.
  intuition. eapply R_trans; eauto.
Qed.

Lemma wpr_mark : forall o s0 s (Q : pos -> st -> Prop), Inv o s -> R o s0 s -> Q (cur s) s -> wpr o s0 mark s Q.
Proof. intros; unfold wpr, mark; auto. Qed.
Lemma wpr_get_loc : forall o s0 s (Q : loc -> st -> Prop), Inv o s -> R o s0 s -> Q (ploc (cur s)) s -> wpr o s0 get_loc s Q.
Proof. intros; unfold wpr, get_loc; auto. Qed.
Lemma wpr_get_rest : forall o s0 s (Q : list Z -> st -> Prop), Inv o s -> R o s0 s -> Q (rest (cur s)) s -> wpr o s0 get_rest s Q.
Proof. intros; unfold wpr, get_rest; auto. Qed.

(** Seek back to the position of an earlier state on the path. *)
Lemma wpr_seek : forall o s0 s1 s (Q : unit -> st -> Prop), Inv o s1 -> R o s0 s1 -> R o s1 s ->
  (R o s0 (mkst (cur s1) (lg s)) -> Inv o (mkst (cur s1) (lg s)) -> Q tt (mkst (cur s1) (lg s))) ->
  wpr o s0 (seek (cur s1)) s Q.
Proof.
  intros o s0 s1 s Q HI H1 H2 HQ. unfold wpr, seek.
  pose proof (R_seek _ _ _ _ H1 H2). assert (Inv o (mkst (cur s1) (lg s))) by exact HI. auto.
Qed.

(** Peek: the position is restored. *)
Lemma wpr_peek : forall A o s0 (m : M A) s (P Q : A -> st -> Prop), Inv o s -> R o s0 s ->
  wpr o s m s P ->
  (forall a s2 s', cur s' = cur s -> R o s s2 -> Inv o s2 -> P a s2 -> lg s' = lg s2 -> Inv o s' -> R o s s' -> R o s0 s' -> Q a s') ->
  wpr o s0 (peek m) s Q.
Proof.
  intros A o s0 m s P Q HI HR H HQ. unfold peek, wpr, bind, mark, seek, ret in *.
  destruct (m s) as [[a s2]| |]; auto.
  destruct H as [I2 [R2 P2]].
  pose proof (R_seek o s s s2 (R_refl _ _) R2) as R3. pose proof (R_trans _ _ _ _ HR R3) as R4.
  assert (I3 : Inv o (mkst (cur s) (lg s2))) by exact HI.
  split; [exact I3|]. split; [exact R4|]. apply (HQ a s2); auto.
Qed.

Lemma wpr_report : forall o s0 t sv a b s (Q : unit -> st -> Prop), Inv o s -> R o s0 s ->
  o_check_issues o = true -> loc_leb a b = Some true ->
  (forall s', cur s' = cur s -> Inv o s' -> R o s s' -> R o s0 s' -> Q tt s') ->
  wpr o s0 (report t sv a b) s Q.
Proof.
  intros o s0 t sv a b s Q HI HR Hc Hl HQ. destruct (report_ok o t sv a b s Hl Hc) as [lg' [Eq [L F]]].
  unfold wpr. rewrite Eq.
  assert (R1 : R o s (mkst (cur s) lg')).
  { split; [|split]; cbn.
    - exists []. split; [constructor|discriminate].
    - exact L.
    - intros H. left. unfold lflag in *. cbn in *. rewrite F in H. exact H. }
  pose proof (R_trans _ _ _ _ HR R1). assert (Inv o (mkst (cur s) lg')) by exact HI.
  auto.
Qed.

(** Reading one source character. *)
Lemma wp_next_src : forall o pol s, Inv o s ->
  wpr o s (next_source_char o pol) s (fun c s' =>
    c = dchar (decode (rest (cur s))) /\ rest (cur s') = drest (decode (rest (cur s)))
    /\ ploc (cur s') = adv o c (ploc (cur s))
    /\ (rest (cur s) <> [] -> (length (rest (cur s')) < length (rest (cur s)))%nat)
    /\ (weof (cur s') = true -> c < 0)).
Proof.
  intros o pol s HI. destruct (next_source_char_ok o pol s HI) as (s' & Eq & Hr & Hl & Hw & Hwc & L & F).
  unfold wpr. rewrite Eq. destruct HI as [Ht [Hw0 Hl0]].
  assert (Hsh : rest (cur s) <> [] -> (length (rest (cur s')) < length (rest (cur s)))%nat).
  { intros. rewrite Hr. apply decode_shorter; auto. }
  split; [|split; [|repeat split; auto; intros W; apply Z.ltb_lt; auto]].
  - split; [auto|split; [auto|]]. rewrite Hl. apply adv_locok; auto.
  - split; [|split; [auto|]].
    + destruct (rest (cur s)) as [|b r] eqn:Eb.
      * exists []. rewrite Hr, Hl. cbn. split; [constructor|discriminate].
      * exists [dchar (decode (b :: r))]. rewrite Hr, Hl. split; [apply moves_one; discriminate|].
        cbn [existsb]. rewrite orb_false_r. intros U. apply decode_flag_unsafe in U. unfold lflag. rewrite F.
        unfold newflag. destruct (dflag _); congruence.
    + unfold lflag. rewrite F. unfold newflag. destruct (dflag (decode (rest (cur s)))) eqn:Ed; auto.
      intros _. right. assert (Hn : rest (cur s) <> []) by (intros E0; rewrite E0 in Ed; discriminate).
      exists o, (ploc (cur s)), [dchar (decode (rest (cur s)))], (drest (decode (rest (cur s)))),
        (adv o (dchar (decode (rest (cur s)))) (ploc (cur s))).
      split; [apply moves_one; auto|]. cbn [existsb]. rewrite orb_false_r. apply decode_flag_unsafe. congruence.
Qed.

Lemma wpr_assert : forall o s0 b s (Q : unit -> st -> Prop), Inv o s -> R o s0 s -> b = true -> Q tt s ->
  wpr o s0 (assert_ b) s Q.
Proof. intros; subst; unfold assert_; apply wpr_ret; auto. Qed.

Lemma wpr_lift_ok : forall A o s0 (r : res A) (a : A) s (Q : A -> st -> Prop), Inv o s -> R o s0 s -> r = Ok a -> Q a s ->
  wpr o s0 (lift r) s Q.
Proof. intros; subst; unfold wpr, lift; auto. Qed.

Lemma wpr_when : forall o s0 b m s (Q : unit -> st -> Prop), Inv o s -> R o s0 s ->
  (b = true -> wpr o s0 m s Q) -> (b = false -> Q tt s) -> wpr o s0 (when_ b m) s Q.
Proof. intros; destruct b; cbn; [auto | apply wpr_ret; auto]. Qed.

Lemma wpr_with_fuel : forall A o s0 (f : nat -> M A) s Q,
  wpr o s0 (f (S (length (rest (cur s))))) s Q -> wpr o s0 (with_fuel f) s Q.
Proof. intros; exact H. Qed.

End PanicCondition.

Lemma wpr_mono : forall (E E' : Prop) A o s0 (m : M A) s Q, (E -> E') -> wpr E o s0 m s Q -> wpr E' o s0 m s Q.
Proof. intros E E' A o s0 m s Q H W. unfold wpr in *. destruct (m s) as [[a s']| |]; auto. Qed.

(** The panic condition used above the character level: some surrogate escape in the
    input still to be read. *)
Definition wp {A} (o : opts) (m : M A) (s : st) (Q : A -> st -> Prop) : Prop :=
  wpr (has_surrogate_escape (rest (cur s))) o s m s Q.
