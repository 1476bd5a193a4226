(** Two runs of the tokenizer from the same remaining input, possibly with different
    options and different logs, go through the same steps. *)
From Coq Require Import ZArith List Bool Lia.
From Verif Require Import Base Source WLChar GenTokenKind LongNames ByteDecoder CharDecoder TokenKind Format Tokenizer
  Decode SpecText Iter TextProofs Logic WlDecode TokLogic.
Import ListNotations.
Local Open Scope Z_scope.

(** [inert m]: [m] does not move the reader *)
Definition inert {A} (m : M A) : Prop := forall s a s', m s = Ok (a, s') -> cur s' = cur s.

Lemma inert_ret : forall A (a : A), inert (ret a).
Proof. intros A a s b s' H. injection H as _ <-. auto. Qed.
Lemma inert_bind : forall A B (m : M A) (k : A -> M B), inert m -> (forall a, inert (k a)) -> inert (bind m k).
Proof.
  intros A B m k Hm Hk s b s' H. unfold bind in H. destruct (m s) as [[a s1]| |] eqn:E; try discriminate.
  rewrite (Hk _ _ _ _ H). eapply Hm; eauto.
Qed.
Lemma inert_peek : forall A (m : M A), inert (peek m).
Proof.
  intros A m s a s' H. unfold peek, bind, mark, seek, ret in H. destruct (m s) as [[b s1]| |]; try discriminate.
  injection H as _ <-. auto.
Qed.
Lemma inert_when : forall b m, inert m -> inert (when_ b m).
Proof. intros [] m H; auto. apply inert_ret. Qed.
Lemma inert_if : forall A (b : bool) (m1 m2 : M A), inert m1 -> inert m2 -> inert (if b then m1 else m2).
Proof. intros A [] m1 m2; auto. Qed.
Lemma inert_lift : forall A (r : res A), inert (lift r).
Proof. intros A [a| |] s b s' H; try discriminate. injection H as _ <-. auto. Qed.
Lemma inert_assert : forall b, inert (assert_ b).
Proof. intros [] s a s' H; try discriminate. injection H as _ <-. auto. Qed.
Lemma inert_get_loc : inert get_loc.
Proof. intros s a s' H. injection H as _ <-. auto. Qed.
Lemma inert_modlog : forall f, inert (modlog f).
Proof. intros f s a s' H. injection H as _ <-. auto. Qed.
Lemma inert_report : forall t sv a b, inert (report t sv a b).
Proof. intros. unfold report. apply inert_bind; [apply inert_lift|intros; apply inert_modlog]. Qed.
Lemma inert_report_from : forall t sv a, inert (report_from t sv a).
Proof. intros. unfold report_from. apply inert_bind; [apply inert_get_loc|intros; apply inert_report]. Qed.
Lemma inert_currentWL : forall o p pol, inert (currentWL o p pol).
Proof. intros. apply inert_peek. Qed.

Lemma inert_add_unexpected : forall c l t, inert (add_unexpected_char_issue c l t).
Proof.
  intros. unfold add_unexpected_char_issue. repeat (apply inert_bind; [|intros]); auto using inert_get_loc, inert_lift, inert_assert.
  apply inert_modlog.
Qed.

Ltac inert1 := lazymatch goal with
  | |- inert (ret _) => apply inert_ret
  | |- inert (peek _) => apply inert_peek
  | |- inert (currentWL _ _ _) => apply inert_currentWL
  | |- inert (when_ _ _) => apply inert_when
  | |- inert (report _ _ _ _) => apply inert_report
  | |- inert (report_from _ _ _) => apply inert_report_from
  | |- inert (lift _) => apply inert_lift
  | |- inert (assert_ _) => apply inert_assert
  | |- inert get_loc => apply inert_get_loc
  | |- inert (modlog _) => apply inert_modlog
  | |- inert (add_unexpected_char_issue _ _ _) => apply inert_add_unexpected
  | |- inert (segment_issues _ _ _ _ _) => unfold segment_issues
  | |- inert (addSimpleLineContinuation _) => apply inert_modlog
  | |- inert (addComplexLineContinuation _) => apply inert_modlog
  | |- inert (addEmbeddedTab _) => apply inert_modlog
  | |- inert (addEmbeddedNewline _) => apply inert_modlog
  | |- inert (if _ then _ else _) => apply inert_if
  | |- inert (bind _ _) => apply inert_bind; [|intros]
  end.
Ltac inert := repeat inert1.

Section Sim.
Context (o1 o2 : opts) (LR : loc -> loc -> Prop).
Context (Hadv : forall c l1 l2, LR l1 l2 -> LR (adv o1 c l1) (adv o2 c l2)).

Definition prel (p q : pos) : Prop := rest p = rest q /\ LR (ploc p) (ploc q).
Definition good (o : opts) (p : pos) : Prop := 0 < o_tab_width o /\ wfp p /\ locok o (ploc p).
Definition grel (p q : pos) : Prop := prel p q /\ good o1 p /\ good o2 q.
Definition rel (s1 s2 : st) : Prop := grel (cur s1) (cur s2).
Definition srel (a b : span) : Prop := LR (sp_start a) (sp_start b) /\ LR (sp_end a) (sp_end b).
Definition trel (t u : token) : Prop :=
  t_kind t = t_kind u /\ t_start t = t_start u /\ t_text t = t_text u /\ srel (t_src t) (t_src u).

Definition psimP {A B} (P : list Z -> Prop) (V : A -> B -> Prop) (m1 : M A) (m2 : M B) : Prop :=
  forall s1 s2, rel s1 s2 -> P (rest (cur s1)) ->
    match m1 s1, m2 s2 with
    | Ok (a, t1), Ok (b, t2) => V a b /\ rel t1 t2
    | _, _ => True
    end.
Definition psim {A B} := @psimP A B (fun _ => True).

Lemma psim_bind : forall A B A' B' P (V : A -> B -> Prop) (W : A' -> B' -> Prop) m1 m2 k1 k2,
  psimP P V m1 m2 -> (forall a b, V a b -> psim W (k1 a) (k2 b)) -> psimP P W (bind m1 k1) (bind m2 k2).
Proof.
  intros A B A' B' P V W m1 m2 k1 k2 H K s1 s2 Hr Hp. specialize (H s1 s2 Hr Hp). unfold bind.
  destruct (m1 s1) as [[a t1]| |]; auto. destruct (m2 s2) as [[b t2]| |].
  - destruct H as [H1 H2]. apply (K a b H1 t1 t2 H2 I).
  - destruct (k1 a t1) as [[? ?]| |]; auto.
  - destruct (k1 a t1) as [[? ?]| |]; auto.
Qed.
Lemma psim_ret : forall A B P (V : A -> B -> Prop) a b, V a b -> psimP P V (ret a) (ret b).
Proof. intros A B P V a b H s1 s2 Hr _. cbn. auto. Qed.
Lemma psim_conseq : forall A B P (V W : A -> B -> Prop) m1 m2, psimP P V m1 m2 -> (forall a b, V a b -> W a b) -> psimP P W m1 m2.
Proof.
  intros A B P V W m1 m2 H HVW s1 s2 Hr Hp. specialize (H s1 s2 Hr Hp). destruct (m1 s1) as [[a t1]| |]; auto.
  destruct (m2 s2) as [[b t2]| |]; auto. destruct H; auto.
Qed.
Lemma psim_weaken : forall A B (P : list Z -> Prop) (V : A -> B -> Prop) m1 m2, psim V m1 m2 -> psimP P V m1 m2.
Proof. intros A B P V m1 m2 H s1 s2 Hr _. apply H; auto. Qed.
Lemma psim_panic_l : forall A B P (V : A -> B -> Prop) m2, psimP P V panic m2.
Proof. intros A B P V m2 s1 s2 _ _. cbn. auto. Qed.

(** an inert part on both sides *)
Lemma psim_inert : forall A B A' B' P (W : A' -> B' -> Prop) (m1 : M A) (m2 : M B) k1 k2,
  inert m1 -> inert m2 -> (forall a b, psimP P W (k1 a) (k2 b)) -> psimP P W (bind m1 k1) (bind m2 k2).
Proof.
  intros A B A' B' P W m1 m2 k1 k2 H1 H2 K s1 s2 Hr Hp. unfold bind.
  destruct (m1 s1) as [[a t1]| |] eqn:E1; auto. apply H1 in E1.
  destruct (m2 s2) as [[b t2]| |] eqn:E2.
  - apply H2 in E2. apply K; [unfold rel in *; rewrite E1, E2; auto|rewrite E1; auto].
  - destruct (k1 a t1) as [[? ?]| |]; auto.
  - destruct (k1 a t1) as [[? ?]| |]; auto.
Qed.
(** a check on both sides: only its value matters *)
Lemma psim_assert : forall A' B' P (W : A' -> B' -> Prop) b1 b2 k1 k2,
  (b1 = true -> b2 = true -> psimP P W (k1 tt) (k2 tt)) -> psimP P W (bind (assert_ b1) k1) (bind (assert_ b2) k2).
Proof.
  intros A' B' P W b1 b2 k1 k2 K s1 s2 Hr Hp. unfold bind. destruct b1; cbn; auto. destruct b2; cbn.
  - apply K; auto.
  - destruct (k1 tt s1) as [[? ?]| |]; auto.
Qed.
Lemma psim_assert_first : forall A' B' P (W : A' -> B' -> Prop) r1 r2 c k1 k2,
  psimP P W (k1 tt) (k2 tt) -> psimP P W (bind (assert_first r1 c) k1) (bind (assert_first r2 c) k2).
Proof.
  intros. unfold assert_first. apply psim_inert; [destruct r1; [intros s a s' H'; discriminate|apply inert_assert]|destruct r2; [intros s a s' H'; discriminate|apply inert_assert]|].
  intros [] []. auto.
Qed.
Lemma psim_lift : forall A A' B' P (W : A' -> B' -> Prop) (r : res A) k1 k2,
  (forall a, r = Ok a -> psimP P W (k1 a) (k2 a)) -> psimP P W (bind (lift r) k1) (bind (lift r) k2).
Proof.
  intros A A' B' P W r k1 k2 K s1 s2 Hr Hp. unfold bind, lift. destruct r; auto. apply K; auto.
Qed.
Lemma psim_mark : forall A' B' P (W : A' -> B' -> Prop) k1 k2,
  (forall p q, grel p q -> psimP P W (k1 p) (k2 q)) -> psimP P W (bind mark k1) (bind mark k2).
Proof. intros A' B' P W k1 k2 K s1 s2 Hr Hp. unfold bind, mark. apply K; auto. Qed.
Lemma psim_get_loc : forall A' B' P (W : A' -> B' -> Prop) k1 k2,
  (forall p q, LR p q -> psimP P W (k1 p) (k2 q)) -> psimP P W (bind get_loc k1) (bind get_loc k2).
Proof. intros A' B' P W k1 k2 K s1 s2 Hr Hp. unfold bind, get_loc. apply K; auto. apply Hr. Qed.
Lemma psim_get_rest : forall A' B' P (W : A' -> B' -> Prop) k1 k2,
  (forall r, psimP P W (k1 r) (k2 r)) -> psimP P W (bind get_rest k1) (bind get_rest k2).
Proof.
  intros A' B' P W k1 k2 K s1 s2 Hr Hp. unfold bind, get_rest. pose proof Hr as [[E _] _]. rewrite <- E. apply K; auto.
Qed.
Lemma psim_seek0 : forall P p q, grel p q -> psimP P eq (seek p) (seek q).
Proof. intros P p q H s1 s2 _ _. cbn. auto. Qed.
Lemma psim_seek : forall A' B' P (W : A' -> B' -> Prop) p q k1 k2, grel p q -> psim W (k1 tt) (k2 tt) ->
  psimP P W (bind (seek p) k1) (bind (seek q) k2).
Proof. intros A' B' P W p q k1 k2 H K. eapply psim_bind; [apply psim_seek0; auto|]. intros [] [] _. auto. Qed.
Lemma psim_fuel : forall A B P (V : A -> B -> Prop) f1 f2, (forall n, psimP P V (f1 n) (f2 n)) -> psimP P V (with_fuel f1) (with_fuel f2).
Proof.
  intros A B P V f1 f2 K s1 s2 Hr Hp. unfold with_fuel. pose proof Hr as [[E _] _]. rewrite <- E. apply K; auto.
Qed.
Lemma psim_fuel_out : forall A B P (V : A -> B -> Prop) m2, psimP P V out_of_fuel m2.
Proof. intros A B P V m2 s1 s2 _ _. cbn. auto. Qed.

Lemma moves_sim : forall bs l1 cs bs' l1', moves o1 bs l1 cs bs' l1' ->
  forall l2 cs' l2', moves o2 bs l2 cs' bs' l2' -> LR l1 l2 -> LR l1' l2'.
Proof.
  intros bs l1 cs bs' l1' H. induction H as [bs l1|bs l1 cs bs' l1' Hn M IH]; intros l2 cs' l2' H2 HL.
  - inversion H2; subst; auto. exfalso.
    match goal with [ X : moves _ _ _ _ _ _, Y : _ <> [] |- _ ] => apply moves_length in X; pose proof (decode_shorter _ Y) end. lia.
  - inversion H2; subst.
    + exfalso. apply moves_length in M. match goal with [ X : ?b <> [] |- _ ] => pose proof (decode_shorter b X) end. lia.
    + eapply IH; eauto.
Qed.

Lemma rel_step : forall s1 s2 t1 t2, rel s1 s2 -> Inv o1 t1 -> Inv o2 t2 -> R o1 s1 t1 -> R o2 s2 t2 ->
  rest (cur t1) = rest (cur t2) -> rel t1 t2.
Proof.
  intros s1 s2 t1 t2 [[E L] _] I1 I2 [[cs1 [M1 _]] _] [[cs2 [M2 _]] _] Et.
  split; [split; auto|split; auto]. rewrite <- E, <- Et in M2. eapply moves_sim; eauto.
Qed.

Lemma rel_Inv1 : forall s1 s2, rel s1 s2 -> Inv o1 s1. Proof. intros s1 s2 (_ & H & _). exact H. Qed.
Lemma rel_Inv2 : forall s1 s2, rel s1 s2 -> Inv o2 s2. Proof. intros s1 s2 (_ & _ & H). exact H. Qed.

Lemma psim_nextWL0 : forall P p q pol, p_scan pol = false -> psimP P eq (nextWL o1 p pol) (nextWL o2 q pol).
Proof.
  intros P p q pol Hp s1 s2 Hr _. pose proof (rel_Inv1 _ _ Hr) as I1. pose proof (rel_Inv2 _ _ Hr) as I2.
  pose proof (nextWL_wp True o1 p pol s1 I1 Hp (fun _ => I)) as H1.
  pose proof (nextWL_wp True o2 q pol s2 I2 Hp (fun _ => I)) as H2. unfold wpr in *.
  destruct (nextWL o1 p pol s1) as [[a t1]| |]; auto. destruct (nextWL o2 q pol s2) as [[b t2]| |]; auto.
  destruct H1 as (J1 & R1 & E1). destruct H2 as (J2 & R2 & E2). destruct Hr as [[E L] G]. rewrite <- E, E1 in E2.
  injection E2 as -> E2. split; auto. eapply rel_step; eauto. split; auto. split; auto.
Qed.
Lemma psim_nextWL : forall A' B' P (W : A' -> B' -> Prop) p q pol k1 k2, p_scan pol = false ->
  (forall c, psim W (k1 c) (k2 c)) -> psimP P W (bind (nextWL o1 p pol) k1) (bind (nextWL o2 q pol) k2).
Proof. intros A' B' P W p q pol k1 k2 Hp K. eapply psim_bind; [apply psim_nextWL0; auto|]. intros av bv <-. auto. Qed.

(** the current character, with what it is *)
Definition at_char (c : wlchar) (bs : list Z) : Prop := exists r, twl bs = Some (c, r).
Lemma psim_currentWL_at : forall A' B' P (W : A' -> B' -> Prop) p q pol k1 k2, p_scan pol = false ->
  (forall c, psimP (fun bs => P bs /\ at_char c bs) W (k1 c) (k2 c)) -> psimP P W (bind (currentWL o1 p pol) k1) (bind (currentWL o2 q pol) k2).
Proof.
  intros A' B' P W p q pol k1 k2 Hp K s1 s2 Hr HP. pose proof (rel_Inv1 _ _ Hr) as I1. pose proof (rel_Inv2 _ _ Hr) as I2.
  pose proof (currentWL_wp True o1 p pol s1 s1 I1 (R_refl _ _) Hp (fun _ => I)) as H1.
  pose proof (currentWL_wp True o2 q pol s2 s2 I2 (R_refl _ _) Hp (fun _ => I)) as H2. unfold wpr in *. unfold bind.
  destruct (currentWL o1 p pol s1) as [[a t1]| |]; auto. destruct (currentWL o2 q pol s2) as [[b t2]| |].
  2,3: destruct (k1 a t1) as [[? ?]| |]; auto.
  destruct H1 as (J1 & _ & C1 & _ & r1 & E1). destruct H2 as (J2 & _ & C2 & _ & r2 & E2).
  pose proof Hr as [[E L] G]. rewrite C1 in E1. rewrite C2, <- E, E1 in E2. injection E2 as -> E2.
  apply K; [unfold rel; rewrite C1, C2; auto|]. rewrite C1. split; auto. exists r1; auto.
Qed.
Lemma psim_currentWL : forall A' B' P (W : A' -> B' -> Prop) p q pol k1 k2, p_scan pol = false ->
  (forall c, psimP P W (k1 c) (k2 c)) -> psimP P W (bind (currentWL o1 p pol) k1) (bind (currentWL o2 q pol) k2).
Proof.
  intros A' B' P W p q pol k1 k2 Hp K. apply psim_currentWL_at; auto. intros c s1 s2 Hr [HP _]. apply K; auto.
Qed.

Lemma psim_nsrc0 : forall P pol, psimP P eq (next_source_char o1 pol) (next_source_char o2 pol).
Proof.
  intros P pol s1 s2 Hr _. pose proof (rel_Inv1 _ _ Hr) as I1. pose proof (rel_Inv2 _ _ Hr) as I2.
  pose proof (wp_next_src True o1 pol s1 I1) as H1. pose proof (wp_next_src True o2 pol s2 I2) as H2. unfold wpr in *.
  destruct (next_source_char o1 pol s1) as [[a t1]| |]; auto. destruct (next_source_char o2 pol s2) as [[b t2]| |]; auto.
  destruct H1 as (J1 & R1 & E1 & F1 & _). destruct H2 as (J2 & R2 & E2 & F2 & _). pose proof Hr as [[E L] G].
  rewrite <- E in E2, F2. split; [congruence|]. eapply rel_step; eauto. congruence.
Qed.
Lemma psim_nsrc : forall A' B' P (W : A' -> B' -> Prop) pol k1 k2, (forall c, psim W (k1 c) (k2 c)) ->
  psimP P W (bind (next_source_char o1 pol) k1) (bind (next_source_char o2 pol) k2).
Proof. intros A' B' P W pol k1 k2 K. eapply psim_bind; [apply psim_nsrc0; auto|]. intros av bv <-. auto. Qed.
Lemma psim_peek : forall A B P (V : A -> B -> Prop) m1 m2, psimP P V m1 m2 -> psimP P V (peek m1) (peek m2).
Proof.
  intros A B P V m1 m2 H s1 s2 Hr Hp. specialize (H s1 s2 Hr Hp). unfold peek, bind, mark, seek, ret.
  destruct (m1 s1) as [[a t1]| |]; auto. destruct (m2 s2) as [[b t2]| |]; auto. destruct H as [H1 H2]. split; auto.
Qed.
Lemma psim_psrc : forall A' B' P (W : A' -> B' -> Prop) pol k1 k2, (forall c, psim W (k1 c) (k2 c)) ->
  psimP P W (bind (peek_source_char o1 pol) k1) (bind (peek_source_char o2 pol) k2).
Proof. intros A' B' P W pol k1 k2 K. eapply psim_bind; [apply psim_peek, psim_nsrc0|]. intros av bv <-. auto. Qed.

Lemma psim_new2 : forall P k st tx sp1 sp2, srel sp1 sp2 -> psimP P trel (new2 k st tx sp1) (new2 k st tx sp2).
Proof.
  intros. unfold new2. apply psim_assert. intros _ _. apply psim_ret. repeat split; auto; apply H.
Qed.
Lemma Span_new_ok : forall a b sp, Span_new a b = Ok sp -> sp = mkspan a b.
Proof. intros a b sp H. unfold Span_new in H. destruct (loc_leb a b) as [[]|]; congruence. Qed.
Lemma psim_mk_token : forall P k p q, grel p q -> psimP P trel (mk_token k p) (mk_token k q).
Proof.
  intros P k p q [[E L] _]. unfold mk_token. apply psim_get_rest. intros r. apply psim_get_loc. intros l1 l2 Hl.
  rewrite <- E. apply psim_assert. intros _ _. intros s1 s2 Hr Hp. unfold bind, lift.
  destruct (Span_new (ploc p) l1) eqn:E1; auto. destruct (Span_new (ploc q) l2) eqn:E2.
  - apply Span_new_ok in E1, E2. subst. apply (psim_new2 P); auto. split; auto.
  - destruct (new2 _ _ _ _ s1) as [[? ?]| |]; auto.
  - destruct (new2 _ _ _ _ s1) as [[? ?]| |]; auto.
Qed.
Lemma psim_error_token_at : forall P k p q, grel p q -> psimP P trel (error_token_at k p) (error_token_at k q).
Proof.
  intros P k p q [[E L] _]. unfold error_token_at. apply psim_assert. intros _ _. rewrite <- E. apply psim_new2. split; auto.
Qed.
Lemma psim_backup : forall A' B' P (W : A' -> B' -> Prop) p q k1 k2, grel p q -> psim W (k1 tt) (k2 tt) ->
  psimP P W (bind (backupAndWarn o1 (imark_of p)) k1) (bind (backupAndWarn o2 (imark_of q)) k2).
Proof.
  intros A' B' P W p q k1 k2 H K. unfold backupAndWarn. eapply psim_bind.
  - apply psim_inert; [inert|inert|]. intros _ _. unfold seek_im, imark_of. cbn [im_weof im_rest im_loc]. destruct p, q. apply psim_seek0; auto.
  - intros [] [] _. auto.
Qed.

Ltac leaf := lazymatch goal with
  | |- psimP _ _ (ret _) _ => apply psim_ret; auto
  | |- psimP _ _ (mk_token _ _) _ => apply psim_mk_token; auto
  | |- psimP _ _ (error_token_at _ _) _ => apply psim_error_token_at; auto
  | |- psimP _ _ (bind (nextWL _ _ _) _) _ => apply psim_nextWL; [auto|intros]
  | |- psimP _ _ (bind (currentWL _ _ _) _) _ => apply psim_currentWL; [auto|intros]
  | |- psimP _ _ (bind (next_source_char _ _) _) _ => apply psim_nsrc; intros
  | |- psimP _ _ (bind (peek_source_char _ _) _) _ => apply psim_psrc; intros
  | |- psimP _ _ (bind (assert_ _) _) _ => apply psim_assert; intros
  | |- psimP _ _ (bind (assert_first _ _) _) _ => apply psim_assert_first
  | |- psimP _ _ (bind mark _) _ => apply psim_mark; intros
  | |- psimP _ _ (bind get_loc _) _ => apply psim_get_loc; intros
  | |- psimP _ _ (bind get_rest _) _ => apply psim_get_rest; intros
  | |- psimP _ _ (bind (seek _) _) _ => apply psim_seek; [auto|]
  | |- psimP _ _ (bind (backupAndWarn _ _) _) _ => apply psim_backup; [auto|]
  | |- psimP _ _ (bind (when_ _ _) _) _ => apply psim_inert; [solve [inert]|solve [inert]|intros]
  | |- psimP _ _ (bind (segment_issues _ _ _ _ _) _) _ => apply psim_inert; [solve [inert]|solve [inert]|intros]
  | |- psimP _ _ (with_fuel _) _ => apply psim_fuel; intros
  | |- psimP _ _ out_of_fuel _ => apply psim_fuel_out
  | |- psimP _ _ panic _ => apply psim_panic_l
  | |- psimP _ _ (if ?b then _ else _) (if ?b then _ else _) => destruct b eqn:?
  end.
Ltac sim := repeat (unfold psim; leaf).

Section Handlers.
Context (pol : policy) (Hpol : p_scan pol = false) (p q : pos) (Hpq : grel p q).
Local Notation tsim f := (forall c, psim trel (f o1 p c pol) (f o2 q c pol)) (only parsing).

Lemma sim_handleStrangeWhitespace : forall c, psim trel (handleStrangeWhitespace o1 p c pol) (handleStrangeWhitespace o2 q c pol).
Proof.
  intros. unfold handleStrangeWhitespace. sim.
Qed.
Lemma sim_comment_loop : forall n pol' d c, psim trel (comment_loop o1 n p pol' d c) (comment_loop o2 n q pol' d c).
Proof.
  induction n as [|n IH]; intros; cbn [comment_loop]; sim; apply IH.
Qed.
Lemma sim_handleComment : forall c, psim trel (handleComment o1 p c pol) (handleComment o2 q c pol).
Proof. intros. unfold handleComment. sim. apply sim_comment_loop. Qed.
Lemma sim_blob_loop : forall n d c, psim trel (blob_loop o1 n p pol d c) (blob_loop o2 n q pol d c).
Proof. induction n as [|n IH]; intros; cbn [blob_loop]; sim; apply IH. Qed.
Lemma sim_blob : forall c, psim trel (handleMBLinearSyntaxBlob o1 p c pol) (handleMBLinearSyntaxBlob o2 q c pol).
Proof. intros. unfold handleMBLinearSyntaxBlob. sim. apply sim_blob_loop. Qed.
Lemma sim_segment_loop : forall n l1 l2 c, psim eq (segment_loop o1 n p pol l1 c) (segment_loop o2 n q pol l2 c).
Proof.
  induction n as [|n IH]; intros; cbn [segment_loop]; sim; try apply IH.
Qed.
Lemma sim_segment : forall l1 l2 c, psim eq (handleSymbolSegment o1 p l1 c pol) (handleSymbolSegment o2 q l2 c pol).
Proof.
  intros. unfold handleSymbolSegment. sim.
  apply sim_segment_loop.
Qed.
Lemma sim_symbol_loop : forall n c, psim trel (symbol_loop o1 n p pol c) (symbol_loop o2 n q pol c).
Proof.
  induction n as [|n IH]; intros; cbn [symbol_loop]; sim. eapply psim_bind; [apply sim_segment|]. intros av bv <-. apply IH.
Qed.
Lemma sim_handleSymbol : forall c, psim trel (handleSymbol o1 p c pol) (handleSymbol o2 q c pol).
Proof.
  intros. unfold handleSymbol. sim. eapply (psim_bind _ _ _ _ _ eq).
  - destruct (letterlike (wc c)); [apply sim_segment|sim].
  - intros av bv <-. sim. apply sim_symbol_loop.
Qed.
Lemma sim_string_loop : forall n pol', p_scan pol' = false -> psim trel (string_loop o1 n p pol') (string_loop o2 n q pol').
Proof. induction n as [|n IH]; intros; cbn [string_loop]; sim. apply IH; auto. Qed.
Lemma sim_handleString : forall c, psim trel (handleString o1 p c pol) (handleString o2 q c pol).
Proof. intros. unfold handleString. sim. apply sim_string_loop; auto. Qed.
Lemma sim_asTag : forall c, psim trel (handleString_stringifyAsTag o1 p c pol) (handleString_stringifyAsTag o2 q c pol).
Proof.
  intros. unfold handleString_stringifyAsTag. destruct (letterlike (wc c)).
  - sim. eapply psim_bind; [apply sim_segment|]. intros av bv _. sim.
  - destruct Hpq as [[E L] _]. rewrite <- E. apply psim_new2. split; auto.
Qed.
Lemma sim_brackets_loop : forall n pol' d c, psim eq (brackets_loop o1 n pol' d c) (brackets_loop o2 n pol' d c).
Proof. induction n as [|n IH]; intros; cbn [brackets_loop]; sim; apply IH. Qed.
Lemma sim_brackets : forall pol' c, psim eq (handleFileOpsBrackets o1 c pol') (handleFileOpsBrackets o2 c pol').
Proof. intros. unfold handleFileOpsBrackets. sim. apply sim_brackets_loop. Qed.
Lemma sim_file_loop : forall n pol' c, psim trel (file_loop o1 n p pol' c) (file_loop o2 n q pol' c).
Proof.
  induction n as [|n IH]; intros; cbn [file_loop]; sim; try apply IH.
  eapply psim_bind; [apply sim_brackets|]. intros av bv <-. destruct av; [apply IH|sim].
Qed.
Lemma sim_asFile : forall c, psim trel (handleString_stringifyAsFile o1 p c pol) (handleString_stringifyAsFile o2 q c pol).
Proof.
  intros. unfold handleString_stringifyAsFile. sim.
  - apply sim_file_loop.
  - eapply psim_bind; [apply sim_brackets|]. intros av bv <-. destruct av; sim. apply sim_file_loop.
Qed.

Lemma sim_count_loop : forall n f k c, psim eq (count_loop o1 n p pol f k c) (count_loop o2 n q pol f k c).
Proof. induction n as [|n IH]; intros; cbn [count_loop]; sim. apply IH. Qed.
Lemma sim_zeros : forall c, psim eq (handleZeros o1 p pol c) (handleZeros o2 q pol c).
Proof. intros. unfold handleZeros. sim. apply sim_count_loop. Qed.
Lemma sim_digits : forall c, psim eq (handleDigits o1 p pol c) (handleDigits o2 q pol c).
Proof. intros. unfold handleDigits. sim. apply sim_count_loop. Qed.
Lemma sim_alnum_loop : forall n b x k c, psim eq (alnum_loop o1 n p pol b x k c) (alnum_loop o2 n q pol b x k c).
Proof. induction n as [|n IH]; intros; cbn [alnum_loop]; sim; apply IH. Qed.
Lemma sim_alnum : forall c b x, psim eq (handleAlphaOrDigits o1 p c b pol x) (handleAlphaOrDigits o2 q c b pol x).
Proof. intros. unfold handleAlphaOrDigits. sim. apply sim_alnum_loop. Qed.

Lemma sim_past_tail : forall P m1 m2 c b x, psimP P eq
  (r <- handleAlphaOrDigits o1 p c b pol x ;;
    let '(h, c1, x1) := r in
    when_ ((0 <? h) && o_check_issues o1 && (wc c1 =? 46))
      (report UnexpectedImplicitTimes Error m1 m1) ;;
    ret (Count h, c1, x1))
  (r <- handleAlphaOrDigits o2 q c b pol x ;;
    let '(h, c1, x1) := r in
    when_ ((0 <? h) && o_check_issues o2 && (wc c1 =? 46))
      (report UnexpectedImplicitTimes Error m2 m2) ;;
    ret (Count h, c1, x1)).
Proof.
  intros. eapply psim_bind; [apply psim_weaken, sim_alnum|]. intros [[h c1] x1] b' <-. sim.
Qed.
Lemma sim_past : forall a b c bs x, grel a b ->
  psim eq (handlePastDot o1 p (imark_of a) c bs pol x) (handlePastDot o2 q (imark_of b) c bs pol x).
Proof. intros. unfold handlePastDot. sim. apply sim_past_tail. Qed.
Lemma sim_past_nodot : forall a b c bs x, wc c =? 46 = false ->
  psim eq (handlePastDot o1 p a c bs pol x) (handlePastDot o2 q b c bs pol x).
Proof. intros a b c bs x E. unfold handlePastDot. rewrite E. sim. apply sim_past_tail. Qed.

Lemma sim_exponent : forall x a b, grel a b -> psim trel (number_exponent o1 p pol x a) (number_exponent o2 q pol x b).
Proof.
  intros. unfold number_exponent. sim. eapply (psim_bind _ _ _ _ _ eq).
  - sim.
  - intros [c2 x1] r' <-. sim. eapply (psim_bind _ _ _ _ _ eq).
    + sim. eapply psim_bind; [apply sim_zeros|]. intros r2 b2 <-. sim.
    + intros c3 b3 <-. eapply (psim_bind _ _ _ _ _ eq).
      * sim. eapply psim_bind; [apply sim_digits|]. intros r2 b2 <-. sim.

      * intros [c4 x2] r4 <-. sim. eapply psim_bind; [apply sim_past; auto|]. intros [[h c9] x3] b5 <-. destruct h; sim.
Qed.
Lemma sim_after_precision : forall x ac su c, psim trel (number_after_precision o1 p pol x ac su c) (number_after_precision o2 q pol x ac su c).
Proof. intros. unfold number_after_precision. sim. apply sim_exponent; auto. Qed.

Definition orel (a b : option pos) : Prop := match a, b with Some x, Some y => grel x y | None, None => True | _, _ => False end.
Lemma sim_precision_dot : forall x ac si su a b c, orel a b ->
  psim trel (number_precision_dot o1 p pol x ac si su a c) (number_precision_dot o2 q pol x ac si su b c).
Proof.
  intros x ac si su a b c Hab. unfold number_precision_dot. sim; try apply sim_after_precision;
  (eapply psim_bind; [apply sim_past; auto|]); intros [[h c9] x3] b5 <-; destruct h; sim; try apply sim_after_precision;
  destruct a, b; try contradiction; sim.
Qed.
Lemma sim_precision_digits : forall x ac si a b c, orel a b ->
  psim trel (number_precision_digits o1 p pol x ac si a c) (number_precision_digits o2 q pol x ac si b c).
Proof.
  intros. unfold number_precision_digits. sim; try apply sim_precision_dot; auto.
  eapply psim_bind; [apply sim_digits|]. intros [n c1] b2 <-. sim. apply sim_precision_dot; auto.
Qed.
Lemma sim_backquote : forall x, psim trel (number_backquote o1 p pol x) (number_backquote o2 q pol x).
Proof.
  intros. unfold number_backquote. cbv zeta. sim. eapply (psim_bind _ _ _ _ _ eq).
  - sim.
  - intros [c1 ac] b1 <-. sim.
    + apply psim_inert.
      * match goal with |- inert (match ?r with _ => _ end) => destruct r; [intros s a s' H'; discriminate|apply inert_assert] end.
      * match goal with |- inert (match ?r with _ => _ end) => destruct r; [intros s a s' H'; discriminate|apply inert_assert] end.
      * intros. sim. apply sim_precision_digits. auto.
    + apply sim_precision_digits. exact I.
Qed.
Lemma sim_star : forall x, psim trel (number_star o1 p pol x) (number_star o2 q pol x).
Proof. intros. unfold number_star. sim. apply sim_exponent; auto. Qed.
Lemma sim_tail : forall x c, psim trel (number_tail o1 p pol x c) (number_tail o2 q pol x c).
Proof. intros. unfold number_tail. sim; [apply sim_backquote|apply sim_star]. Qed.
Lemma sim_fraction_end : forall (h : handled) c1 x1 leading, psim trel
  (match h with
  | Bailout => if leading =? 0 then mk_token TK_Error_Number p else mk_token (computeTok x1) p
  | Count n => if (n =? 0) && (leading =? 0) then mk_token TK_Error_Number p else number_tail o1 p pol (set_real x1) c1 end)
  (match h with
  | Bailout => if leading =? 0 then mk_token TK_Error_Number q else mk_token (computeTok x1) q
  | Count n => if (n =? 0) && (leading =? 0) then mk_token TK_Error_Number q else number_tail o2 q pol (set_real x1) c1 end).
Proof. intros h c1 x1 leading. destruct h; sim. apply sim_tail. Qed.
Lemma sim_fraction : forall x k a b c, grel a b ->
  psim trel (number_fraction o1 p pol x k (imark_of a) c) (number_fraction o2 q pol x k (imark_of b) c).
Proof.
  intros. unfold number_fraction. eapply (psim_bind _ _ _ _ _ eq).
  - unfold handlePossibleFractionalPart. sim. apply sim_past; auto.
  - intros [[h c1] x1] b1 <-. apply sim_fraction_end.
Qed.
Lemma sim_fraction_digit : forall x k a b c d, isDigit (wc d) = true ->
  psimP (at_char d) trel (number_fraction o1 p pol x k a c) (number_fraction o2 q pol x k b c).
Proof.
  intros x k a b c d Hd. unfold number_fraction. eapply (psim_bind _ _ _ _ _ eq).
  - unfold handlePossibleFractionalPart. apply psim_assert. intros _ _. apply psim_currentWL_at; auto. intros c1.
    intros s1 s2 Hr [[r1 A1] [r2 A2]]. rewrite A1 in A2. injection A2 as <- _. refine (sim_past_nodot _ _ _ _ _ _ s1 s2 Hr I).
    unfold isDigit in Hd. apply between_iff in Hd. apply Z.eqb_neq. lia.
  - intros [[h c1] x1] b1 <-. apply sim_fraction_end.
Qed.
Lemma sim_caret : forall nz a b, grel a b -> psim trel (number_caret o1 p pol nz a) (number_caret o2 q pol nz b).
Proof.
  intros. unfold number_caret. sim. pose proof H as [[E _] _]. rewrite <- E. apply psim_lift. intros [iv ba] _. sim.
  - eapply psim_bind; [apply sim_alnum|]. intros [[n c2] x1] b1 <-. sim; [apply sim_fraction; auto|apply sim_tail].
  - apply sim_fraction; auto.
Qed.
Lemma sim_handleNumber_digit : forall c, isDigit (wc c) = true -> psim trel (handleNumber o1 p c pol) (handleNumber o2 q c pol).
Proof.
  intros c Hd. unfold handleNumber. rewrite Hd. sim. eapply (psim_bind _ _ _ _ _ eq).
  - sim; [|destruct Hpq as [[E _] _]; rewrite E; auto].
    eapply psim_bind; [apply sim_zeros|]. intros r2 b2 <-. sim.
  - intros [[zs c1] nz] b1 <-. sim. eapply (psim_bind _ _ _ _ _ (fun u v => fst u = fst v /\ grel (snd u) (snd v))).
    + sim. eapply psim_bind; [apply sim_digits|]. intros r2 b2 <-. sim.
    + intros [[ld c2] lm] [[ld' c2'] lm'] [E G]. cbn [fst snd] in E, G. injection E as -> ->. sim; [apply sim_caret; auto|apply sim_fraction; auto|apply sim_tail].
Qed.
Lemma sim_handleNumber_dot : forall c d, isDigit (wc d) = true -> wc c = 46 -> psimP (at_char d) trel (handleNumber o1 p c pol) (handleNumber o2 q c pol).
Proof.
  intros c d Hd Hc. unfold handleNumber. apply psim_assert. intros _ _. rewrite Hc. change (isDigit 46) with false. cbv iota.
  eapply sim_fraction_digit; eauto.
Qed.

Lemma sim_handleColon : forall c, psim trel (handleColon o1 p c pol) (handleColon o2 q c pol).
Proof. intros. unfold handleColon. sim. Qed.
Lemma sim_handleOpenParen : forall c, psim trel (handleOpenParen o1 p c pol) (handleOpenParen o2 q c pol).
Proof. intros. unfold handleOpenParen. sim. apply sim_handleComment. Qed.
Lemma sim_handleDot : forall c, psim trel (handleDot o1 p c pol) (handleDot o2 q c pol).
Proof.
  intros. unfold handleDot. apply psim_assert. intros E _. apply psim_currentWL_at; auto. intros c1.
  destruct (isDigit (wc c1)) eqn:Ed; [|sim]. intros s1 s2 Hr [_ A]. eapply sim_handleNumber_dot; eauto. apply Z.eqb_eq; auto.
Qed.
Lemma sim_handleEqual : forall c, psim trel (handleEqual o1 p c pol) (handleEqual o2 q c pol).
Proof. intros. unfold handleEqual. sim. Qed.
Lemma sim_handleUnder : forall c, psim trel (handleUnder o1 p c pol) (handleUnder o2 q c pol).
Proof. intros. unfold handleUnder. sim. Qed.
Lemma sim_handleLess : forall c, psim trel (handleLess o1 p c pol) (handleLess o2 q c pol).
Proof. intros. unfold handleLess. sim. Qed.
Lemma sim_handleGreater : forall c, psim trel (handleGreater o1 p c pol) (handleGreater o2 q c pol).
Proof. intros. unfold handleGreater. sim. Qed.
Lemma sim_handleMinus : forall c, psim trel (handleMinus o1 p c pol) (handleMinus o2 q c pol).
Proof. intros. unfold handleMinus. sim. Qed.
Lemma sim_handleBar : forall c, psim trel (handleBar o1 p c pol) (handleBar o2 q c pol).
Proof. intros. unfold handleBar. sim. Qed.
Lemma sim_double : forall ch a b c, psim trel (handle_double o1 ch a b p c pol) (handle_double o2 ch a b q c pol).
Proof. intros. unfold handle_double. sim. Qed.
Lemma sim_handleBang : forall c, psim trel (handleBang o1 p c pol) (handleBang o2 q c pol).
Proof. intros. unfold handleBang. sim. Qed.
Lemma sim_percent_loop : forall n c, psim eq (percent_loop o1 n p pol c) (percent_loop o2 n q pol c).
Proof. induction n as [|n IH]; intros; cbn [percent_loop]; sim. apply IH. Qed.
Lemma sim_handlePercent : forall c, psim trel (handlePercent o1 p c pol) (handlePercent o2 q c pol).
Proof.
  intros. unfold handlePercent. sim. eapply (psim_bind _ _ _ _ _ eq); [sim; apply sim_percent_loop|]. intros. sim.
Qed.
Lemma sim_handleSlash : forall c, psim trel (handleSlash o1 p c pol) (handleSlash o2 q c pol).
Proof. intros. unfold handleSlash. sim. Qed.
Lemma sim_handleAt : forall c, psim trel (handleAt o1 p c pol) (handleAt o2 q c pol).
Proof. intros. unfold handleAt. sim. Qed.
Lemma sim_handlePlus : forall c, psim trel (handlePlus o1 p c pol) (handlePlus o2 q c pol).
Proof. intros. unfold handlePlus. sim. Qed.
Lemma sim_handleStar : forall c, psim trel (handleStar o1 p c pol) (handleStar o2 q c pol).
Proof. intros. unfold handleStar. sim. Qed.
Lemma sim_handleCaret : forall c, psim trel (handleCaret o1 p c pol) (handleCaret o2 q c pol).
Proof. intros. unfold handleCaret. sim. Qed.
Lemma sim_badname : forall n a b c, grel a b -> psim eq (badname_loop o1 n p pol a c) (badname_loop o2 n q pol b c).
Proof. induction n as [|n IH]; intros; cbn [badname_loop]; sim; [apply IH; auto|apply psim_seek0; auto]. Qed.
Lemma sim_baddigits : forall n f a b c, grel a b -> psim eq (baddigits_loop o1 n p pol f a c) (baddigits_loop o2 n q pol f b c).
Proof. induction n as [|n IH]; intros; cbn [baddigits_loop]; sim; [apply IH; auto|apply psim_seek0; auto]. Qed.
Lemma sim_backslash : forall c, psim trel (handleUnhandledBackslash o1 p c pol) (handleUnhandledBackslash o2 q c pol).
Proof.
  intros. unfold handleUnhandledBackslash. cbv zeta. sim. eapply (psim_bind _ _ _ _ _ eq); [|intros; sim].
  sim; try (apply sim_baddigits; auto). apply sim_badname; auto.
Qed.
Lemma sim_strange_nl : forall c, psim trel (handleMBStrangeNewline o1 p c pol) (handleMBStrangeNewline o2 q c pol).
Proof. intros. unfold handleMBStrangeNewline. sim. Qed.
Lemma sim_strange_ws : forall c, psim trel (handleMBStrangeWhitespace o1 p c pol) (handleMBStrangeWhitespace o2 q c pol).
Proof. intros. unfold handleMBStrangeWhitespace. sim. Qed.
Lemma sim_punct : forall c, psim trel (handleMBPunctuation p c pol) (handleMBPunctuation q c pol).
Proof. intros. unfold handleMBPunctuation. sim. apply psim_lift. intros. sim. Qed.
Lemma sim_naked : forall c, psim trel (handleNakedMBLinearSyntax p c pol) (handleNakedMBLinearSyntax q c pol).
Proof. intros. unfold handleNakedMBLinearSyntax. sim. apply psim_lift. intros. sim. Qed.

Ltac handler := lazymatch goal with
    | |- psim _ (mk_token _ _) _ => apply psim_mk_token; auto
    | |- psim _ (handleSymbol _ _ _ _) _ => apply sim_handleSymbol
    | |- psim _ (handleStrangeWhitespace _ _ _ _) _ => apply sim_handleStrangeWhitespace
    | |- psim _ (handleOpenParen _ _ _ _) _ => apply sim_handleOpenParen
    | |- psim _ (handlePlus _ _ _ _) _ => apply sim_handlePlus
    | |- psim _ (handleCaret _ _ _ _) _ => apply sim_handleCaret
    | |- psim _ (handleEqual _ _ _ _) _ => apply sim_handleEqual
    | |- psim _ (handleColon _ _ _ _) _ => apply sim_handleColon
    | |- psim _ (handleBang _ _ _ _) _ => apply sim_handleBang
    | |- psim _ (handlePercent _ _ _ _) _ => apply sim_handlePercent
    | |- psim _ (handleStar _ _ _ _) _ => apply sim_handleStar
    | |- psim _ (handleDot _ _ _ _) _ => apply sim_handleDot
    | |- psim _ (handleSlash _ _ _ _) _ => apply sim_handleSlash
    | |- psim _ (handleLess _ _ _ _) _ => apply sim_handleLess
    | |- psim _ (handleGreater _ _ _ _) _ => apply sim_handleGreater
    | |- psim _ (handleAt _ _ _ _) _ => apply sim_handleAt
    | |- psim _ (handleUnhandledBackslash _ _ _ _) _ => apply sim_backslash
    | |- psim _ (handleUnder _ _ _ _) _ => apply sim_handleUnder
    | |- psim _ (handleBar _ _ _ _) _ => apply sim_handleBar
    | |- psim _ (handleMBLinearSyntaxBlob _ _ _ _) _ => apply sim_blob
    | |- psim _ (handleNakedMBLinearSyntax _ _ _) _ => apply sim_naked
    | |- psim _ (handleMBStrangeWhitespace _ _ _ _) _ => apply sim_strange_ws
    | |- psim _ (handleMBStrangeNewline _ _ _ _) _ => apply sim_strange_nl
    | |- psim _ (handleMBPunctuation _ _ _) _ => apply sim_punct
    | |- psim _ (handleString _ _ _ _) _ => apply sim_handleString
    | |- psim _ (handleMinus _ _ _ _) _ => apply sim_handleMinus
    | |- psim _ (handleNumber _ _ _ _) _ => apply sim_handleNumber_digit; assumption
    | |- psim _ (handleSemi _ _ _ _) _ => unfold handleSemi; apply sim_double
    | |- psim _ (handleHash _ _ _ _) _ => unfold handleHash; apply sim_double
    | |- psim _ (handleAmp _ _ _ _) _ => unfold handleAmp; apply sim_double
    | |- psim _ (handleTilde _ _ _ _) _ => unfold handleTilde; apply sim_double
    | |- psim _ (handleQuestion _ _ _ _) _ => unfold handleQuestion; apply sim_double
    end.
Ltac branch := match goal with |- psim _ (if ?b then _ else _) (if ?b then _ else _) => destruct b eqn:? end.
Lemma sim_uncommon : forall c, psim trel (nextToken_uncommon o1 p c pol) (nextToken_uncommon o2 q c pol).
Proof.
  intros. unfold nextToken_uncommon. cbv zeta. do 40 (branch; [handler|]).
  apply psim_assert. intros. apply sim_handleSymbol.
Qed.
Lemma sim_dispatch : forall c, psim trel (dispatch o1 p c pol) (dispatch o2 q c pol).
Proof.
  intros. unfold dispatch. cbv zeta. branch; [apply sim_uncommon|]. do 11 (branch; [handler|]). apply sim_uncommon.
Qed.
End Handlers.

Lemma sim_nextToken : forall pol, p_scan pol = false -> psim trel (nextToken o1 pol) (nextToken o2 pol).
Proof. intros. unfold nextToken. sim. apply sim_dispatch; auto. Qed.
Lemma sim_nextTag : psim trel (nextToken_stringifyAsTag o1) (nextToken_stringifyAsTag o2).
Proof. unfold nextToken_stringifyAsTag. sim; [apply sim_handleString|apply sim_asTag]; auto. Qed.
Lemma sim_nextFile : psim trel (nextToken_stringifyAsFile o1) (nextToken_stringifyAsFile o2).
Proof. unfold nextToken_stringifyAsFile. sim; [apply sim_handleString|apply sim_asFile]; auto. Qed.

End Sim.
