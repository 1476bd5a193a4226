(** Every handler of the tokenizer, run from a state inside the token, stops with a
    well-formed token, whatever the rest of the input. *)
From Coq Require Import ZArith List Bool Lia.
From Verif Require Import Base Source WLChar LongNames ByteDecoder CharDecoder Decode SpecText Iter
  TextProofs Logic LongNamesProofs WlDecode SpecReader ReaderProofs GenTokenKind TokenKind Format FormatProofs Tokenizer TokLogic.
Import ListNotations.
Local Open Scope Z_scope.

Section Tok.
Context (o : opts) (s0 : st) (I0 : Inv o s0).

Notation start := (cur s0).
Definition PE : Prop := has_surrogate_escape (rest (cur s0)).
Notation tp := (wpr PE o s0).

(** a state inside the token: something has been read *)
Definition G (s : st) : Prop := Inv o s /\ R o s0 s /\ (length (rest (cur s)) < length (rest (cur s0)))%nat.
(** [c] is the next character at [s] *)
Definition at_ (c : wlchar) (s : st) : Prop := exists r, twl (rest (cur s)) = Some (c, r).
Definition loc_ok (l : loc) (s : st) : Prop := loc_leb l (ploc (cur s)) = Some true.

(** the token [t] ends where the state [s] is *)
Definition tok_base (t : token) (s : st) : Prop :=
  t_start t = rest (cur s0) /\ t_text t = buf_between (rest (cur s0)) (rest (cur s)) /\
  t_src t = mkspan (ploc (cur s0)) (ploc (cur s)) /\ lexable (t_kind t) = true /\
  (length (rest (cur s)) < length (rest (cur s0)))%nat.

(** ... and if it is unterminated that is the end of the input *)
Definition to_end (k : Z) (s : st) : Prop := isUnterminated k = true -> rest (cur s) = [].
Definition tok_ok (t : token) (s : st) : Prop := tok_base t s /\ to_end (t_kind t) s.
(** the kinds that say nothing about where the input ends *)
Definition ended (k : Z) : bool := lexable k && negb (isUnterminated k).

Lemma G_Inv : forall s, G s -> Inv o s. Proof. firstorder. Qed.
Lemma G_R : forall s, G s -> R o s0 s. Proof. firstorder. Qed.
Hint Resolve G_Inv G_R : core.

Lemma G_step : forall s s', G s -> Inv o s' -> R o s s' -> G s'.
Proof.
  intros s s' (HI & HR & HL) HI' HR'. split; auto. split; [eapply R_trans; eauto|].
  pose proof (R_length _ _ _ HR'). lia.
Qed.

Lemma R_PE : forall s a, R o s0 s -> twf a (rest (cur s)) = None -> PE.
Proof. intros s a HR H. apply (R_surr _ _ _ HR). eapply twf_none; eauto. Qed.

Lemma loc_ok_self : forall s, loc_ok (ploc (cur s)) s. Proof. intros; apply loc_leb_refl. Qed.
Lemma loc_ok_start : forall s, R o s0 s -> loc_ok (ploc start) s. Proof. intros; apply (R_leb o); auto. Qed.
Lemma loc_ok_R : forall l s s', loc_ok l s -> Inv o s -> R o s s' -> loc_ok l s'.
Proof. intros l s s' H HI HR. eapply loc_leb_trans; [exact H|]. apply (R_leb o); auto. Qed.
Hint Resolve loc_ok_self loc_ok_start : core.

Lemma at_fun : forall c c' s r, at_ c s -> twl (rest (cur s)) = Some (c', r) -> c' = c.
Proof. intros c c' s r [r0 H] H'. rewrite H in H'. congruence. Qed.

Lemma next_shorter : forall s c r, twl (rest (cur s)) = Some (c, r) -> wc c <> EndOfFile -> (length r < length (rest (cur s)))%nat.
Proof. intros s c r H N. destruct (twf_eof _ _ _ _ H) as [[E _]|[_ L]]; [contradiction|auto]. Qed.
Lemma next_nil : forall s c r, twl (rest (cur s)) = Some (c, r) -> (length r < length (rest (cur s)))%nat \/ (wc c = EndOfFile /\ r = []).
Proof. intros s c r H. destruct (twf_eof _ _ _ _ H) as [[E ?]|[_ L]]; auto. Qed.

Lemma at_fmt : forall c s, at_ c s -> is_char (wc c) = true -> fmt_ok c.
Proof. intros c s [r H] Hc. apply twf_read in H as [_ [bs H]]. eapply fmt_ok_read; eauto. Qed.
Lemma twl_fmt : forall c bs r, twl bs = Some (c, r) -> is_char (wc c) = true -> fmt_ok c.
Proof. intros c bs r H Hc. apply twf_read in H as [_ [b H]]. eapply fmt_ok_read; eauto. Qed.

(** ** Rules *)
Lemma T_next : forall B pol (k : wlchar -> M B) s Q, G s -> p_scan pol = false ->
  (forall c s', G s' -> R o s s' -> twl (rest (cur s)) = Some (c, rest (cur s')) -> tp (k c) s' Q) ->
  tp (bind (nextWL o start pol) k) s Q.
Proof.
  intros B pol k s Q HG Hp HQ. apply wpr_bind. eapply wpr_call; [apply G_R; auto|apply nextWL_wp; auto|].
  - intros H. eapply R_PE; eauto.
  - cbn beta. intros c s' I' R' B' T. apply HQ; auto. eapply G_step; eauto.
Qed.

Lemma T_cur : forall B pol (k : wlchar -> M B) s Q, G s -> p_scan pol = false ->
  (forall c s', G s' -> R o s s' -> cur s' = cur s -> at_ c s' -> tp (k c) s' Q) ->
  tp (bind (currentWL o start pol) k) s Q.
Proof.
  intros B pol k s Q HG Hp HQ. apply wpr_bind. eapply wpr_call; [apply G_R; auto|apply currentWL_wp; auto|].
  - apply R_refl.
  - intros H. eapply R_PE; eauto.
  - cbn beta. intros c s' I' R' B' (E & _ & T). apply HQ; auto. eapply G_step; eauto.
Qed.

Lemma T_src : forall B pol (k : Z -> M B) s Q, G s ->
  (forall c s', G s' -> R o s s' -> c = dchar (decode (rest (cur s))) -> rest (cur s') = drest (decode (rest (cur s))) ->
     tp (k c) s' Q) ->
  tp (bind (next_source_char o pol) k) s Q.
Proof.
  intros B pol k s Q HG HQ. apply wpr_bind. eapply wpr_call; [apply G_R; auto|apply wp_next_src; auto|].
  cbn beta. intros c s' I' R' B' (E & Er & _). apply HQ; auto. eapply G_step; eauto.
Qed.

Lemma T_psrc : forall B pol (k : Z -> M B) s Q, G s ->
  (forall c s', G s' -> R o s s' -> cur s' = cur s -> c = dchar (decode (rest (cur s'))) -> tp (k c) s' Q) ->
  tp (bind (peek_source_char o pol) k) s Q.
Proof.
  intros B pol k s Q HG HQ. apply wpr_bind. unfold peek_source_char. eapply wpr_peek; [eauto|eauto|apply wp_next_src; eauto|].
  cbn beta. intros c s2 s' E _ _ (Ec & _) _ I' R' B'. apply HQ; auto; [eapply G_step; eauto|]. rewrite E; auto.
Qed.

Lemma T_token_base : forall k s, G s -> lexable k = true -> tp (mk_token k start) s (fun t s' => s' = s /\ t_kind t = k /\ tok_base t s').
Proof.
  intros k s (HI & HR & HL) Hk. unfold mk_token. apply wpr_bind, wpr_get_rest; auto. apply wpr_bind, wpr_get_loc; auto.
  apply wpr_bind, wpr_assert; auto; [apply Nat.leb_le; lia|].
  apply wpr_bind. eapply (wpr_lift_ok _ _ _ _ _ (mkspan (ploc start) (ploc (cur s)))); auto.
  - unfold Span_new. rewrite (R_leb o s0 s); auto.
  - unfold new2. apply wpr_bind, wpr_assert; auto; [eapply new2_check_ok; eauto|]. apply wpr_ret; auto.
    unfold tok_base; cbn; auto 10.
Qed.
Lemma T_token_end : forall k s, G s -> lexable k = true -> rest (cur s) = [] -> tp (mk_token k start) s tok_ok.
Proof.
  intros k s HG Hk Hr. eapply wpr_conseq; [apply T_token_base; auto|]. cbn beta. intros t s' _ _ (-> & Ek & H). split; auto. intros _. exact Hr.
Qed.
Lemma T_token : forall k s, G s -> ended k = true -> tp (mk_token k start) s tok_ok.
Proof.
  intros k s HG Hk. apply andb_true_iff in Hk as [Hk Hu]. apply negb_true_iff in Hu.
  eapply wpr_conseq; [apply T_token_base; auto|]. cbn beta. intros t s' _ _ (-> & Ek & H). split; auto. rewrite Ek. intros X. congruence.
Qed.

Lemma T_mark : forall B (k : pos -> M B) s Q, G s -> tp (k (cur s)) s Q -> tp (bind mark k) s Q.
Proof. intros. apply wpr_bind, wpr_mark; auto. Qed.
Lemma T_loc : forall B (k : loc -> M B) s Q, G s -> tp (k (ploc (cur s))) s Q -> tp (bind get_loc k) s Q.
Proof. intros. apply wpr_bind, wpr_get_loc; auto. Qed.
Lemma T_rest : forall B (k : list Z -> M B) s Q, G s -> tp (k (rest (cur s))) s Q -> tp (bind get_rest k) s Q.
Proof. intros. apply wpr_bind, wpr_get_rest; auto. Qed.
Lemma T_assert : forall B b (k : unit -> M B) s Q, G s -> b = true -> tp (k tt) s Q -> tp (bind (assert_ b) k) s Q.
Proof. intros. apply wpr_bind, wpr_assert; auto. Qed.
Lemma T_ret : forall B A (a : A) (k : A -> M B) s Q, G s -> tp (k a) s Q -> tp (bind (ret a) k) s Q.
Proof. intros. apply wpr_bind, wpr_ret; auto. Qed.
Lemma T_fuel : forall B A (f : nat -> M A) (k : A -> M B) s Q,
  tp (bind (f (S (length (rest (cur s))))) k) s Q -> tp (bind (with_fuel f) k) s Q.
Proof. intros. exact H. Qed.

(** An action whose only effect is on the log. *)
Definition quiet (m : M unit) (s : st) : Prop := forall Q : unit -> st -> Prop,
  (forall s', cur s' = cur s -> G s' -> R o s s' -> Q tt s') -> tp m s Q.

Lemma quiet_ret : forall s, G s -> quiet (ret tt) s.
Proof. intros s HG Q HQ. apply wpr_ret; auto. apply HQ; auto. apply R_refl. Qed.
Lemma quiet_when : forall b m s, G s -> (b = true -> quiet m s) -> quiet (when_ b m) s.
Proof. intros b m s HG H. destruct b; cbn [when_]; auto. apply quiet_ret; auto. Qed.
Lemma quiet_if : forall (b : bool) m m' s, (b = true -> quiet m s) -> (b = false -> quiet m' s) -> quiet (if b then m else m') s.
Proof. intros b m m' s H H'. destruct b; auto. Qed.
Lemma quiet_report : forall t sv a b s, G s -> o_check_issues o = true -> loc_leb a b = Some true -> quiet (report t sv a b) s.
Proof.
  intros t sv a b s HG Hc Hl Q HQ. apply wpr_report; auto. intros s' E I' R' B'. apply HQ; auto. eapply G_step; eauto.
Qed.
Lemma quiet_report_from : forall t sv a s, G s -> o_check_issues o = true -> loc_ok a s -> quiet (report_from t sv a) s.
Proof.
  intros t sv a s HG Hc Hl Q HQ. unfold report_from. apply T_loc; auto. apply quiet_report; auto.
Qed.
Lemma quiet_loc : forall (k : loc -> M unit) s, G s -> quiet (k (ploc (cur s))) s -> quiet (bind get_loc k) s.
Proof. intros k s HG H Q HQ. apply T_loc; auto. Qed.
Lemma quiet_cur : forall pol (k : wlchar -> M unit) s, G s -> p_scan pol = false ->
  (forall c s', G s' -> R o s s' -> cur s' = cur s -> at_ c s' -> quiet (k c) s') -> quiet (bind (currentWL o start pol) k) s.
Proof.
  intros pol k s HG Hp H Q HQ. apply T_cur; auto. intros c s' G' R' E' A'. apply H; auto.
  intros s2 E2 G2 R2. apply HQ; auto; [congruence|]. eapply R_trans; eauto.
Qed.
Lemma quiet_track : forall m s, G s -> o_compute_oob o = true -> (forall PE, track_rule PE m) -> quiet m s.
Proof. intros m s HG Hc H Q HQ. apply H; auto. intros s' E I' R' B'. apply HQ; auto. eapply G_step; eauto. Qed.

Lemma quiet_unexpected : forall c l tag s, G s -> o_check_issues o = true -> loc_ok l s -> fmt_ok c ->
  match tag with UnexpectedSpaceCharacter | UnexpectedLetterlikeCharacter | UnexpectedNewlineCharacter => true | _ => false end = true ->
  quiet (add_unexpected_char_issue c l tag) s.
Proof.
  intros c l tag s HG Hc Hl ((x & F1) & (y & F2) & (z & F3)) Ht Q HQ. unfold add_unexpected_char_issue.
  apply T_loc; auto. apply wpr_bind. eapply wpr_lift_ok; auto.
  { unfold Span_new. rewrite Hl. reflexivity. }
  apply wpr_bind. eapply wpr_lift_ok; auto; [exact F3|].
  apply wpr_bind. assert (F : exists w, match tag with UnexpectedNewlineCharacter => graphicalString c | _ => safeAndGraphicalString c end = Ok w).
  { destruct tag; eauto. }
  destruct F as [w F]. eapply wpr_lift_ok; auto; [exact F|].
  apply T_assert; auto.
  assert (E : addIssue (mkissue tag Warning (mkspan l (ploc (cur s)))) = modlog (addIssue_log (mkissue tag Warning (mkspan l (ploc (cur s)))))) by reflexivity.
  rewrite E. apply wpr_modlog; auto.
  - apply ls_issue; auto.
  - apply addIssue_flag.
  - intros s' E' I' R' B'. apply HQ; auto. eapply G_step; eauto.
Qed.

Lemma T_quiet : forall B m (k : unit -> M B) s Q, quiet m s ->
  (forall s', cur s' = cur s -> G s' -> R o s s' -> tp (k tt) s' Q) -> tp (bind m k) s Q.
Proof. intros B m k s Q H HQ. apply wpr_bind, H; auto. Qed.

(** Back to an earlier position inside the token. *)
Lemma T_seek : forall B (k : unit -> M B) s1 s Q, G s1 -> R o s1 s ->
  (forall s', cur s' = cur s1 -> G s' -> R o s1 s' -> tp (k tt) s' Q) -> tp (bind (seek (cur s1)) k) s Q.
Proof.
  intros B k s1 s Q HG HR HQ. apply wpr_bind. eapply wpr_seek; auto. intros B' I'. apply HQ; auto.
  - split; auto. split; auto. cbn. apply HG.
  - apply (R_seek o s1 s1 s); auto. apply R_refl.
Qed.

Lemma seek_im_of : forall p, seek_im (imark_of p) = seek p.
Proof. intros [r w l]. reflexivity. Qed.

Lemma T_backup : forall B (k : unit -> M B) s1 s Q, G s1 -> G s -> R o s1 s ->
  (forall s', cur s' = cur s1 -> G s' -> R o s1 s' -> tp (k tt) s' Q) -> tp (bind (backupAndWarn o (imark_of (cur s1))) k) s Q.
Proof.
  intros B k s1 s Q HG1 HG HR HQ. unfold backupAndWarn. rewrite seek_im_of. apply wpr_bind.
  apply T_quiet.
  - apply quiet_when; auto. intros Hc. apply quiet_report; auto. apply loc_leb_refl.
  - intros s2 E2 G2 R2. eapply wpr_seek; auto.
    + eapply R_trans; [exact HR|exact R2].
    + intros B' I'. apply HQ; auto.
      * split; auto. split; auto. cbn. apply HG1.
      * apply (R_seek o s1 s1 s2); [apply R_refl|]. eapply R_trans; eauto.
Qed.

(** ** Automation *)
Ltac rchain :=
  first [ assumption | apply R_refl
        | match goal with H : R o ?y ?z |- R o ?x ?z => apply (R_trans o x y z); [rchain | exact H] end ].

Ltac solve_loc :=
  first [ assumption | apply loc_ok_self | apply loc_leb_refl
        | apply loc_ok_start; solve [auto]
        | (* a location of an earlier state *)
          match goal with
          | |- loc_ok (ploc (cur ?a)) ?b => apply (R_leb o); [solve [auto] | rchain]
          | |- loc_leb (ploc (cur ?a)) (ploc (cur ?b)) = Some true => apply (R_leb o); [solve [auto] | rchain]
          | H : loc_ok ?l ?a |- loc_ok ?l ?b => apply (loc_ok_R l a b); [exact H | solve [auto] | rchain]
          end ].

Ltac qstep :=
  match goal with
  | |- quiet (ret tt) _ => apply quiet_ret; assumption
  | |- quiet (when_ _ _) _ => apply quiet_when; [assumption | rewrite ?andb_true_iff; intros]
  | |- quiet (report _ _ _ _) _ => apply quiet_report; [assumption | tauto | solve_loc]
  | |- quiet (report_from _ _ _) _ => apply quiet_report_from; [assumption | tauto | solve_loc]
  | |- quiet (bind get_loc _) _ => apply quiet_loc; [assumption | cbn beta]
  | |- quiet (bind (currentWL _ _ _) _) _ => apply quiet_cur; [assumption | solve [auto] | intros ? ? ? ? ? ?; cbn beta]
  | |- quiet (addEmbeddedNewline _) _ => apply quiet_track; [assumption | tauto | intros; apply wpr_addNewline]
  | |- quiet (addEmbeddedTab _) _ => apply quiet_track; [assumption | tauto | intros; apply wpr_addTab]
  | |- quiet (if _ then _ else _) _ => apply quiet_if; intros
  end.

Ltac tstep :=
  match goal with
  | |- wpr _ _ _ (mk_token _ _) _ tok_ok =>
      first [ apply T_token; [assumption | first [reflexivity | solve [auto]]]
            | apply T_token_end; [assumption | reflexivity | idtac]
            | apply T_token; [assumption | idtac] ]
  | |- wpr _ _ _ (bind (nextWL _ _ _) _) _ _ => apply T_next; [assumption | solve [auto] | intros ? ? ? ? ?; cbn beta]
  | |- wpr _ _ _ (bind (currentWL _ _ _) _) _ _ => apply T_cur; [assumption | solve [auto] | intros ? ? ? ? ? ?; cbn beta]
  | |- wpr _ _ _ (bind (next_source_char _ _) _) _ _ => apply T_src; [assumption | intros ? ? ? ? ? ?; cbn beta]
  | |- wpr _ _ _ (bind (peek_source_char _ _) _) _ _ => apply T_psrc; [assumption | intros ? ? ? ? ? ?; cbn beta]
  | |- wpr _ _ _ (bind mark _) _ _ => apply T_mark; [assumption | cbn beta]
  | |- wpr _ _ _ (bind get_loc _) _ _ => apply T_loc; [assumption | cbn beta]
  | |- wpr _ _ _ (bind get_rest _) _ _ => apply T_rest; [assumption | cbn beta]
  | |- wpr _ _ _ (bind (ret _) _) _ _ => apply T_ret; [assumption | cbn beta]
  | |- wpr _ _ _ (bind (assert_ _) _) _ _ => apply T_assert; [assumption | first [assumption | reflexivity | solve [auto] | idtac] | cbn beta]
  | |- wpr _ _ _ (bind (when_ _ _) _) _ _ => apply T_quiet; [repeat qstep | intros ? ? ? ?; cbn beta]
  | |- wpr _ _ _ (bind (backupAndWarn _ (imark_of (cur _))) _) _ _ => apply T_backup; [assumption | assumption | rchain | intros ? ? ? ?; cbn beta]
  | |- wpr _ _ _ (bind (seek (cur _)) _) _ _ => apply T_seek; [assumption | rchain | intros ? ? ? ?; cbn beta]
  | |- wpr _ _ _ (if ?b then _ else _) _ _ => let E := fresh "Eb" in destruct b eqn:E
  end.
Ltac trun := repeat tstep.

(** ** Operators *)
Definition safe (h : pos -> wlchar -> policy -> M token) : Prop :=
  forall c pol s, G s -> p_scan pol = false -> tp (h start c pol) s tok_ok.
Definition safe_at (ch : Z) (h : pos -> wlchar -> policy -> M token) : Prop :=
  forall c pol s, G s -> p_scan pol = false -> wc c =? ch = true -> tp (h start c pol) s tok_ok.

Ltac op h := intros c pol s HG Hp Hc; unfold h; trun.

Lemma handleColon_ok : safe_at 58 (handleColon o). Proof. op handleColon. Qed.
Lemma handleEqual_ok : safe_at 61 (handleEqual o). Proof. op handleEqual. Qed.
Lemma handleUnder_ok : safe_at 95 (handleUnder o). Proof. op handleUnder. Qed.
Lemma handleLess_ok : safe_at 60 (handleLess o). Proof. op handleLess. Qed.
Lemma handleGreater_ok : safe_at 62 (handleGreater o). Proof. op handleGreater. Qed.
Lemma handleMinus_ok : safe_at 45 (handleMinus o). Proof. op handleMinus. Qed.
Lemma handleBar_ok : safe_at 124 (handleBar o). Proof. op handleBar. Qed.
Lemma handle_double_ok : forall ch one two, ended one = true -> ended two = true -> safe_at ch (handle_double o ch one two).
Proof. intros ch one two L1 L2. op handle_double. Qed.
Lemma handleBang_ok : safe_at 33 (handleBang o). Proof. op handleBang. Qed.
Lemma handleSlash_ok : safe_at 47 (handleSlash o). Proof. op handleSlash. Qed.
Lemma handleAt_ok : safe_at 64 (handleAt o). Proof. op handleAt. Qed.
Lemma handlePlus_ok : safe_at 43 (handlePlus o). Proof. op handlePlus. Qed.
Lemma handleStar_ok : safe_at 42 (handleStar o). Proof. op handleStar. Qed.
Lemma handleCaret_ok : safe_at 94 (handleCaret o). Proof. op handleCaret. Qed.

(** ** Loops *)

(** [c] is the character at [s] and not the end of the file: the next read moves on *)
Lemma at_shorter : forall c c' s r, at_ c s -> twl (rest (cur s)) = Some (c', r) -> wc c <> EndOfFile ->
  (length r < length (rest (cur s)))%nat.
Proof. intros c c' s r A T N. pose proof (at_fun _ _ _ _ A T). subst. eapply next_shorter; eauto. Qed.
Ltac shorter N :=
  match goal with
  | A : at_ ?c ?s, T : twl (rest (cur ?s)) = Some (?c', _) |- _ => pose proof (at_shorter _ _ _ _ A T N)
  end;
  repeat match goal with E : cur ?a = cur ?b |- context [cur ?a] => rewrite E end.

Lemma digit_neq_eof : forall c, isDigit c = true -> c <> EndOfFile.
Proof. intros c H ->. discriminate. Qed.
Lemma alnum_neq_eof : forall c, isAlphaOrDigit c = true -> c <> EndOfFile.
Proof. intros c H ->. discriminate. Qed.
Lemma eqb_neq_eof : forall c k, c =? k = true -> k <> EndOfFile -> c <> EndOfFile.
Proof. intros c k H N E. apply Z.eqb_eq in H. congruence. Qed.

Lemma letterlike_facts : forall c, letterlike c = true -> c <> EndOfFile /\ is_line_continuation c = false.
Proof.
  intros c H. assert (C : letterlike EndOfFile = false) by (vm_compute; reflexivity). split; [intros ->; congruence|].
  destruct (is_line_continuation c) eqn:L; auto. unfold is_line_continuation, LineContinuation_CRLF, LineContinuation_LineFeed in L.
  apply andb_true_iff in L as [L1 L2]. apply Z.leb_le in L1, L2.
  assert (c = -17 \/ c = -18 \/ c = -19) as [-> |[-> | ->]] by lia; vm_compute in H; discriminate.
Qed.

Lemma special_not_letterlike : forallb (fun c => negb (letterlike c)) special_chars = true.
Proof. vm_compute. reflexivity. Qed.

Lemma strange_char : forall c s, at_ c s -> letterlike (wc c) = true -> is_char (wc c) = true.
Proof.
  intros c s [r H] L. apply twf_read in H as [_ [bs H]]. apply wld_point in H. apply point_ok_cases in H as [H|H].
  - unfold is_char. apply Z.leb_le. destruct H; lia.
  - pose proof (proj1 (forallb_forall _ _) special_not_letterlike _ H) as F. cbn beta in F. rewrite L in F. discriminate.
Qed.

Lemma count_loop_ok : forall pol p fuel n c s, (forall x, p x = true -> x <> EndOfFile) -> p_scan pol = false -> G s -> at_ c s ->
  (length (rest (cur s)) < fuel)%nat ->
  tp (count_loop o fuel start pol p n c) s (fun r s' => G s' /\ R o s s' /\ at_ (snd r) s' /\ n <= fst r).
Proof.
  intros pol p fuel. induction fuel as [|k IH]; intros n c s Hpe Hp HG HA Hf; [lia|]. cbn [count_loop].
  destruct (p (wc c)) eqn:Ec; cbn [negb].
  - trun. eapply wpr_conseq; [apply IH; auto|].
    + shorter (Hpe _ Ec). lia.
    + cbn beta. intros [m d] s2 I2 R2 (G2 & R2' & A2 & L2). split; auto. split; [rchain|]. split; auto. lia.
  - apply wpr_ret; auto. split; auto. split; [apply R_refl|]. split; auto. cbn. lia.
Qed.

(** Use of a postcondition that says where the state is. *)
Lemma T_call : forall A B (m : M A) (k : A -> M B) s (P : A -> st -> Prop) Q,
  tp m s (fun a s' => G s' /\ P a s') -> (forall a s', G s' -> P a s' -> tp (k a) s' Q) -> tp (bind m k) s Q.
Proof.
  intros A B m k s P Q H HQ. apply wpr_bind. eapply wpr_conseq; [exact H|]. cbn beta. intros a s' _ _ [H1 H2]. auto.
Qed.

Lemma handleZeros_ok : forall pol c s, G s -> p_scan pol = false -> wc c =? 48 = true ->
  tp (handleZeros o start pol c) s (fun r s' => G s' /\ R o s s' /\ at_ (snd r) s').
Proof.
  intros pol c s HG Hp Hc. unfold handleZeros. trun. apply wpr_with_fuel.
  eapply wpr_conseq; [apply count_loop_ok; auto; intros x Hx; apply (eqb_neq_eof x 48); [rewrite Z.eqb_sym; auto|discriminate]|].
  cbn beta. intros r s2 _ _ (G2 & R2 & A2 & _). split; auto. split; auto. rchain.
Qed.

Lemma handleDigits_ok : forall pol c s, G s -> p_scan pol = false -> isDigit (wc c) = true ->
  tp (handleDigits o start pol c) s (fun r s' => G s' /\ R o s s' /\ at_ (snd r) s' /\ 1 <= fst r).
Proof.
  intros pol c s HG Hp Hc. unfold handleDigits. trun. apply wpr_with_fuel.
  eapply wpr_conseq; [apply count_loop_ok; auto; apply digit_neq_eof|].
  cbn beta. intros r s2 _ _ (G2 & R2 & A2 & L). split; auto. split; auto. rchain.
Qed.

Lemma alnum_loop_ok : forall pol base fuel x n c s, p_scan pol = false -> G s -> at_ c s ->
  (length (rest (cur s)) < fuel)%nat ->
  tp (alnum_loop o fuel start pol base x n c) s (fun r s' => G s' /\ R o s s' /\ at_ (snd (fst r)) s').
Proof.
  intros pol base fuel. induction fuel as [|k IH]; intros x n c s Hp HG HA Hf; [lia|]. cbn [alnum_loop].
  destruct (isAlphaOrDigit (wc c)) eqn:Ec; cbn [negb].
  2:{ apply wpr_ret; auto. split; auto. split; [apply R_refl|]. auto. }
  destruct ((base =? 0) && negb (isDigit (wc c))).
  { apply wpr_ret; auto. split; auto. split; [apply R_refl|]. auto. }
  cbv zeta. trun. eapply wpr_conseq; [apply IH; auto|].
  - shorter (alnum_neq_eof _ Ec). lia.
  - cbn beta. intros [[m d] y] s2 I2 R2 (G2 & R2' & A2). split; auto. split; [rchain|]. auto.
Qed.

Lemma handleAlphaOrDigits_ok : forall pol base x c s, G s -> p_scan pol = false -> at_ c s -> isAlphaOrDigit (wc c) = true ->
  tp (handleAlphaOrDigits o start c base pol x) s (fun r s' => G s' /\ R o s s' /\ at_ (snd (fst r)) s').
Proof.
  intros pol base x c s HG Hp HA Hc. unfold handleAlphaOrDigits. trun. apply wpr_with_fuel. apply alnum_loop_ok; auto.
Qed.

(** After the dot of a number; [s1] is the state of the mark to go back to. *)
Lemma handlePastDot_ok : forall pol base x c s s1 m, G s -> p_scan pol = false -> at_ c s ->
  G s1 -> R o s1 s -> (wc c <> 46 \/ m = imark_of (cur s1)) ->
  tp (handlePastDot o start m c base pol x) s (fun r s' => G s' /\ R o s1 s' /\ at_ (snd (fst r)) s' /\
    (fst (fst r) = Bailout -> wc c = 46)).
Proof.
  intros pol base x c s s1 m HG Hp HA HG1 HR1 Hm. unfold handlePastDot. destruct (Z.eqb_spec (wc c) 46) as [E|N].
  - destruct Hm as [Hm| ->]; [contradiction|]. trun.
    apply wpr_ret; auto. split; auto. split; [rchain|]. split; auto.
  - destruct (isAlphaOrDigit (wc c)) eqn:Ea.
    + eapply T_call; [apply handleAlphaOrDigits_ok; auto|]. cbn beta. intros [[h d] y] s2 G2 (R2 & A2). cbn [fst snd] in A2.
      apply T_quiet. { apply quiet_when; auto. rewrite !andb_true_iff. intros [[_ Hc] _]. apply quiet_report; auto. apply loc_leb_refl. }
      intros s3 E3 G3 R3. apply wpr_ret; auto. cbn [fst snd]. split; auto. split; [rchain|]. split; [|discriminate].
      destruct A2 as [r A2]. exists r. congruence.
    + apply wpr_ret; auto. cbn [fst snd]. split; auto. split; auto. split; auto. discriminate.
Qed.

Lemma ended_computeTok : forall x, ended (computeTok x) = true.
Proof.
  intros x. unfold computeTok. destruct (InvalidBase x); [reflexivity|]. destruct (UnrecognizedDigit x); [reflexivity|].
  destruct (RealFlag x); [reflexivity|]. destruct (_ && _); reflexivity.
Qed.
Hint Resolve ended_computeTok : core.

Lemma first_ok : forall c s k, at_ c s -> wc c =? k = true -> 0 <= k < 0x80 ->
  exists b t, rest (cur s) = b :: t /\ ifASCIIWLCharacter b k = true.
Proof.
  intros c s k [r H] E Hk. apply Z.eqb_eq in E. destruct (twl_ascii_first _ _ _ H) as (b & t & Eb & Hb); [lia|].
  exists b, t. split; auto. unfold ifASCIIWLCharacter. destruct Hb as [-> | ->]; [rewrite E, Z.eqb_refl; apply orb_true_r|].
  rewrite (Z.eqb_refl 92). rewrite orb_true_r. reflexivity.
Qed.

Lemma T_first : forall B (k : unit -> M B) c s n Q, G s -> at_ c s -> wc c =? n = true -> 0 <= n < 0x80 ->
  tp (k tt) s Q -> tp (bind (assert_first (rest (cur s)) n) k) s Q.
Proof.
  intros B k c s n Q HG HA E Hn HQ. destruct (first_ok c s n HA E Hn) as (b & t & -> & Hb). cbn [assert_first]. apply T_assert; auto.
Qed.

Lemma number_exponent_ok : forall pol x s s1, G s -> p_scan pol = false -> G s1 -> R o s1 s ->
  (exists c, at_ c s1 /\ wc c =? 42 = true) ->
  tp (number_exponent o start pol x (cur s1)) s tok_ok.
Proof.
  intros pol x s s1 HG Hp HG1 HR1 (c & HA & Hc). unfold number_exponent.
  assert (F : exists b t, rest (cur s1) = b :: t /\ ifASCIIWLCharacter b 42 = true) by (eapply first_ok; eauto; lia).
  destruct F as (b & t & Eb & Hb). rewrite Eb. cbn [assert_first]. trun.
  all: try (apply T_token; auto; fail).
  assert (K : forall c2 x1 s2, G s2 -> at_ c2 s2 ->
    tp (if negb (isDigit (wc c2)) then mk_token TK_Error_Number start
        else c3 <- (if wc c2 =? 48 then r2 <- handleZeros o start pol c2 ;; ret (snd r2) else ret c2) ;;
      r3 <- (if isDigit (wc c3) then
               r4 <- handleDigits o start pol c3 ;; ret (snd r4, set_expcount x1 (fst r4))
             else ret (c3, x1)) ;;
      let '(c4, x2) := r3 in
      if negb (wc c4 =? 46) then mk_token (computeTok x2) start
      else
        dot <- mark ;;
        assert_first (rest dot) 46 ;;
        nextWL o start pol ;;
        c5 <- currentWL o start pol ;;
        r5 <- handlePastDot o start (imark_of dot) c5 (Base x2) pol x2 ;;
        let '(h, _, x3) := r5 in
        match h with
        | Bailout => mk_token (computeTok x3) start
        | Count _ => mk_token TK_Error_Number start
        end) s2 tok_ok).
  { intros kc2 kx1 ks2 kG2 kA2. destruct (isDigit (wc kc2)) eqn:Ed; cbn [negb]; [|trun].
    eapply (T_call _ _ _ _ _ (fun kc3 ks3 => at_ kc3 ks3)).
    { destruct (wc kc2 =? 48) eqn:E48.
      - eapply T_call; [apply handleZeros_ok; auto|]. cbn beta. intros r ks3 kG3 [kR3 kA3]. apply wpr_ret; auto.
      - apply wpr_ret; auto. }
    intros kc3 ks3 kG3 kA3. eapply (T_call _ _ _ _ _ (fun r ks4 => at_ (fst r) ks4)).
    { destruct (isDigit (wc kc3)) eqn:E3.
      - eapply T_call; [apply handleDigits_ok; auto|]. cbn beta. intros r ks4 kG4 (kR4 & kA4 & _). apply wpr_ret; auto.
      - apply wpr_ret; auto. }
    intros [kc4 kx2] ks4 kG4 kA4. cbn [fst] in kA4. destruct (wc kc4 =? 46) eqn:E46; cbn [negb]; [|trun].
    apply T_mark; auto. cbn beta. apply (T_first _ _ kc4); auto; [lia|]. trun.
    eapply T_call; [eapply (handlePastDot_ok _ _ _ _ _ ks4); auto; rchain|]. cbn beta. intros [[h d] kx3] ks5 kG5 _. destruct h; trun. }
  eapply (T_call _ _ _ _ _ (fun r s2 => at_ (fst r) s2)).
  { trun; apply wpr_ret; auto. }
  intros [cc2 xx1] ss2 GG2 AA2. cbn [fst] in AA2. apply K; auto.
Qed.

Lemma number_after_precision_ok : forall pol x acc sup c s, G s -> p_scan pol = false -> at_ c s ->
  tp (number_after_precision o start pol x acc sup c) s tok_ok.
Proof.
  intros pol x acc sup c s HG Hp HA. unfold number_after_precision. trun. apply (T_first _ _ c); auto; [lia|]. trun.
  apply number_exponent_ok; auto; first [rchain | solve [eauto]].
Qed.

Lemma number_star_ok : forall pol x c s, G s -> p_scan pol = false -> at_ c s -> wc c =? 42 = true ->
  tp (number_star o start pol x) s tok_ok.
Proof.
  intros pol x c s HG Hp HA Hc. unfold number_star. trun. apply (T_first _ _ c); auto; [lia|]. trun.
  apply number_exponent_ok; auto; first [rchain | solve [eauto]].
Qed.

(** the mark at the sign, when there is one *)
Definition sign_ok (sign : bool) (m : option pos) (s : st) : Prop :=
  sign = true -> exists sm, m = Some (cur sm) /\ G sm /\ R o sm s.

Lemma number_precision_dot_ok : forall pol x acc sign sup m c s, G s -> p_scan pol = false -> at_ c s -> sign_ok sign m s ->
  tp (number_precision_dot o start pol x acc sign sup m c) s tok_ok.
Proof.
  intros pol x acc sign sup m c s HG Hp HA HS. unfold number_precision_dot. destruct (wc c =? 46) eqn:E46.
  2:{ apply number_after_precision_ok; auto. }
  apply T_mark; auto. cbn beta. apply (T_first _ _ c); auto; [lia|]. cbv zeta.
  assert (P : forall c1 s1, G s1 -> at_ c1 s1 -> R o s s1 -> (sign || sup = false -> wc c1 <> 46) ->
    tp (r <- handlePastDot o start (imark_of (cur s)) c1 0 pol x ;;
      let '(h, c2, x1) := r in
      match h with
      | Bailout =>
          if sup then mk_token (computeTok x1) start
          else if sign then
            match m with
            | Some m => backupAndWarn o (imark_of m) ;; mk_token (computeTok x1) start
            | None => panic
            end
          else panic
      | Count n =>
          let supplied' := if n =? 0 then sup else true in
          if negb supplied' then mk_token TK_Error_Number start
          else number_after_precision o start pol x1 acc supplied' c2
      end) s1 tok_ok).
  { intros c1 s1 G1 A1 R1 N1. eapply T_call; [eapply (handlePastDot_ok _ _ _ _ _ s); auto|]. cbn beta.
    intros [[h c2] x1] s2 G2 (R2 & A2 & Hb). cbn [fst snd] in *. destruct h.
    - cbv zeta. destruct (negb _); [trun|]. apply number_after_precision_ok; auto.
    - specialize (Hb eq_refl). destruct sup; [trun|]. destruct sign; [|exfalso; apply N1; auto].
      destruct (HS eq_refl) as (sm & -> & Gm & Rm). trun. }
  destruct (sign || sup) eqn:Es; cbn [negb].
  - trun. apply P; auto; first [rchain | discriminate].
  - trun. apply negb_false_iff in Eb. apply P; auto; try rchain. intros _ E. rewrite E in Eb. discriminate.
Qed.

Lemma number_precision_digits_ok : forall pol x acc sign m c s, G s -> p_scan pol = false -> at_ c s -> sign_ok sign m s ->
  tp (number_precision_digits o start pol x acc sign m c) s tok_ok.
Proof.
  intros pol x acc sign m c s HG Hp HA HS. unfold number_precision_digits. destruct (isDigit (wc c)) eqn:Ed.
  - eapply T_call; [apply handleDigits_ok; auto|]. cbn beta. intros [n c1] s1 G1 (R1 & A1 & _). cbn [snd] in A1.
    trun. apply number_precision_dot_ok; auto. intros Hs. destruct (HS Hs) as (sm & -> & Gm & Rm). exists sm. split; auto. split; auto. rchain.
  - apply number_precision_dot_ok; auto.
Qed.

Lemma number_backquote_ok : forall pol x s, G s -> p_scan pol = false ->
  tp (number_backquote o start pol x) s tok_ok.
Proof.
  intros pol x s HG Hp. unfold number_backquote. cbv zeta. apply T_cur; auto. intros c s1 G1 R1 E1 A1. cbn beta.
  eapply (T_call _ _ _ _ _ (fun r s2 => at_ (fst r) s2)).
  { trun; apply wpr_ret; auto. }
  intros [c1 acc] s2 G2 A2. cbn [fst] in A2. destruct ((wc c1 =? 45) || (wc c1 =? 43)) eqn:Es.
  2:{ apply number_precision_digits_ok; auto. discriminate. }
  apply T_mark; auto. cbn beta.
  assert (F : exists b t, rest (cur s2) = b :: t /\ (ifASCIIWLCharacter b 45 || ifASCIIWLCharacter b 43) = true).
  { apply orb_true_iff in Es as [E|E]; destruct (first_ok _ _ _ A2 E) as (b & t & -> & H); try lia; exists b, t; split; auto;
    rewrite H; [auto|apply orb_true_r]. }
  destruct F as (b & t & -> & F). trun.
  apply number_precision_digits_ok; auto.
  - destruct A2 as [r A2]. match goal with A : at_ ?c ?s, E : cur ?s2 = cur ?s |- at_ ?c ?s2 => destruct A as [r' A]; exists r'; congruence end.
  - intros _. exists s2. split; auto. split; auto. rchain.
Qed.

Lemma number_tail_ok : forall pol x c s, G s -> p_scan pol = false -> at_ c s ->
  tp (number_tail o start pol x c) s tok_ok.
Proof.
  intros pol x c s HG Hp HA. unfold number_tail. trun.
  - apply number_backquote_ok; auto.
  - eapply number_star_ok; eauto.
Qed.

Lemma number_fraction_ok : forall pol x n m c s s1, G s -> p_scan pol = false -> wc c =? 46 = true -> G s1 -> R o s1 s ->
  ((exists d, at_ d s /\ wc d <> 46) \/ m = imark_of (cur s1)) ->
  tp (number_fraction o start pol x n m c) s tok_ok.
Proof.
  intros pol x n m c s s1 HG Hp Hc HG1 HR1 Hm. unfold number_fraction, handlePossibleFractionalPart.
  eapply (T_call _ _ _ _ _ (fun r s' => at_ (snd (fst r)) s')).
  { trun. eapply wpr_conseq; [eapply (handlePastDot_ok _ _ _ _ _ s1); auto; [rchain|]|].
    - destruct Hm as [(d & [r Hd] & N)|Hm]; [left|right; auto].
      match goal with A : at_ ?c' ?s', E : cur ?s' = cur s |- wc ?c' <> 46 => destruct A as [r' A]; rewrite E, Hd in A; congruence end.
    - cbn beta. intros r s2 _ _ (G2 & _ & A2 & _). auto. }
  intros [[h c1] x1] s2 G2 A2. cbn [fst snd] in A2. destruct h; trun. apply number_tail_ok; auto.
Qed.

Lemma number_base_ok : forall p s1 s2 r, rest (cur s1) = p ++ rest (cur s2) -> number_base (rest (cur s1)) (rest (cur s2)) = r -> exists b, r = Ok b.
Proof.
  intros p s1 s2 r E <-. unfold number_base. destruct (Nat.eqb_spec (length (rest (cur s1))) (length (rest (cur s2)))) as [|N]; [eauto|].
  rewrite E, buf_between_app. cbv zeta. destruct p as [|a [|b [|]]]; eauto. exfalso. apply N. rewrite E. auto.
Qed.

Lemma number_caret_ok : forall pol nz s s1, G s -> p_scan pol = false -> G s1 -> R o s1 s -> (exists p, nz = p ++ rest (cur s1)) ->
  tp (number_caret o start pol nz (cur s1)) s tok_ok.
Proof.
  intros pol nz s s1 HG Hp HG1 HR1 (p & Hnz). unfold number_caret. trun.
  assert (F : exists b, number_base nz (rest (cur s1)) = Ok b).
  { unfold number_base. destruct (Nat.eqb_spec (length nz) (length (rest (cur s1)))) as [|N]; [eauto|].
    rewrite Hnz, buf_between_app. cbv zeta. destruct p as [|a [|b [|]]]; eauto. exfalso. apply N. rewrite Hnz. auto. }
  destruct F as [b F]. apply wpr_bind. eapply wpr_lift_ok; auto; [exact F|]. cbv zeta. trun.
  - eapply T_call; [apply handleAlphaOrDigits_ok; auto|]. cbn beta. intros [[n c2] x1] s2 G2 (R2 & A2). cbn [fst snd] in A2. trun.
    + eapply (number_fraction_ok _ _ _ _ _ _ s2); auto.
    + apply number_tail_ok; auto.
  - eapply (number_fraction_ok _ _ _ _ _ _ s'1); auto.
Qed.

Lemma handleNumber_ok : forall c pol s, G s -> p_scan pol = false ->
  (isDigit (wc c) = true \/ (wc c = 46 /\ exists d, at_ d s /\ isDigit (wc d) = true)) ->
  tp (handleNumber o start c pol) s tok_ok.
Proof.
  intros c pol s HG Hp Hc. unfold handleNumber. apply T_assert; auto.
  { destruct Hc as [-> |[-> _]]; auto. }
  destruct (isDigit (wc c)) eqn:Ed.
  2:{ destruct Hc as [?|[Hc (d & Ad & Dd)]]; [discriminate|]. eapply (number_fraction_ok _ _ _ _ _ _ s); auto.
      - apply Z.eqb_eq; auto.
      - apply R_refl.
      - left. exists d. split; auto. intros E. rewrite E in Dd. discriminate. }
  (* either [c] was consumed (and [c1 = c]) or [c1] is the current character *)
  eapply (T_call _ _ _ _ _ (fun r s' => (at_ (snd (fst r)) s' \/ isDigit (wc (snd (fst r))) = true) /\
      exists p, snd r = p ++ rest (cur s'))).
  { destruct (wc c =? 48) eqn:E48.
    - eapply T_call; [apply handleZeros_ok; auto|]. cbn beta. intros [n d] s1 G1 (R1 & A1). cbn [snd] in A1. trun. apply wpr_ret; auto.
      cbn. split; auto. split; auto. exists []; auto.
    - apply wpr_ret; auto. cbn. split; auto. split; auto. apply (R_suffix o); auto. }
  intros [[z c1] nz] s1 G1 (A1 & p & Hnz). cbn [fst snd] in A1, Hnz. apply T_mark; auto. cbn beta.
  eapply (T_call _ _ _ _ _ (fun r s' => at_ (snd (fst r)) s' /\ R o s1 s' /\ snd r = cur s')).
  { destruct (isDigit (wc c1)) eqn:E1.
    - eapply T_call; [apply handleDigits_ok; auto|]. cbn beta. intros [n d] s2 G2 (R2 & A2 & _). trun. apply wpr_ret; auto.
    - destruct A1 as [A1|?]; [|congruence]. apply wpr_ret; auto. cbn. split; auto. split; auto. split; auto. apply R_refl. }
  intros [[lead c2] lm] s2 G2 (A2 & R2 & Elm). cbn [fst snd] in A2, Elm |- *. subst lm. trun.
  - apply (T_first _ _ c2); auto; [lia|]. trun. apply number_caret_ok; auto.
    destruct (R_suffix _ _ _ R2) as [q Eq]. exists (p ++ q). rewrite <- app_assoc, <- Eq. auto.
  - eapply (number_fraction_ok _ _ _ _ _ _ s2); auto.
  - apply number_tail_ok; auto.
Qed.

Lemma handleDot_ok : safe_at 46 (handleDot o).
Proof.
  intros c pol s HG Hp Hc. unfold handleDot. trun. apply handleNumber_ok; auto. right. split; [apply Z.eqb_eq; auto|]. eauto.
Qed.

(** ** Comments *)
Definition src_fuel (c : Z) (s : st) (fuel : nat) : Prop :=
  (c = EndOfFile -> rest (cur s) = []) /\ ((c = EndOfFile /\ (0 < fuel)%nat) \/ (S (length (rest (cur s))) < fuel)%nat).

Lemma src_eof : forall c s s', c = dchar (decode (rest (cur s))) -> rest (cur s') = drest (decode (rest (cur s))) -> c = EndOfFile -> rest (cur s') = [].
Proof. intros c s s' -> -> E. apply decode_eof in E. rewrite E. reflexivity. Qed.

Lemma src_fuel_step : forall c c1 s s1 k, src_fuel c s (S k) -> c <> EndOfFile ->
  c1 = dchar (decode (rest (cur s))) -> rest (cur s1) = drest (decode (rest (cur s))) -> src_fuel c1 s1 k.
Proof.
  intros c c1 s s1 k H N Ec E. destruct H as [_ [[? _]|H]]; [contradiction|]. split; [apply (src_eof _ s); auto|]. subst c1. rewrite E.
  destruct (rest (cur s)) as [|b t] eqn:Er; [left; cbn; split; auto; cbn in H; lia|].
  right. pose proof (decode_shorter (b :: t)). cbn [length] in *. assert (b :: t <> []) by discriminate. specialize (H0 H1). lia.
Qed.

Lemma comment_loop_ok : forall pol fuel depth c s, G s -> src_fuel c s fuel ->
  tp (comment_loop o fuel start pol depth c) s tok_ok.
Proof.
  intros pol fuel. induction fuel as [|k IH]; intros depth c s HG HF; [destruct HF as [_ [?|?]]; lia|]. cbn [comment_loop].
  assert (D : forall c1 s1 c2 s2, src_fuel c1 s1 k -> c2 = dchar (decode (rest (cur s1))) -> rest (cur s2) = drest (decode (rest (cur s1))) ->
     c1 <> EndOfFile -> src_fuel c2 s2 k).
  { intros c1 s1 c2 s2 H1 Ec Er N. pose proof (src_fuel_step c1 c2 s1 s2 (pred k)) as H. destruct k; [destruct H1 as [_ [?|?]]; lia|].
    specialize (H H1 N Ec Er). destruct H as [Hn Hd]. split; [exact Hn|]. cbn [pred] in Hd. destruct Hd as [[? ?]|?]; [left; split; auto; lia|right; lia]. }
  trun; try (apply HF; apply Z.eqb_eq; auto; fail); apply IH; auto.
  all: try (eapply src_fuel_step; eauto; intros ->; discriminate).
  all: try (eapply D; [eapply src_fuel_step; eauto; intros ->; discriminate|eauto|eauto|]; intros ->; discriminate).
  all: match goal with E : cur ?a = cur ?b |- _ => rewrite E in * end.
  all: eapply src_fuel_step; eauto; intros ->; discriminate.
Qed.

Lemma T_fuel_tail : forall A (f : nat -> M A) s Q, tp (f (S (length (rest (cur s))))) s Q -> tp (with_fuel f) s Q.
Proof. intros. exact H. Qed.

Lemma handleComment_ok : forall c pol s, G s -> c =? 42 = true -> tp (handleComment o start c pol) s tok_ok.
Proof.
  intros c pol s HG Hc. unfold handleComment. cbv zeta. trun. apply T_fuel_tail. apply comment_loop_ok; auto. split; [|right; lia].
  eapply src_eof; eauto.
Qed.

Lemma handleOpenParen_ok : safe_at 40 (handleOpenParen o).
Proof.
  intros c pol s HG Hp Hc. unfold handleOpenParen. trun. apply andb_true_iff in Eb as [_ Eb]. apply handleComment_ok; auto.
Qed.

(** ** Linear syntax blobs *)
Definition wl_fuel (c : wlchar) (s : st) (fuel : nat) : Prop :=
  (wc c = EndOfFile -> rest (cur s) = []) /\ ((wc c = EndOfFile /\ (0 < fuel)%nat) \/ (S (length (rest (cur s))) < fuel)%nat).

Lemma wl_eof : forall s c r, twl (rest (cur s)) = Some (c, r) -> wc c = EndOfFile -> r = [].
Proof. intros s c r H E. destruct (twf_eof _ _ _ _ H) as [[_ ?]|[N _]]; [auto|contradiction]. Qed.

Lemma wl_fuel_step : forall c c1 s s1 k, wl_fuel c s (S k) -> wc c <> EndOfFile ->
  twl (rest (cur s)) = Some (c1, rest (cur s1)) -> wl_fuel c1 s1 k.
Proof.
  intros c c1 s s1 k H N T. destruct H as [_ [[? _]|H]]; [contradiction|]. split; [apply (wl_eof _ _ _ T)|].
  destruct (next_nil _ _ _ T) as [L|[E L]]; [right; lia|left; split; auto; lia].
Qed.

Lemma blob_loop_ok : forall pol fuel depth c s, G s -> p_scan pol = false -> wl_fuel c s fuel ->
  tp (blob_loop o fuel start pol depth c) s tok_ok.
Proof.
  intros pol fuel. induction fuel as [|k IH]; intros depth c s HG Hp HF; [destruct HF as [_ [?|?]]; lia|]. cbn [blob_loop].
  trun; try (apply HF; apply Z.eqb_eq; auto; fail); apply IH; auto; eapply wl_fuel_step; eauto.
  - intros E. rewrite E in Eb. discriminate.
  - intros E. rewrite E in Eb0. discriminate.
  - intros E. rewrite E in Eb1. discriminate.
Qed.

Lemma handleMBLinearSyntaxBlob_ok : forall c pol s, G s -> p_scan pol = false -> wc c =? LS_OPENPAREN = true ->
  tp (handleMBLinearSyntaxBlob o start c pol) s tok_ok.
Proof.
  intros c pol s HG Hp Hc. unfold handleMBLinearSyntaxBlob. trun. apply T_fuel_tail. apply blob_loop_ok; auto. split; [|right; lia]. eapply wl_eof; eauto.
Qed.

(** ** Symbols *)
Lemma isStrangeLetterlike_char : forall c, isStrangeLetterlike c = true -> is_char c = true.
Proof.
  intros c H. unfold isStrangeLetterlike, isControl, is_ascii in H. apply andb_true_iff in H as [_ H]. apply andb_true_iff in H as [H _].
  apply between_iff in H. unfold is_char. apply Z.leb_le. lia.
Qed.

Lemma segment_issues_quiet : forall c l pol ok s, G s -> loc_ok l s -> (is_char (wc c) = true -> fmt_ok c) -> is_char (wc c) = true ->
  quiet (segment_issues o c l pol ok) s.
Proof.
  intros c l pol ok s HG Hl Hf Hc. unfold segment_issues. repeat qstep; apply quiet_unexpected; auto.
Qed.

Lemma segment_loop_ok : forall pol fuel l c s, G s -> p_scan pol = false -> at_ c s -> loc_ok l s ->
  (length (rest (cur s)) < fuel)%nat ->
  tp (segment_loop o fuel start pol l c) s (fun c' s' => G s' /\ R o s s' /\
    ((at_ c' s' /\ wc c' =? 96 = false) \/ (wc c' =? 96 = true /\ (length (rest (cur s')) < length (rest (cur s)))%nat))).
Proof.
  intros pol fuel. induction fuel as [|k IH]; intros l c s HG Hp HA Hl Hf; [lia|]. cbn [segment_loop].
  destruct (isDigit (wc c)) eqn:Ed.
  { trun. eapply wpr_conseq; [apply IH; auto|].
    - match goal with E : cur ?a = cur ?b |- _ => rewrite <- E end. apply loc_ok_self.
    - shorter (digit_neq_eof _ Ed). lia.
    - cbn beta. intros c' s2 _ _ (kG2 & kR2 & kH2). split; auto. split; [rchain|]. destruct kH2 as [?|[? L]]; [left; auto|right; split; auto].
      assert (length (rest (cur s'0)) <= length (rest (cur s)))%nat by (apply (R_length o); rchain). lia. }
  destruct (letterlike (wc c)) eqn:El.
  { assert (Nc : wc c <> EndOfFile) by (apply letterlike_facts; auto). trun. apply T_quiet.
    { apply segment_issues_quiet; auto; [solve_loc| |].
      - eapply at_fmt; eauto.
      - eapply strange_char; eauto. }
    intros s2 E2 kG2 kR2. trun. eapply wpr_conseq; [apply IH; auto|].
    - match goal with E : cur ?a = cur ?b |- loc_ok _ ?a => rewrite <- E end. apply loc_ok_self.
    - shorter Nc. lia.
    - cbn beta. intros c' s3 _ _ (kG3 & kR3 & kH3). split; auto. split; [rchain|]. destruct kH3 as [?|[? L]]; [left; auto|right; split; auto].
      assert (length (rest (cur s'0)) <= length (rest (cur s)))%nat by (apply (R_length o); rchain). lia. }
  destruct (wc c =? 96) eqn:E96.
  - trun. apply wpr_ret; auto. split; auto. split; auto. right. split; auto.
    eapply at_shorter; eauto. intros E. rewrite E in E96. discriminate.
  - apply wpr_ret; auto. split; auto. split; [apply R_refl|]. left. auto.
Qed.

Lemma handleSymbolSegment_ok : forall pol l c s, G s -> p_scan pol = false -> loc_ok l s -> letterlike (wc c) = true ->
  (is_char (wc c) = true /\ fmt_ok c) ->
  tp (handleSymbolSegment o start l c pol) s (fun c' s' => G s' /\ R o s s' /\
    ((at_ c' s' /\ wc c' =? 96 = false) \/ (wc c' =? 96 = true /\ (length (rest (cur s')) < length (rest (cur s)))%nat))).
Proof.
  intros pol l c s HG Hp Hl HL [Hc Hf]. unfold handleSymbolSegment. apply T_assert; auto. apply T_quiet.
  { apply segment_issues_quiet; auto. }
  intros s1 E1 kG1 kR1. trun. apply T_fuel_tail. eapply wpr_conseq; [apply segment_loop_ok; auto|].
  - match goal with E : cur ?a = cur ?b |- loc_ok _ ?a => rewrite <- E end. apply loc_ok_self.
  - cbn beta. intros c' s3 _ _ (kG3 & kR3 & kH3). split; auto. split; [rchain|]. destruct kH3 as [?|[? L]]; [left; auto|right; split; auto].
    assert (length (rest (cur s')) <= length (rest (cur s)))%nat by (apply (R_length o); rchain). lia.
Qed.

(** what is known of a character [c] that was just consumed *)
Definition read_char (c : wlchar) : Prop := exists bs r, twl bs = Some (c, r).
Lemma read_letterlike : forall c, read_char c -> letterlike (wc c) = true -> is_char (wc c) = true /\ fmt_ok c.
Proof.
  intros c (bs & r & H) L.
  assert (Hc : is_char (wc c) = true).
  { apply (strange_char c (mkst (mkpos bs false (CharIdx 0)) logs0)); auto. exists r. exact H. }
  split; auto. eapply twl_fmt; eauto.
Qed.
Lemma at_read : forall c s, at_ c s -> read_char c.
Proof. intros c s [r H]. exists (rest (cur s)), r. auto. Qed.

(** in [symbol_loop]: either the loop ends, or a backquote was consumed *)
Lemma symbol_loop_ok : forall pol fuel c s, G s -> p_scan pol = false ->
  (wc c =? 96 = true -> (length (rest (cur s)) < fuel)%nat) -> (0 < fuel)%nat ->
  tp (symbol_loop o fuel start pol c) s tok_ok.
Proof.
  intros pol fuel. induction fuel as [|k IH]; intros c s HG Hp Hf Hf0; [lia|]. cbn [symbol_loop].
  destruct (wc c =? 96) eqn:E96; cbn [negb].
  2:{ destruct (has_slot pol); trun. }
  specialize (Hf eq_refl). trun.
  assert (Nc : wc c0 <> EndOfFile) by (apply letterlike_facts; auto).
  eapply T_call.
  { apply handleSymbolSegment_ok; auto; [solve_loc|]. apply read_letterlike; auto. eapply at_read; eauto. }
  cbn beta. intros c2 s2 kG2 (kR2 & kH2).
  match goal with A : at_ ?c ?s, T : twl (rest (cur ?s)) = Some (?c', _) |- _ => pose proof (at_shorter _ _ _ _ A T Nc) as Hsh end.
  assert (length (rest (cur s'0)) <= length (rest (cur s)))%nat by (apply (R_length o); rchain).
  assert (length (rest (cur s2)) <= length (rest (cur s'1)))%nat by (apply (R_length o); rchain).
  apply IH; auto; lia.
Qed.

Lemma handleSymbol_ok : forall c pol s, G s -> p_scan pol = false -> read_char c -> (wc c =? 96) || letterlike (wc c) = true ->
  tp (handleSymbol o start c pol) s tok_ok.
Proof.
  intros c pol s HG Hp HA Hc. unfold handleSymbol. apply T_assert; auto.
  eapply (T_call _ _ _ _ _ (fun _ _ => True)).
  { destruct (letterlike (wc c)) eqn:El.
    - eapply wpr_conseq; [apply handleSymbolSegment_ok; auto; apply read_letterlike; auto|]. cbn beta. tauto.
    - apply wpr_ret; auto. }
  intros c1 s1 kG1 _. apply T_fuel_tail. apply symbol_loop_ok; auto. lia.
Qed.

(** ** Strings *)
Lemma string_loop_ok : forall pol fuel s, G s -> p_scan pol = false -> (length (rest (cur s)) < fuel)%nat ->
  tp (string_loop o fuel start pol) s tok_ok.
Proof.
  intros pol fuel. induction fuel as [|k IH]; intros s HG Hp Hf; [lia|]. cbn [string_loop]. trun; [eapply wl_eof; eauto; apply Z.eqb_eq; auto|].
  apply IH; auto. apply Z.eqb_neq in Eb0.
  match goal with T : twl (rest (cur s)) = Some (?c', _) |- _ => pose proof (next_shorter _ _ _ T Eb0) end.
  match goal with E : cur ?a = cur ?b |- context [cur ?a] => rewrite E end. lia.
Qed.

Lemma handleString_ok : forall c pol s, G s -> p_scan pol = false -> wc c =? 34 = true ->
  tp (handleString o start c pol) s tok_ok.
Proof.
  intros c pol s HG Hp Hc. unfold handleString. trun. apply T_fuel_tail. apply string_loop_ok; auto.
Qed.

(** A token that stands for something missing: empty, at the start. *)
Definition missing (k : Z) (t : token) : Prop :=
  t = mktok k (rest (cur s0)) [] (mkspan (ploc start) (ploc start)).

Lemma missing_tag : new2_check TK_Error_ExpectedTag [] (mkspan (ploc start) (ploc start)) = true.
Proof. vm_compute. reflexivity. Qed.
Lemma missing_file : new2_check TK_Error_ExpectedFile [] (mkspan (ploc start) (ploc start)) = true.
Proof. vm_compute. reflexivity. Qed.

Lemma T_weaken : forall (m : M token) s (P : token -> Prop), tp m s tok_ok -> tp m s (fun t s' => P t \/ tok_ok t s').
Proof. intros m s P H. eapply wpr_conseq; [exact H|]. cbn beta. auto. Qed.

Lemma handleString_stringifyAsTag_ok : forall c pol s, G s -> p_scan pol = false -> read_char c ->
  tp (handleString_stringifyAsTag o start c pol) s (fun t s' => missing TK_Error_ExpectedTag t \/ tok_ok t s').
Proof.
  intros c pol s HG Hp HA. unfold handleString_stringifyAsTag. destruct (letterlike (wc c)) eqn:El.
  - apply T_weaken. trun. eapply T_call; [apply handleSymbolSegment_ok; auto; apply read_letterlike; auto|]. cbn beta. intros c1 s1 kG1 _. trun.
  - unfold new2. apply T_assert; auto. apply wpr_ret; auto. left. reflexivity.
Qed.

(** ** File names *)
(** an unterminated file name ends at white space or at the end of the input *)
Definition file_ok (t : token) (s : st) : Prop :=
  tok_base t s /\ (isUnterminated (t_kind t) = true -> t_kind t = TK_Error_UnterminatedFileString \/ rest (cur s) = []).
Lemma T_file : forall m s, tp m s tok_ok -> tp m s file_ok.
Proof. intros m s H. eapply wpr_conseq; [exact H|]. cbn beta. intros t s' _ _ [A B]. split; auto. Qed.
Lemma T_file_open : forall s, G s -> tp (mk_token TK_Error_UnterminatedFileString start) s file_ok.
Proof.
  intros s HG. eapply wpr_conseq; [apply T_token_base; auto|]. cbn beta. intros t s' _ _ (-> & Ek & H). split; auto.
Qed.
Lemma T_weaken_file : forall (m : M token) s (P : token -> Prop), tp m s file_ok -> tp m s (fun t s' => P t \/ file_ok t s').
Proof. intros m s P H. eapply wpr_conseq; [exact H|]. cbn beta. auto. Qed.

Lemma psrc_shorter : forall c s s1, c = dchar (decode (rest (cur s))) -> rest (cur s1) = drest (decode (rest (cur s))) ->
  c <> EndOfFile -> (length (rest (cur s1)) < length (rest (cur s)))%nat.
Proof.
  intros c s s1 -> E N. rewrite E. apply decode_shorter. intros H. rewrite H in N. apply N. reflexivity.
Qed.

Lemma brackets_loop_ok : forall pol fuel depth c s, G s -> c = dchar (decode (rest (cur s))) -> (length (rest (cur s)) < fuel)%nat ->
  tp (brackets_loop o fuel pol depth c) s (fun r s' => G s' /\ R o s s' /\ match r with Some c' => c' = dchar (decode (rest (cur s'))) | None => True end).
Proof.
  intros pol fuel. induction fuel as [|k IH]; intros depth c s HG Hc Hf; [lia|]. cbn [brackets_loop].
  destruct (zin c _) eqn:Ez; [apply wpr_ret; auto; split; auto; split; auto; apply R_refl|].
  destruct (c =? EndOfFile) eqn:Ee; [apply wpr_ret; auto; split; auto; split; auto; apply R_refl|]. apply Z.eqb_neq in Ee.
  assert (K : forall (f : Z -> M (option Z)), (forall c1 s1, G s1 -> R o s s1 -> c1 = dchar (decode (rest (cur s1))) -> (length (rest (cur s1)) < k)%nat ->
      tp (f c1) s1 (fun r s' => G s' /\ R o s1 s' /\ match r with Some c' => c' = dchar (decode (rest (cur s'))) | None => True end)) ->
      tp (next_source_char o pol ;; c1 <- peek_source_char o pol ;; f c1) s (fun r s' => G s' /\ R o s s' /\ match r with Some c' => c' = dchar (decode (rest (cur s'))) | None => True end)).
  { intros f Hf'. trun. eapply wpr_conseq; [apply Hf'; auto; try rchain|].
    - match goal with E : cur ?a = cur ?b |- context [cur ?a] => rewrite E end.
      assert (length (rest (cur s')) < length (rest (cur s)))%nat by (apply (psrc_shorter c); auto). lia.
    - cbn beta. intros r s2 _ _ (kG2 & kR2 & kH2). split; auto. split; auto. rchain. }
  destruct (c =? 91); [apply K; intros; apply IH; auto|].
  destruct (c =? 93).
  { apply K. intros c1 s1 kG1 kR1 E1 L1. destruct (depth - 1 =? 0); [apply wpr_ret; auto; split; auto; split; [apply R_refl|auto]|apply IH; auto]. }
  destruct (_ || _); [apply wpr_ret; auto; split; auto; split; auto; apply R_refl|].
  apply K; intros; apply IH; auto.
Qed.

Lemma handleFileOpsBrackets_ok : forall pol c s, G s -> c =? 91 = true ->
  tp (handleFileOpsBrackets o c pol) s (fun r s' => G s' /\ R o s s' /\ match r with Some c' => c' = dchar (decode (rest (cur s'))) | None => True end).
Proof.
  intros pol c s HG Hc. unfold handleFileOpsBrackets. trun. apply T_fuel_tail. eapply wpr_conseq; [apply brackets_loop_ok; auto|].
  cbn beta. intros r s2 _ _ (kG2 & kR2 & kH2). split; auto. split; auto. rchain.
Qed.

Lemma file_char_not_eof : forall c, file_char c = true -> c <> EndOfFile.
Proof. intros c H ->. discriminate. Qed.

Lemma file_loop_ok : forall pol fuel c s, G s -> c = dchar (decode (rest (cur s))) -> (length (rest (cur s)) < fuel)%nat ->
  tp (file_loop o fuel start pol c) s file_ok.
Proof.
  intros pol fuel. induction fuel as [|k IH]; intros c s HG Hc Hf; [lia|]. cbn [file_loop].
  destruct (file_char c) eqn:Ef.
  { trun. apply IH; auto. match goal with E : cur ?a = cur ?b |- context [cur ?a] => rewrite E end.
    assert (length (rest (cur s')) < length (rest (cur s)))%nat by (apply (psrc_shorter c); auto; apply file_char_not_eof; auto). lia. }
  destruct (c =? 91) eqn:E91; [|apply T_file; trun].
  trun. eapply T_call; [apply handleFileOpsBrackets_ok; auto|]. cbn beta. intros [c1|] s1 kG1 (kR1 & kH1); [|apply T_file_open; auto].
  apply IH; auto.
  assert (length (rest (cur s')) < length (rest (cur s)))%nat by (apply (psrc_shorter c); auto; apply (eqb_neq_eof c 91); auto; discriminate).
  assert (length (rest (cur s1)) <= length (rest (cur s')))%nat by (apply (R_length o); rchain). lia.
Qed.

Lemma handleString_stringifyAsFile_ok : forall pol c s, G s ->
  tp (handleString_stringifyAsFile o start c pol) s (fun t s' => missing TK_Error_ExpectedFile t \/ file_ok t s').
Proof.
  intros pol c s HG. unfold handleString_stringifyAsFile. trun.
  - apply T_weaken_file. apply T_fuel_tail. apply file_loop_ok; auto.
  - apply T_weaken_file. eapply T_call; [apply handleFileOpsBrackets_ok; auto|]. cbn beta. intros [c1|] s1 kG1 (kR1 & kH1); [|apply T_file_open; auto].
    apply T_fuel_tail. apply file_loop_ok; auto.
  - unfold error_token_at, new2. apply T_assert; auto. apply T_assert; auto. apply wpr_ret; auto. left. reflexivity.
Qed.

(** ** The rest *)
Lemma percent_loop_ok : forall pol fuel c s, G s -> p_scan pol = false -> at_ c s -> (length (rest (cur s)) < fuel)%nat ->
  tp (percent_loop o fuel start pol c) s (fun _ s' => G s' /\ True).
Proof.
  intros pol fuel. induction fuel as [|k IH]; intros c s HG Hp HA Hf; [lia|]. cbn [percent_loop].
  destruct (wc c =? 37) eqn:E; cbn [negb]; [|apply wpr_ret; auto].
  trun. apply IH; auto. shorter (eqb_neq_eof _ 37 E ltac:(discriminate)). lia.
Qed.

Lemma handlePercent_ok : safe_at 37 (handlePercent o).
Proof.
  intros c pol s HG Hp Hc. unfold handlePercent. trun. apply T_fuel. eapply T_call; [apply percent_loop_ok; auto|]. cbn beta. intros. trun.
Qed.

Lemma badname_loop_ok : forall pol fuel c s sr, G s -> p_scan pol = false -> G sr -> R o sr s ->
  (isAlphaOrDigit (wc c) = true -> (S (length (rest (cur s))) < fuel)%nat) -> (0 < fuel)%nat ->
  tp (badname_loop o fuel start pol (cur sr) c) s (fun _ s' => G s' /\ True).
Proof.
  intros pol fuel. induction fuel as [|k IH]; intros c s sr HG Hp HGr HR Hf H0; [lia|]. cbn [badname_loop].
  destruct (isAlphaOrDigit (wc c)) eqn:Ea.
  - specialize (Hf eq_refl). trun. apply IH; auto; [|lia]. intros Ha.
    match goal with T : twl _ = Some _ |- _ => pose proof (next_shorter _ _ _ T (alnum_neq_eof _ Ha)) end. lia.
  - destruct (wc c =? 93); [apply wpr_ret; auto|]. eapply wpr_seek; auto.
    intros B I. split; auto. split; auto. split; auto. cbn. apply HGr.
Qed.

Lemma baddigits_loop_ok : forall pol p n c s sr, G s -> p_scan pol = false -> G sr -> R o sr s ->
  tp (baddigits_loop o n start pol p (cur sr) c) s (fun _ s' => G s' /\ True).
Proof.
  intros pol p n. induction n as [|n IH]; intros c s sr HG Hp HGr HR; cbn [baddigits_loop]; [apply wpr_ret; auto|].
  destruct (p (wc c)).
  - trun. apply IH; auto.
  - eapply wpr_seek; auto. intros B I. split; auto. split; auto. split; auto. cbn. apply HGr.
Qed.

Lemma handleUnhandledBackslash_ok : safe_at 92 (handleUnhandledBackslash o).
Proof.
  intros c pol s HG Hp Hc. unfold handleUnhandledBackslash. apply T_assert; auto. apply T_next; auto. intros c1 s1 kG1 kR1 T1. cbv zeta.
  eapply (T_call _ _ _ _ _ (fun _ _ => True)).
  - trun; first [ apply baddigits_loop_ok; auto; fail
                | apply T_fuel_tail; apply badname_loop_ok; auto; lia
                | apply wpr_ret; auto ].
  - intros _ s2 kG2 _. trun.
Qed.

Lemma handleStrangeWhitespace_ok : forall c pol s, G s -> read_char c -> isStrangeWhitespace (wc c) = true ->
  tp (handleStrangeWhitespace o start c pol) s tok_ok.
Proof.
  intros c pol s HG (bs & r & HA) Hc. unfold handleStrangeWhitespace. trun.
  apply quiet_unexpected; auto; try tauto. eapply twl_fmt; eauto.
  unfold isStrangeWhitespace in Hc. apply zin_In in Hc. unfold is_char. apply Z.leb_le. cbn in Hc. lia.
Qed.

Lemma MB_NEWLINE_chars : forallb (fun c => is_char c || (c =? CRLF)) GenLongNames.MB_NEWLINE = true.
Proof. vm_compute. reflexivity. Qed.

Lemma strange_newline_char : forall c, isMBStrangeNewline c = true -> is_char c = true.
Proof.
  intros c H. unfold isMBStrangeNewline, isMBNewline, ln_isMBNewline in H. apply andb_true_iff in H as [H N].
  apply table_mem_In in H; [|apply MB_tables_sorted]. pose proof (proj1 (forallb_forall _ _) MB_NEWLINE_chars _ H) as F. cbn beta in F.
  apply orb_true_iff in F as [F|F]; auto. rewrite F in N. discriminate.
Qed.

Lemma ended_newline : forall pol, ended (newline_with_policy pol) = true.
Proof. intros pol. unfold newline_with_policy. destruct (p_toplevel pol); reflexivity. Qed.
Hint Resolve ended_newline : core.

Lemma handleMBStrangeNewline_ok : forall c pol s, G s -> read_char c -> isMBStrangeNewline (wc c) = true ->
  tp (handleMBStrangeNewline o start c pol) s tok_ok.
Proof.
  intros c pol s HG (bs & r & HA) Hc. unfold handleMBStrangeNewline. trun.
  apply quiet_unexpected; auto; try tauto. eapply twl_fmt; eauto. apply strange_newline_char; auto.
Qed.

Lemma strange_whitespace_char : forall c, isMBStrangeWhitespace c = true -> is_char c = true.
Proof.
  intros c H. unfold isMBStrangeWhitespace, isMBWhitespace, ln_isMBWhitespace in H. apply orb_true_iff in H as [H|H].
  - apply Z.eqb_eq in H. subst. reflexivity.
  - apply andb_true_iff in H. tauto.
Qed.

Lemma handleMBStrangeWhitespace_ok : forall c pol s, G s -> read_char c -> isMBStrangeWhitespace (wc c) = true ->
  tp (handleMBStrangeWhitespace o start c pol) s tok_ok.
Proof.
  intros c pol s HG (bs & r & HA) Hc. unfold handleMBStrangeWhitespace. trun.
  apply quiet_unexpected; auto; try tauto. eapply twl_fmt; eauto. apply strange_whitespace_char; auto.
Qed.

Lemma punctuation_operators : forallb (fun c => match LongNameCodePointToOperator c with Ok k => ended k | _ => false end)
  GenLongNames.MB_PUNCTUATION = true.
Proof. vm_compute. reflexivity. Qed.

Lemma handleMBPunctuation_ok : forall c pol s, G s -> isMBPunctuation (wc c) = true ->
  tp (handleMBPunctuation start c pol) s tok_ok.
Proof.
  intros c pol s HG Hc. unfold handleMBPunctuation. apply T_assert; auto.
  unfold isMBPunctuation, ln_isMBPunctuation in Hc. apply andb_true_iff in Hc as [kH1 kH2].
  apply table_mem_In in kH2; [|apply MB_tables_sorted]. pose proof (proj1 (forallb_forall _ _) punctuation_operators _ kH2) as F. cbn beta in F.
  apply T_assert; auto. destruct (LongNameCodePointToOperator (wc c)) as [k| |]; try discriminate.
  apply wpr_bind. eapply wpr_lift_ok; auto. trun.
Qed.

Definition naked_ok (c : Z) : bool :=
  match naked_linear_syntax_kind c with Ok k => ended k | _ => false end.

Lemma handleNakedMBLinearSyntax_ok : forall c pol s, G s -> isMBLinearSyntax (wc c) = true ->
  wc c =? LS_BANG = false -> wc c =? LS_OPENPAREN = false ->
  tp (handleNakedMBLinearSyntax start c pol) s tok_ok.
Proof.
  intros c pol s HG Hc N1 N2. unfold handleNakedMBLinearSyntax. apply T_assert; auto.
  assert (F : naked_ok (wc c) = true).
  { unfold isMBLinearSyntax in Hc. apply zin_In in Hc. cbn in Hc.
    repeat (destruct Hc as [Hc|Hc]; [rewrite <- Hc in *; first [discriminate | reflexivity]|]). contradiction. }
  unfold naked_ok in F. destruct (naked_linear_syntax_kind (wc c)) as [k| |]; try discriminate.
  apply wpr_bind. eapply wpr_lift_ok; auto. trun.
Qed.

(** ** Dispatch on the first character *)

(** the token at the end of the input *)
Definition eof_tok (t : token) (s : st) : Prop :=
  t = mktok TK_EndOfFile (rest (cur s0)) (rest (cur s0)) (mkspan (ploc start) (ploc (cur s))) /\ rest (cur s) = [] /\
  (rest (cur s0) = [] \/ exists b t', rest (cur s0) = 92 :: b :: t' /\ (b = 10 \/ b = 13)).

Lemma buf_between_nil : forall bs, buf_between bs [] = bs.
Proof. intros bs. unfold buf_between. cbn [length]. rewrite Nat.sub_0_r. apply firstn_all. Qed.

Lemma T_eof : forall c s, Inv o s -> R o s0 s -> twl (rest (cur s0)) = Some (c, rest (cur s)) -> wc c = EndOfFile ->
  tp (mk_token TK_EndOfFile start) s eof_tok.
Proof.
  intros c s HI HR HT HE. destruct (twl_eof_text _ _ _ HT HE) as [Er Et].
  unfold mk_token. apply wpr_bind, wpr_get_rest; auto. apply wpr_bind, wpr_get_loc; auto.
  apply wpr_bind, wpr_assert; auto; [rewrite Er; apply Nat.leb_le; cbn; lia|].
  apply wpr_bind. eapply (wpr_lift_ok _ _ _ _ _ (mkspan (ploc start) (ploc (cur s)))); auto.
  - unfold Span_new. rewrite (R_leb o s0 s); auto.
  - rewrite Er, buf_between_nil. unfold new2. apply wpr_bind, wpr_assert; auto.
    + unfold new2_check. destruct Et as [-> |(b & t' & -> & [-> | ->])]; reflexivity.
    + apply wpr_ret; auto. split; auto.
Qed.

Lemma ascii_range : forall p, between 0 p 127 = true -> In p (map Z.of_nat (seq 0 128)).
Proof.
  intros p H. unfold between in H. apply andb_true_iff in H as [H1 H2]. apply Z.leb_le in H1, H2.
  apply in_map_iff. exists (Z.to_nat p). split; [lia|]. apply in_seq. lia.
Qed.

(** the characters that reach the second table *)
Definition uncommon (p : Z) : bool :=
  negb (between 0 p 127) ||
  negb (zin p [10; 32; 34; 36; 44; 45; 91; 93; 123; 125] || between 65 p 90 || between 97 p 122 || between 48 p 57).

Lemma letterlike_symbols :
  forallb (fun p => implb ((p =? 96) || between 97 p 122 || between 0 p 6 || (p =? 8) || between 14 p 31)
                     ((p =? 96) || letterlike p)) (map Z.of_nat (seq 0 128)) = true.
Proof. vm_compute. reflexivity. Qed.
Lemma letterlike_symbols2 :
  forallb (fun p => implb ((p =? 36) || between 65 p 90 || between 97 p 122)
                     ((p =? 96) || letterlike p)) (map Z.of_nat (seq 0 128)) = true.
Proof. vm_compute. reflexivity. Qed.

Lemma nextToken_uncommon_ok : forall c pol s, G s -> p_scan pol = false -> twl (rest (cur s0)) = Some (c, rest (cur s)) ->
  wc c <> EndOfFile -> uncommon (wc c) = true ->
  tp (nextToken_uncommon o start c pol) s tok_ok.
Proof.
  intros c pol s HG Hp HT HE HU.
  assert (HR : read_char c) by (exists (rest (cur s0)), (rest (cur s)); auto).
  unfold nextToken_uncommon. cbv zeta.
  destruct (wc c =? EndOfFile) eqn:Z0; [apply Z.eqb_eq in Z0; contradiction|].
  destruct (zin (wc c) [Unsafe1Byte; Unsafe2Byte; Unsafe3Byte]) eqn:Z1; [trun|].
  destruct ((wc c =? 96) || _ || _ || _ || _) eqn:Z2.
  { apply handleSymbol_ok; auto.
    assert (B : between 0 (wc c) 127 = true).
    { unfold between in *. repeat rewrite ?orb_true_iff, ?andb_true_iff, ?Z.eqb_eq, ?Z.leb_le in Z2. apply andb_true_iff; rewrite !Z.leb_le. lia. }
    pose proof (proj1 (forallb_forall _ _) letterlike_symbols _ (ascii_range _ B)) as F. cbn beta in F. rewrite Z2 in F. exact F. }
  repeat (match goal with
    | |- wpr _ _ _ (if wc c =? ?k then _ else _) _ _ => let E := fresh "Zb" in destruct (wc c =? k) eqn:E
    | |- wpr _ _ _ (if zin (wc c) ?k then _ else _) _ _ => let E := fresh "Zz" in destruct (zin (wc c) k) eqn:E
    end; [first
    [ apply T_token; [assumption|first [reflexivity | apply ended_newline]]
    | apply handleOpenParen_ok; assumption | apply handlePlus_ok; assumption | apply handleCaret_ok; assumption
    | apply handleEqual_ok; assumption | apply handleColon_ok; assumption | apply handleBang_ok; assumption
    | apply handlePercent_ok; assumption | apply handleStar_ok; assumption | apply handleDot_ok; assumption
    | apply handleSlash_ok; assumption | apply handleLess_ok; assumption | apply handleGreater_ok; assumption
    | apply handleAt_ok; assumption | apply handleUnhandledBackslash_ok; assumption | apply handleUnder_ok; assumption
    | apply handleBar_ok; assumption | apply handleMBLinearSyntaxBlob_ok; assumption
    | apply handleStrangeWhitespace_ok; assumption
    | unfold handleSemi, handleHash, handleAmp, handleTilde, handleQuestion;
      apply handle_double_ok; first [assumption | reflexivity] ] |]).
  destruct (isMBLinearSyntax (wc c)) eqn:M1; [apply handleNakedMBLinearSyntax_ok; assumption|].
  destruct (isMBUninterpretable (wc c)) eqn:M2; [apply T_token; auto|].
  destruct (isMBStrangeWhitespace (wc c)) eqn:M3; [apply handleMBStrangeWhitespace_ok; assumption|].
  destruct (isMBWhitespace (wc c)) eqn:M4; [apply T_token; auto|].
  destruct (isMBStrangeNewline (wc c)) eqn:M5; [apply handleMBStrangeNewline_ok; assumption|].
  destruct (isMBNewline (wc c)) eqn:M6; [apply T_token; auto|].
  destruct (isMBPunctuation (wc c)) eqn:M7; [apply handleMBPunctuation_ok; assumption|].
  destruct (isMBStringMeta (wc c)) eqn:M8; [apply T_token; auto|].
  assert (L : isMBLetterlike (wc c) = true).
  2:{ apply T_assert; auto. apply handleSymbol_ok; auto. unfold letterlike. rewrite L, !orb_true_r. reflexivity. }
  destruct (twf_read _ _ _ _ HT) as [NL [bs W]]. apply wld_point in W.
  revert HU HE NL W M1 M2 M3 M4 M5 M6 M7 M8. repeat match goal with H : _ =? _ = false |- _ => revert H | H : zin _ _ = false |- _ => revert H end.
  revert Z2. generalize (wc c). clear. intros p. intros.
  assert (NA : between 0 p 127 = false).
  { destruct (between 0 p 127) eqn:B; auto. exfalso. apply ascii_range in B. cbn [map seq] in B.
    repeat (destruct B as [<-|B]; [clear M1 M2 M3 M4 M5 M6 M7 M8 W NL HE; repeat match goal with H : ?x = ?y |- _ => let v := eval vm_compute in x in (first [constr_eq v y; clear H | change (v = y) in H; discriminate H]) end|]).
    contradiction. }
  apply point_ok_cases in W as [W|W].
  - unfold isMBLetterlike, is_ascii. rewrite NA, M7, M1, M8, M4, M6, M2. 
    assert (K : forall q, q < 0 -> p =? q = false) by (intros q Hq; apply Z.eqb_neq; clear - W Hq; unfold scalar in W; lia).
    unfold isMBLineContinuation, isMBUnsafeUTF8Sequence, zin. cbn [existsb].
    rewrite !(K _) by (vm_compute; reflexivity). reflexivity.
  - exfalso. cbn [special_chars In] in W.
    repeat (destruct W as [<-|W]; [repeat match goal with H : ?x = ?y |- _ => let v := eval vm_compute in x in (first [constr_eq v y; clear H | change (v = y) in H; discriminate H]) end; try (apply HE; reflexivity) |]).
    contradiction.
Qed.

Lemma dispatch_ok : forall c pol s, G s -> p_scan pol = false -> twl (rest (cur s0)) = Some (c, rest (cur s)) ->
  wc c <> EndOfFile -> tp (dispatch o start c pol) s tok_ok.
Proof.
  intros c pol s HG Hp HT HE.
  assert (HR : read_char c) by (exists (rest (cur s0)), (rest (cur s)); auto).
  unfold dispatch. cbv zeta. destruct (between 0 (wc c) 127) eqn:B; cbn [negb].
  2:{ apply nextToken_uncommon_ok; auto. unfold uncommon. rewrite B. reflexivity. }
  destruct (wc c =? 10) eqn:E1; [apply T_token; auto|].
  destruct (wc c =? 32) eqn:E2; [apply T_token; auto|].
  destruct (wc c =? 34) eqn:E3; [apply handleString_ok; auto|].
  destruct ((wc c =? 36) || _ || _) eqn:E4.
  { apply handleSymbol_ok; auto. pose proof (proj1 (forallb_forall _ _) letterlike_symbols2 _ (ascii_range _ B)) as F. cbn beta in F. rewrite E4 in F. exact F. }
  destruct (wc c =? 44) eqn:E5; [apply T_token; auto|].
  destruct (wc c =? 45) eqn:E6; [apply handleMinus_ok; auto|].
  destruct (between 48 (wc c) 57) eqn:E7; [apply handleNumber_ok; auto; left; exact E7|].
  destruct (wc c =? 91) eqn:E8; [apply T_token; auto|].
  destruct (wc c =? 93) eqn:E9; [apply T_token; auto|].
  destruct (wc c =? 123) eqn:E10; [apply T_token; auto|].
  destruct (wc c =? 125) eqn:E11; [apply T_token; auto|].
  apply nextToken_uncommon_ok; auto. unfold uncommon, zin. rewrite B. cbn [existsb].
  apply orb_false_iff in E4 as [E4 E4c]. apply orb_false_iff in E4 as [E4a E4b].
  rewrite E1, E2, E3, E4a, E4b, E4c, E5, E6, E7, E8, E9, E10, E11. reflexivity.
Qed.

(** what a call of the tokenizer that consumes its token guarantees *)
Definition token_post (t : token) (s : st) : Prop := tok_ok t s \/ eof_tok t s.

Lemma nextToken_ok : forall pol, p_scan pol = false -> tp (nextToken o pol) s0 token_post.
Proof.
  intros pol Hp. unfold nextToken. apply wpr_bind, wpr_mark; auto; [apply R_refl|].
  apply wpr_bind. eapply wpr_call; [apply R_refl|apply nextWL_wp; auto; try apply R_refl|].
  - intros H. eapply (R_PE s0); eauto. apply R_refl.
  - cbn beta. intros c s1 I1 R1 _ T1. destruct (Z.eq_dec (wc c) EndOfFile) as [E|N].
    + unfold dispatch. rewrite E. cbv zeta. change (negb (between 0 EndOfFile 127)) with true. cbv iota.
      unfold nextToken_uncommon. rewrite E. change (EndOfFile =? EndOfFile) with true. cbv zeta iota.
      eapply wpr_conseq; [eapply T_eof; eauto|]. right; auto.
    + eapply wpr_conseq; [apply dispatch_ok; auto|left; auto]. split; auto. split; auto. eapply next_shorter; eauto.
Qed.

Lemma T_missing : forall k s, Inv o s -> R o s0 s -> isError k = true -> isEmpty k = true -> k =? TK_Unknown = false ->
  tp (error_token_at k start) s (fun t s' => missing k t \/ tok_ok t s').
Proof.
  intros k s HI HR He Hm Hu. unfold error_token_at, new2. apply wpr_bind, wpr_assert; auto.
  apply wpr_bind, wpr_assert; auto.
  { unfold new2_check. rewrite Hu. destruct (_ || _); auto. rewrite Hm. reflexivity. }
  apply wpr_ret; auto. left; reflexivity.
Qed.

Lemma T_file_or : forall (m : M token) s (P : token -> Prop), tp m s (fun t s' => P t \/ tok_ok t s') -> tp m s (fun t s' => P t \/ file_ok t s').
Proof. intros m s P H. eapply wpr_conseq; [exact H|]. cbn beta. intros t s' _ _ [K|[A B]]; [auto|right; split; auto]. Qed.

Lemma nextToken_stringifyAsTag_ok : tp (nextToken_stringifyAsTag o) s0 (fun t s => missing TK_Error_ExpectedTag t \/ tok_ok t s).
Proof.
  unfold nextToken_stringifyAsTag. apply wpr_bind, wpr_mark; auto; [apply R_refl|].
  apply wpr_bind. eapply wpr_call; [apply R_refl|apply nextWL_wp; auto; try apply R_refl|].
  - intros H. eapply (R_PE s0); eauto. apply R_refl.
  - cbn beta. intros c s1 I1 R1 _ T1. destruct (Z.eqb_spec (wc c) EndOfFile) as [E|N]; [apply T_missing; auto|].
    assert (HG : G s1) by (split; auto; split; auto; eapply next_shorter; eauto).
    destruct (is_newline_char (wc c)); [apply T_missing; auto|].
    destruct (wc c =? 34) eqn:E34; [eapply wpr_conseq; [apply handleString_ok; auto|auto]|].
    apply handleString_stringifyAsTag_ok; auto. exists (rest (cur s0)), (rest (cur s1)). auto.
Qed.

Lemma nextToken_stringifyAsFile_ok : tp (nextToken_stringifyAsFile o) s0 (fun t s => missing TK_Error_ExpectedFile t \/ file_ok t s).
Proof.
  unfold nextToken_stringifyAsFile. apply wpr_bind, wpr_mark; auto; [apply R_refl|].
  apply wpr_bind. eapply wpr_call; [apply R_refl|apply wp_next_src; auto; try apply R_refl|].
  cbn beta. intros c s1 I1 R1 _ (Ec & Er & _). destruct (Z.eqb_spec c EndOfFile) as [E|N]; [apply T_file_or, T_missing; auto|].
  assert (HG : G s1).
  { split; auto. split; auto. apply (psrc_shorter c s0 s1); auto. }
  destruct (is_newline_char c); [apply T_file_or, T_weaken, T_token; auto|].
  destruct (_ || _); [apply T_file_or, T_weaken, T_token; auto|].
  destruct (c =? 34) eqn:E34; [apply T_file_or, T_weaken, handleString_ok; auto|].
  apply handleString_stringifyAsFile_ok; auto.
Qed.
End Tok.
