(** Operators in front of a plain character. *)
From Coq Require Import String ZArith List Bool Lia.
From Verif Require Import Base Source WLChar GenTokenKind TokenKind LongNames ByteDecoder CharDecoder Tokenizer SpecText SpecReader SpecTokenizer
  Decode Iter TextProofs Logic WlDecode TokLogic TokSpecs ReparseProofs Link Suggestions SuggestionsEscapes Spelling Spacing SpecSpacing SpellingReader SpellingSilent LexResults.
Import ListNotations.
Local Open Scope string_scope.
Local Open Scope list_scope.
Local Open Scope Z_scope.

Definition step (s : st) (r : list Z) : st := mkst (mkpos r (weof (cur s)) (loc_increment (ploc (cur s)))) (lg s).
Section Steps.
Context (o : opts).
Lemma next_plain : forall pol s b r, rest (cur s) = b :: r -> 32 <= b <= 126 -> next_source_char o pol s = Ok (b, step s r).
Proof.
  intros pol s b r E Hb. unfold next_source_char, bind, currentByte. rewrite E. assert (B : between 32 b 126 = true) by (apply between_iff; lia). rewrite B.
  unfold nextByte. rewrite E. reflexivity.
Qed.
Lemma nextWL_plain : forall start pol s b r, rest (cur s) = b :: r -> plain_char b -> nextWL o start pol s = Ok (wl b, step s r).
Proof.
  intros start pol s b r E [Hb N]. assert (W : next_wolfram_char o pol s = Ok (wl b, step s r)).
  { unfold next_wolfram_char, bind. rewrite (next_plain _ _ _ _ E Hb). destruct (Z.eqb_spec b 92); [contradiction|]. reflexivity. }
  unfold nextWL, bind. rewrite W. unfold with_fuel. cbn [lc_loop wl wc].
  assert (L : is_line_continuation b = false) by (unfold is_line_continuation; apply andb_false_iff; left; apply Z.leb_gt; unfold LineContinuation_LineFeed; lia).
  rewrite L. reflexivity.
Qed.
Lemma currentWL_plain : forall start pol s b r, rest (cur s) = b :: r -> plain_char b -> currentWL o start pol s = Ok (wl b, s).
Proof. intros start pol [cu l] b r E H. unfold currentWL, peek, bind, mark. rewrite (nextWL_plain _ _ _ _ _ E H). reflexivity. Qed.

Lemma mk_token_inv : forall k p s t s', mk_token k p s = Ok (t, s') -> s' = s /\ t_kind t = k /\ t_text t = buf_between (rest p) (rest (cur s)) /\ t_src t = mkspan (ploc p) (ploc (cur s)).
Proof.
  intros k p s t s' H. unfold mk_token in H. binv H r s1 E1. injection E1 as <- <-. binv H e s2 E2. injection E2 as <- <-. binv H u s3 E3.
  assert (s3 = s) by (unfold assert_ in E3; destruct (Nat.leb _ _); [injection E3; auto|discriminate]). subst s3. binv H sp s4 E4. unfold lift in E4. destruct (Span_new (ploc p) (ploc (cur s))) as [sp0| |] eqn:Es; try discriminate. injection E4 as <- <-.
  assert (sp0 = mkspan (ploc p) (ploc (cur s))) by (unfold Span_new in Es; repeat match type of Es with context [if ?c then _ else _] => destruct c | context [match ?c with _ => _ end] => destruct c end; try discriminate; congruence). subst sp0.
  unfold new2 in H. binv H v s5 E5. assert (s5 = s) by (unfold assert_ in E5; match type of E5 with context [if ?c then _ else _] => destruct c end; [injection E5; auto|discriminate]). subst s5. injection H as <- <-. auto.
Qed.

Lemma report_kept : forall t sv a b s u s', report t sv a b s = Ok (u, s') -> s' = mkst (cur s) (addIssue_log (mkissue t sv (mkspan a b)) (lg s)).
Proof. exact report_inv. Qed.
Definition recorded_ (w : option wissue) (g g' : logs) : Prop :=
  match w with Some w => exists i, kept w i /\ g' = addIssue_log i g | None => g' = g end.
Lemma buf_two : forall x y r, buf_between (x :: y :: r) r = [x; y].
Proof. intros x y r. exact (between_app [x; y] r). Qed.

Lemma operator_before : forall pol s t s' a k c r, In (a, k) OPERATORS -> (forall start s2, rest (cur s2) = r -> currentWL o start pol s2 = Ok (c, s2)) -> rest (cur s) = bytes_ a ++ r -> nextToken o pol s = Ok (t, s') ->
  t_kind t = k /\ t_text t = bytes_ a /\
  recorded_ (if o_check_issues o then spacing_issue a (wc c) (sp_start (t_src t)) (sp_end (t_src t)) else None) (lg s) (lg s').
Proof.
  intros pol s t s' a k c r Hin Hd R H. unfold nextToken in H. binv H p s0 E0. injection E0 as <- <-.
  assert (P43 : plain_char 43) by (unfold plain_char; lia). assert (P45 : plain_char 45) by (unfold plain_char; lia). assert (P124 : plain_char 124) by (unfold plain_char; lia).
  assert (P62 : plain_char 62) by (unfold plain_char; lia). assert (P95 : plain_char 95) by (unfold plain_char; lia). assert (P46 : plain_char 46) by (unfold plain_char; lia).
  assert (done : forall x y, rest (cur s) = x :: y :: r -> forall q g', mk_token q (cur s) (mkst (cur (step (step s (y :: r)) r)) g') = Ok (t, s') ->
    t_kind t = q /\ t_text t = [x; y] /\ lg s' = g' /\ t_src t = mkspan (ploc (cur s)) (ploc (cur (step (step s (y :: r)) r)))).
  { intros x y R' q g' X. apply mk_token_inv in X as (-> & X1 & X2 & X3). cbn [cur step rest] in X2. rewrite R', buf_two in X2. auto. }
  assert (quiet : forall x y, rest (cur s) = x :: y :: r -> forall q, mk_token q (cur s) (step (step s (y :: r)) r) = Ok (t, s') -> t_kind t = q /\ t_text t = [x; y] /\ lg s' = lg s).
  { intros x y R' q X. destruct (done x y R' q (lg s) X) as (X1 & X2 & X3 & _). auto. }
  assert (said : forall x y, rest (cur s) = x :: y :: r -> forall q tag sv b w, 
    match report tag sv b (ploc (cur (step (step s (y :: r)) r))) (step (step s (y :: r)) r) with Ok (_, s1) => mk_token q (cur s) s1 | Panic => Panic | OutOfFuel => OutOfFuel end = Ok (t, s') ->
    wi_tag w = tag -> wi_sev w = sv -> wi_src w = SSpan (mkspan b (ploc (cur (step (step s (y :: r)) r)))) -> t_kind t = q /\ t_text t = [x; y] /\ recorded_ (Some w) (lg s) (lg s') /\ t_src t = mkspan (ploc (cur s)) (ploc (cur (step (step s (y :: r)) r)))).
  { intros x y R' q tag sv b w X W1 W2 W3. destruct (report _ _ _ _ _) as [[u s1]| |] eqn:Er; try discriminate X. apply report_kept in Er. subst s1.
    destruct (done x y R' q _ X) as (X1 & X2 & X3 & X4). split; [exact X1|]. split; [exact X2|]. split; [|exact X4]. cbn [recorded_]. eexists. split; [|exact X3]. unfold kept. cbn [i_src i_tag i_sev]. auto. }
  destruct Hin as [E|[E|[E|[E|[]]]]]; injection E as <- <-.
  - change (bytes_ "++" ++ r) with (43 :: 43 :: r) in R. change (bytes_ "++") with [43; 43]. specialize (quiet 43 43 R). specialize (said 43 43 R). clear done.
    unfold bind in H. rewrite (nextWL_plain _ _ _ _ _ R P43) in H.
    replace (dispatch o (cur s) (wl 43) pol) with (handlePlus o (cur s) (wl 43) pol) in H by (unfold dispatch, nextToken_uncommon; cbv zeta; symmetry; repeat decide_if; reflexivity).
    unfold handlePlus, bind in H. cbn [assert_ wl wc Z.eqb Pos.eqb ret] in H. rewrite (currentWL_plain _ _ (step s (43 :: r)) 43 r eq_refl P43) in H. cbn [wl wc Z.eqb Pos.eqb] in H.
    rewrite (nextWL_plain _ _ (step s (43 :: r)) 43 r eq_refl P43) in H. set (s2 := step (step s (43 :: r)) r) in *.
    destruct (o_check_issues o); unfold when_, get_loc, ret in H; [|exact (quiet _ H)]. rewrite (Hd _ s2 eq_refl) in H. unfold spacing_issue. cbn [String.eqb Ascii.eqb Bool.eqb].
    destruct (Z.eqb_spec (wc c) 61) as [_|_]. { destruct (said _ _ _ _ (plus_issue (ploc (cur s2))) H eq_refl eq_refl eq_refl) as (X1 & X2 & X3 & X4). rewrite X4. cbn [sp_start sp_end]. auto. }
    exact (quiet _ H).
  - change (bytes_ "--" ++ r) with (45 :: 45 :: r) in R. change (bytes_ "--") with [45; 45]. specialize (quiet 45 45 R). specialize (said 45 45 R). clear done.
    unfold bind in H. rewrite (nextWL_plain _ _ _ _ _ R P45) in H.
    replace (dispatch o (cur s) (wl 45) pol) with (handleMinus o (cur s) (wl 45) pol) in H by (unfold dispatch, nextToken_uncommon; cbv zeta; symmetry; repeat decide_if; reflexivity).
    unfold handleMinus, bind in H. cbn [assert_ wl wc Z.eqb Pos.eqb ret] in H. rewrite (currentWL_plain _ _ (step s (45 :: r)) 45 r eq_refl P45) in H. cbn [wl wc Z.eqb Pos.eqb] in H.
    rewrite (nextWL_plain _ _ (step s (45 :: r)) 45 r eq_refl P45) in H. set (s2 := step (step s (45 :: r)) r) in *.
    destruct (o_check_issues o); unfold when_, get_loc, ret in H; [|exact (quiet _ H)]. rewrite (Hd _ s2 eq_refl) in H. unfold spacing_issue. cbn [String.eqb Ascii.eqb Bool.eqb].
    destruct (Z.eqb_spec (wc c) 62) as [_|_]. { destruct (said _ _ _ _ (arrow_issue (ploc (cur s)) (ploc (cur s2))) H eq_refl eq_refl eq_refl) as (X1 & X2 & X3 & X4). rewrite X4. cbn [sp_start sp_end]. auto. }
    destruct (Z.eqb_spec (wc c) 61) as [_|_]. { destruct (said _ _ _ _ (minus_issue (ploc (cur s2))) H eq_refl eq_refl eq_refl) as (X1 & X2 & X3 & X4). rewrite X4. cbn [sp_start sp_end]. auto. }
    exact (quiet _ H).
  - change (bytes_ "|>" ++ r) with (124 :: 62 :: r) in R. change (bytes_ "|>") with [124; 62]. specialize (quiet 124 62 R). specialize (said 124 62 R). clear done.
    unfold bind in H. rewrite (nextWL_plain _ _ _ _ _ R P124) in H.
    replace (dispatch o (cur s) (wl 124) pol) with (handleBar o (cur s) (wl 124) pol) in H by (unfold dispatch, nextToken_uncommon; cbv zeta; symmetry; repeat decide_if; reflexivity).
    unfold handleBar, bind in H. cbn [assert_ wl wc Z.eqb Pos.eqb ret] in H. rewrite (currentWL_plain _ _ (step s (62 :: r)) 62 r eq_refl P62) in H. cbn [wl wc Z.eqb Pos.eqb] in H.
    rewrite (nextWL_plain _ _ (step s (62 :: r)) 62 r eq_refl P62) in H. set (s2 := step (step s (62 :: r)) r) in *.
    destruct (o_check_issues o); unfold when_, get_loc, ret in H; [|exact (quiet _ H)]. rewrite (Hd _ s2 eq_refl) in H. unfold spacing_issue. cbn [String.eqb Ascii.eqb Bool.eqb].
    destruct (Z.eqb_spec (wc c) 61) as [_|_]. { destruct (said _ _ _ _ (bar_issue (ploc (cur s2))) H eq_refl eq_refl eq_refl) as (X1 & X2 & X3 & X4). rewrite X4. cbn [sp_start sp_end]. auto. }
    exact (quiet _ H).
  - change (bytes_ "_." ++ r) with (95 :: 46 :: r) in R. change (bytes_ "_.") with [95; 46]. specialize (quiet 95 46 R). specialize (said 95 46 R). clear done.
    unfold bind in H. rewrite (nextWL_plain _ _ _ _ _ R P95) in H.
    replace (dispatch o (cur s) (wl 95) pol) with (handleUnder o (cur s) (wl 95) pol) in H by (unfold dispatch, nextToken_uncommon; cbv zeta; symmetry; repeat decide_if; reflexivity).
    unfold handleUnder, bind in H. cbn [assert_ wl wc Z.eqb Pos.eqb ret] in H. rewrite (currentWL_plain _ _ (step s (46 :: r)) 46 r eq_refl P46) in H. cbn [wl wc Z.eqb Pos.eqb] in H.
    rewrite (nextWL_plain _ _ (step s (46 :: r)) 46 r eq_refl P46) in H. set (s2 := step (step s (46 :: r)) r) in *.
    destruct (o_check_issues o); unfold when_, get_loc, ret in H; [|exact (quiet _ H)]. rewrite (Hd _ s2 eq_refl) in H. unfold spacing_issue. cbn [String.eqb Ascii.eqb Bool.eqb].
    destruct (Z.eqb_spec (wc c) 46) as [_|_]. { destruct (said _ _ _ _ (dot_issue (ploc (cur s2))) H eq_refl eq_refl eq_refl) as (X1 & X2 & X3 & X4). rewrite X4. cbn [sp_start sp_end]. auto. }
    exact (quiet _ H).
Qed.

Lemma operator_read : forall pol s t s' a k d e, In (a, k) OPERATORS -> plain_char d -> rest (cur s) = bytes_ a ++ d :: e -> nextToken o pol s = Ok (t, s') ->
  t_kind t = k /\ t_text t = bytes_ a /\
  recorded_ (if o_check_issues o then spacing_issue a d (sp_start (t_src t)) (sp_end (t_src t)) else None) (lg s) (lg s').
Proof. intros pol s t s' a k d e Hin Hd R H. apply (operator_before pol s t s' a k (wl d) (d :: e)); auto. intros start s2 R2. apply (currentWL_plain start pol s2 d e R2 Hd). Qed.
Lemma currentWL_end : forall start pol s, rest (cur s) = [] -> currentWL o start pol s = Ok (wl EndOfFile, s).
Proof.
  intros start pol [cu l] E. cbn [cur] in E. unfold currentWL, peek, bind, mark, nextWL, bind, with_fuel. destruct (end_step o (without_tracklc pol) (mkst cu l) E) as (s1 & E1 & L1).
  unfold next_wolfram_char, bind. rewrite E1. change (negb (EndOfFile =? 92)) with true. cbv iota. unfold ret. cbn [lc_loop wl wc]. change (negb (is_line_continuation EndOfFile)) with true. cbv iota. unfold ret, seek. cbn [cur lg] in *. rewrite L1. reflexivity.
Qed.
Lemma operator_end : forall pol s t s' a k, In (a, k) OPERATORS -> rest (cur s) = bytes_ a -> nextToken o pol s = Ok (t, s') -> t_kind t = k /\ t_text t = bytes_ a /\ lg s' = lg s.
Proof.
  intros pol s t s' a k Hin R H. destruct (operator_before pol s t s' a k (wl EndOfFile) [] Hin) as (X1 & X2 & X3); [intros; apply currentWL_end; assumption|rewrite app_nil_r; exact R|exact H|].
  split; [exact X1|]. split; [exact X2|]. destruct (o_check_issues o); [|exact X3]. destruct Hin as [E|[E|[E|[E|[]]]]]; injection E as <- <-; exact X3.
Qed.

Lemma arrow_read : forall pol s t s' e, rest (cur s) = 45 :: 62 :: e -> nextToken o pol s = Ok (t, s') -> t_kind t = TK_MinusGreater /\ t_text t = [45; 62] /\ lg s' = lg s.
Proof.
  intros pol s t s' e R H. unfold nextToken in H. binv H p s0 E0. injection E0 as <- <-.
  assert (P45 : plain_char 45) by (unfold plain_char; lia). assert (P62 : plain_char 62) by (unfold plain_char; lia).
  unfold bind in H. rewrite (nextWL_plain _ _ _ _ _ R P45) in H.
  replace (dispatch o (cur s) (wl 45) pol) with (handleMinus o (cur s) (wl 45) pol) in H by (unfold dispatch, nextToken_uncommon; cbv zeta; symmetry; repeat decide_if; reflexivity).
  unfold handleMinus, bind in H. cbn [assert_ wl wc Z.eqb Pos.eqb ret] in H. rewrite (currentWL_plain _ _ (step s (62 :: e)) 62 e eq_refl P62) in H. cbn [wl wc Z.eqb Pos.eqb] in H.
  rewrite (nextWL_plain _ _ (step s (62 :: e)) 62 e eq_refl P62) in H. apply mk_token_inv in H as (-> & X1 & X2 & _). cbn [cur step rest] in X2. rewrite R, buf_two in X2. auto.
Qed.
Lemma asked_read : forall g pol s t s1, ask o (AsToken g pol) s = Ok (t, s1) -> exists s2, nextToken o (grouped g pol) s = Ok (t, s2) /\ lg s1 = lg s2.
Proof.
  intros g pol s t s1 H. cbn [ask] in H. unfold peek_token_with in H. change (if g then without_toplevel pol else pol) with (grouped g pol) in H. unfold peek, bind, mark, seek, ret in H.
  destruct (nextToken o (grouped g pol) s) as [[u s2]| |]; try discriminate. injection H as <- <-. eexists. split; reflexivity.
Qed.
Lemma operator_asked : forall g pol s t s1 a k d e, In (a, k) OPERATORS -> plain_char d -> rest (cur s) = bytes_ a ++ d :: e -> ask o (AsToken g pol) s = Ok (t, s1) ->
  t_kind t = k /\ t_text t = bytes_ a /\
  recorded_ (if o_check_issues o then spacing_issue a d (sp_start (t_src t)) (sp_end (t_src t)) else None) (lg s) (lg s1).
Proof. intros g pol s t s1 a k d e Hin Hd R H. destruct (asked_read _ _ _ _ _ H) as (s2 & E & ->). eapply operator_read; eauto. Qed.
Lemma not_crowded : forall a k d b l, In (a, k) OPERATORS -> ~ In (a, d) CROWDS -> spacing_issue a d b l = None.
Proof.
  intros a k d b l Hin N. destruct Hin as [E|[E|[E|[E|[]]]]]; injection E as <- <-; unfold spacing_issue; cbn [String.eqb Ascii.eqb Bool.eqb];
    repeat match goal with |- context [d =? ?c] => destruct (Z.eqb_spec d c) as [->|_]; [exfalso; apply N; cbn [CROWDS In]; auto 9|] end; reflexivity.
Qed.
Lemma operator_quiet : forall g pol s t s1 a k d e, In (a, k) OPERATORS -> plain_char d -> ~ In (a, d) CROWDS -> rest (cur s) = bytes_ a ++ d :: e -> ask o (AsToken g pol) s = Ok (t, s1) ->
  t_kind t = k /\ t_text t = bytes_ a /\ lg s1 = lg s.
Proof.
  intros g pol s t s1 a k d e Hin Hd N R H. destruct (operator_asked _ _ _ _ _ _ _ _ _ Hin Hd R H) as (X1 & X2 & X3). rewrite (not_crowded _ _ _ _ _ Hin N) in X3. destruct (o_check_issues o); auto.
Qed.
End Steps.

(** ** What is suggested *)
Lemma crowded_said : forall a d b l, In (a, d) CROWDS -> exists w, spacing_issue a d b l = Some w /\ In (insert_space l) (wi_actions w) /\
  Forall (fun x => x = insert_space l \/ a = "--" /\ d = 62 /\ ac_kind x = ReplaceText [45] /\ ac_src x = mkspan b l) (wi_actions w).
Proof.
  intros a d b l H. destruct H as [E|[E|[E|[E|[E|[]]]]]]; injection E as <- <-; eexists; (split; [reflexivity|]); (split; [cbn; auto|]); repeat apply Forall_cons; try apply Forall_nil; auto.
Qed.
Lemma plain_32 : plain_char 32. Proof. unfold plain_char. lia. Qed.
Lemma no_blank : forall a, ~ In (a, 32) CROWDS.
Proof. intros a H. destruct H as [E|[E|[E|[E|[E|[]]]]]]; discriminate E. Qed.
Lemma crowds_plain : forall a d, In (a, d) CROWDS -> plain_char d /\ exists k, In (a, k) OPERATORS.
Proof. intros a d H. destruct H as [E|[E|[E|[E|[E|[]]]]]]; injection E as <- <-; (split; [unfold plain_char; lia|]); eexists; cbn [OPERATORS In]; eauto. Qed.
