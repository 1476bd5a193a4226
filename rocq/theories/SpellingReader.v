(** The reader and the issues about a backslash that begins no escape. *)
From Coq Require Import String ZArith List Bool Lia Arith.
From Verif Require Import Base Source WLChar LongNames GenLongNames ByteDecoder CharDecoder Format Decode SpecText SpecReader Iter TextProofs Logic LongNamesProofs WlDecode
  ReaderProofs TokSpecs FormatProofs FormatRound Link Suggestions SpecSuggestions SuggestionsProofs SuggestionsEscapes Spelling SpecSpelling SpellingProofs.
Import ListNotations.
Local Open Scope string_scope.
Local Open Scope list_scope.
Local Open Scope Z_scope.

Section Reading.
Context (o : opts) (input : list Z) (Ht : 0 < o_tab_width o).

(** ** Steps *)
Definition goes (s s' : st) : Prop := reachable o input s -> reachable o input s' /\ exists p, rest (cur s) = p ++ rest (cur s').
Lemma goes_refl : forall s, goes s s.
Proof. intros s H. split; [exact H|]. exists []. reflexivity. Qed.
Lemma goes_trans : forall a b c, goes a b -> goes b c -> goes a c.
Proof.
  intros a b c H1 H2 H. destruct (H1 H) as (Hb & p & Ep). destruct (H2 Hb) as (Hc & q & Eq). split; [exact Hc|]. exists (p ++ q). rewrite <- app_assoc. congruence.
Qed.
Lemma peek_cur : forall A (m : M A) s a s', peek m s = Ok (a, s') -> cur s' = cur s.
Proof.
  intros A m s a s' H. unfold peek in H. binv H p s1 E1. injection E1 as <- <-. binv H x s2 E2. binv H u s3 E3. injection E3 as <- <-. injection H as <- <-. reflexivity.
Qed.
Lemma peek_goes : forall pol s c s', peek_source_char o pol s = Ok (c, s') -> goes s s' /\ cur s' = cur s.
Proof.
  intros pol s c s' H. assert (E : cur s' = cur s) by exact (peek_cur _ _ _ _ _ H). split; [|exact E]. intros R. split; [eapply rc_peek_src; eauto|]. exists []. rewrite E. reflexivity.
Qed.
Lemma next_goes : forall pol s c s', next_source_char o pol s = Ok (c, s') -> goes s s'.
Proof.
  intros pol s c s' H R. split; [eapply rc_next_src; eauto|]. destruct (src_step o pol s (reachable_Inv o input s Ht R)) as (a & s1 & E & _ & _ & p & Ep & _).
  rewrite H in E. injection E as <- <-. eauto.
Qed.
Lemma next_read : forall pol s c s', reachable o input s -> next_source_char o pol s = Ok (c, s') ->
  c = dchar (decode (rest (cur s))) /\ rest (cur s') = drest (decode (rest (cur s))) /\ ploc (cur s') = adv o c (ploc (cur s)).
Proof.
  intros pol s c s' R H. pose proof (wp_next_src False o pol s (reachable_Inv o input s Ht R)) as W. unfold wpr in W. rewrite H in W. tauto.
Qed.
Lemma peek_read : forall pol s c s', reachable o input s -> peek_source_char o pol s = Ok (c, s') -> c = dchar (decode (rest (cur s))).
Proof.
  intros pol s c s' R H. unfold peek_source_char, peek in H. binv H p s1 E1. injection E1 as <- <-. binv H x s2 E2. binv H u s3 E3. injection H as <- <-.
  apply next_read in E2; tauto.
Qed.

Lemma read_digits_goes : forall n isd pol s b s', read_digits o n isd pol s = Ok (b, s') -> goes s s'.
Proof.
  induction n as [|n IH]; intros isd pol s b s' H; cbn [read_digits] in H; [injection H as <- <-; apply goes_refl|].
  binv H c s1 E1. apply peek_goes in E1 as [G1 _]. destruct (isd c); [|injection H as <- <-; exact G1].
  binv H c2 s2 E2. apply next_goes in E2. eauto using goes_trans.
Qed.
Lemma name_loop_goes : forall k pol c s b s', longName_loop o k pol c s = Ok (b, s') -> goes s s'.
Proof.
  induction k as [|k IH]; intros pol c s b s' H; cbn [longName_loop] in H; [discriminate|].
  destruct (src_isAlphaOrDigit o c); [|destruct (c =? 93); injection H as <- <-; apply goes_refl].
  binv H c1 s1 E1. apply next_goes in E1. binv H c2 s2 E2. apply peek_goes in E2 as [G2 _]. eauto using goes_trans.
Qed.
Lemma name_loop_stop : forall k pol c s b s', reachable o input s -> c = dchar (decode (rest (cur s))) -> longName_loop o k pol c s = Ok (b, s') ->
  b = true -> dchar (decode (rest (cur s'))) = 93.
Proof.
  induction k as [|k IH]; intros pol c s b s' R Ec H Hb; cbn [longName_loop] in H; [discriminate|].
  destruct (src_isAlphaOrDigit o c).
  - binv H c1 s1 E1. apply next_goes in E1. binv H c2 s2 E2. pose proof (peek_goes _ _ _ _ E2) as [G2 C2]. destruct (E1 R) as [R1 _]. destruct (G2 R1) as [R2 _].
    apply (IH pol c2 s2 b s' R2); [rewrite C2; exact (peek_read _ _ _ _ R1 E2)|exact H|exact Hb].
  - destruct (Z.eqb_spec c 93) as [E|N]; injection H as <- <-; [congruence|discriminate Hb].
Qed.

Lemma between_app : forall p r, buf_between (p ++ r) r = p.
Proof. intros p r. unfold buf_between. rewrite app_length, Nat.add_sub. rewrite firstn_app, firstn_all, Nat.sub_diag, firstn_O, app_nil_r. reflexivity. Qed.

(** ** What is recorded *)
Definition recorded (s : st) (s' : st) : Prop :=
  exists t r w g s4, rest (cur s) = 92 :: t ++ r /\ reachable o input s4 /\ rest (cur s4) = r /\
    bad_escape (mkspan (ploc (cur s)) (ploc (cur s4))) t w /\ about_escape (ploc (cur s)) (ploc (cur s4)) t r w /\
    lg s' = addIssue_log (mkissue UnhandledCharacter Fatal (mkspan (ploc (cur s)) (ploc (cur s4)))) g.

(** an issue, then back to the mark *)
Lemma report_inv : forall t sv a b s u s', report t sv a b s = Ok (u, s') -> s' = mkst (cur s) (addIssue_log (mkissue t sv (mkspan a b)) (lg s)).
Proof.
  intros t sv a b s u s' H. unfold report in H. binv H sp s1 E1. unfold lift, Span_new in E1. destruct (loc_leb a b) as [[]|]; try discriminate. injection E1 as <- <-. injection H as <- <-. reflexivity.
Qed.

Section Escape.
Context (pol : policy) (s s1 : st) (R0 : reachable o input s) (R1 : reachable o input s1) (Hp : p_scan pol = false) (Hi : issues_on o pol = true)
  (E0 : rest (cur s) = 92 :: rest (cur s1)) (L0 : loc_previous (ploc (cur s1)) = Ok (ploc (cur s))).

Lemma digits_recorded : forall head body s2 s4 c s', rest (cur s1) = head ++ rest (cur s2) -> reachable o input s2 -> rest (cur s2) = body ++ rest (cur s4) -> reachable o input s4 ->
  In head [[58]; [46]; [124]] \/ head = [] /\ src_isOctal (hd 0 body) = true -> digits_fail o (cur s1) pol s4 = Ok (c, s') -> recorded s s'.
Proof.
  intros head body s2 s4 c s' E1 R2 E2 R4 Hh H. unfold digits_fail, when_ in H. rewrite Hi in H. binv H u s5 E5. binv H u2 s6 E6. injection E6 as <- <-. injection H as <- <-.
  binv E5 b s7 E7. unfold lift in E7. rewrite L0 in E7. injection E7 as <- <-. binv E5 e s8 E8. injection E8 as <- <-. apply report_inv in E5. subst s5.
  exists (head ++ body), (rest (cur s4)), (doubled_issue head body (mkspan (ploc (cur s)) (ploc (cur s4)))), (lg s4), s4.
  split; [rewrite E0, E1, E2, app_assoc; reflexivity|]. split; [exact R4|]. split; [reflexivity|]. split; [apply be_digits; exact Hh|]. split; [apply doubled_helps|]. reflexivity.
Qed.

Lemma name_recorded : forall s2 s', rest (cur s1) = 91 :: rest (cur s2) -> reachable o input s2 ->
  handleLongName o (cur s1) pol s2 = Ok (wl 92, s') -> recorded s s'.
Proof.
  intros s2 s' E1 R2 H. unfold handleLongName in H. binv H u s3 E3. assert (s3 = s2) by (unfold assert_ in E3; destruct (match rest (cur s1) with [] => _ | _ :: _ => _ end); [injection E3; auto|discriminate]). subst s3. clear E3.
  binv H start s3 E3. injection E3 as <- <-. binv H c s3 E3. pose proof (peek_goes _ _ _ _ E3) as [G3 C3]. destruct (G3 R2) as [R3 _]. pose proof (peek_read _ _ _ _ R2 E3) as Ec.
  binv H wf s4 E4.
  assert (W : goes s3 s4 /\ (wf = true -> dchar (decode (rest (cur s4))) = 93) /\ (src_isUpper c = true -> exists q, rest (cur s2) = c :: q ++ rest (cur s4))).
  { destruct (src_isUpper c) eqn:Eu.
    - binv E4 c1 s5 E5. binv E4 c2 s6 E6. pose proof (peek_goes _ _ _ _ E6) as [G6 C6]. pose proof (next_goes _ _ _ _ E5) as G5. destruct (G5 R3) as [R5 _]. destruct (G6 R5) as [R6 _].
      unfold with_fuel in E4. pose proof (name_loop_goes _ _ _ _ _ _ E4) as G4. split; [eauto using goes_trans|]. split.
      + intros Hwf. apply (name_loop_stop _ _ _ _ _ _ R6) in E4; [exact E4| |exact Hwf]. rewrite C6. exact (peek_read _ _ _ _ R5 E6).
      + intros _. destruct (G4 R6) as (_ & q & Eq). exists q. rewrite <- Eq, C6. destruct (next_read _ _ _ _ R3 E5) as (_ & Er & _). rewrite Er, C3. apply between_iff in Eu.
        apply decode_ascii_inv; [congruence|lia|lia].
    - split; [|split; [|discriminate]].
      + destruct (c =? 93); [|injection E4 as <- <-; apply goes_refl]. binv E4 c1 s5 E5. binv E4 c2 s6 E6. injection E4 as <- <-. apply peek_goes in E6 as [G6 _]. apply next_goes in E5. eauto using goes_trans.
      + destruct (c =? 93); [|injection E4 as <- <-; discriminate]. binv E4 c1 s5 E5. binv E4 c2 s6 E6. injection E4 as <- <-. discriminate. }
  destruct W as (G4 & Hstop & Hup). destruct (G4 R3) as (R4 & q & Eq). rewrite C3 in Eq. destruct wf; cbn [negb] in H.
  - binv H fin s5 E5. injection E5 as <- <-. cbv zeta in H. rewrite Eq, between_app in H. destruct (longname_to_codepoint q) as [p|] eqn:El.
    { binv H c5 s5 E5. binv H c6 s6 E6. injection H as Hw He Hs. destruct (isRaw q); discriminate He. }
    unfold when_ in H. rewrite Hi in H. binv H u5 s5 E5. binv H u6 s6 E6. injection E6 as <- <-. injection H as <-.
    binv E5 l s6 E6. injection E6 as <- <-. binv E5 b s7 E7. unfold lift in E7. rewrite L0 in E7. injection E7 as <- <-. rewrite Hp in E5. apply report_inv in E5. subst s5.
    assert (E93 : rest (cur s4) = 93 :: drest (decode (rest (cur s4)))) by (apply decode_ascii_inv; [auto|lia|lia]).
    destruct (src_step o pol s4 (reachable_Inv o input s4 Ht R4)) as (a & s9 & E9 & _). pose proof (next_goes _ _ _ _ E9 R4) as [R9 _].
    destruct (next_read _ _ _ _ R4 E9) as (Ea & Er & El9). rewrite (Hstop eq_refl) in Ea. subst a. change (adv o 93 (ploc (cur s4))) with (loc_next (ploc (cur s4))) in El9.
    exists (91 :: q ++ [93]), (rest (cur s9)), (unknown_issue false q (mkspan (ploc (cur s)) (ploc (cur s9)))), (lg s4), s9.
    split; [rewrite E0, E1, Eq, E93, Er; cbn [app]; rewrite <- app_assoc; reflexivity|]. split; [exact R9|]. split; [reflexivity|]. split; [apply be_unknown; exact El|].
    split; [apply unknown_helps|]. cbn [lg]. rewrite El9. reflexivity.
  - unfold when_ in H. rewrite Hi in H. binv H u5 s5 E5. binv H u6 s6 E6. injection E6 as <- <-. injection H as <-.
    binv E5 b s7 E7. unfold lift in E7. rewrite L0 in E7. injection E7 as <- <-. binv E5 l s6 E6. injection E6 as <- <-. apply report_inv in E5. subst s5.
    destruct (src_isUpper c) eqn:Eu.
    + destruct (Hup eq_refl) as (q' & Eq'). rewrite Eq' in Eq. change (c :: q' ++ rest (cur s4)) with ((c :: q') ++ rest (cur s4)) in Eq. apply app_inv_tail in Eq. subst q.
      exists (91 :: c :: q'), (rest (cur s4)), (unclosed_issue (c :: q') (mkspan (ploc (cur s)) (ploc (cur s4)))), (lg s4), s4.
      split; [rewrite E0, E1, Eq'; reflexivity|]. split; [exact R4|]. split; [reflexivity|]. split; [apply be_unclosed; exact Eu|]. split; [apply unclosed_helps|]. reflexivity.
    + assert (Hq : src_isUpper (hd 0 q) = false).
      { destruct q as [|x q]; [reflexivity|]. cbn [hd]. destruct (src_isUpper x) eqn:Ex; [|reflexivity]. exfalso. apply between_iff in Ex. rewrite Eq in Ec. cbn [app] in Ec.
        destruct (decode_ascii_d x (q ++ rest (cur s4))) as [D1 _]; [lia|lia|]. rewrite D1 in Ec. subst c. unfold src_isUpper, between in Eu. rewrite !andb_false_iff, !Z.leb_gt in Eu. lia. }
      exists (91 :: q), (rest (cur s4)), (doubled_issue [91] q (mkspan (ploc (cur s)) (ploc (cur s4)))), (lg s4), s4.
      split; [rewrite E0, E1, Eq; reflexivity|]. split; [exact R4|]. split; [reflexivity|]. split; [apply be_malformed; exact Hq|]. split; [apply (doubled_helps [91] q)|]. reflexivity.
Qed.

(** the characters of the run are its bytes, when they are plain *)
Lemma unhandled_goes : forall k c s3 cs b s4, reachable o input s3 -> c = dchar (decode (rest (cur s3))) -> unhandled_loop o k pol c s3 = Ok ((cs, b), s4) ->
  goes s3 s4 /\ (b = true -> Forall (fun x => 32 <= x < 0x80) cs -> rest (cur s3) = cs ++ 93 :: rest (cur s4)).
Proof.
  induction k as [|k IH]; intros c s3 cs b s4 R3 Ec H; cbn [unhandled_loop] in H; [discriminate|]. destruct (src_isAlphaOrDigit o c).
  - binv H c1 s5 E5. binv H c2 s6 E6. pose proof (next_goes _ _ _ _ E5) as G5. destruct (G5 R3) as [R5 _]. pose proof (peek_goes _ _ _ _ E6) as [G6 C6]. destruct (G6 R5) as [R6 _].
    binv H r s7 E7. destruct r as [cs' b']. injection H as <- <- <-. cbn [fst snd] in *.
    destruct (IH c2 s6 cs' b' s7 R6) as [G7 F7]; [rewrite C6; exact (peek_read _ _ _ _ R5 E6)|exact E7|]. split; [eauto using goes_trans|]. intros Hb F. inversion F as [|? ? F1 F2]; subst.
    rewrite <- app_comm_cons, <- (F7 eq_refl F2), C6. destruct (next_read _ _ _ _ R3 E5) as (_ & Er & _). rewrite Er. apply decode_ascii_inv; [reflexivity|lia|lia].
  - destruct (Z.eqb_spec c 93) as [E|N].
    + binv H c1 s5 E5. injection H as <- <- <-. split; [exact (next_goes _ _ _ _ E5)|]. intros _ _. cbn [app]. destruct (next_read _ _ _ _ R3 E5) as (_ & Er & _). rewrite Er. apply decode_ascii_inv; [congruence|lia|lia].
    + injection H as <- <- <-. split; [apply goes_refl|discriminate].
Qed.

Lemma decoded_utf8 : forall bs c, dchar (decode bs) = c -> c <> CRLF -> c <> EndOfFile -> isMBUnsafeUTF8Sequence c = false -> scalar c /\ bs = utf8 c ++ drest (decode bs).
Proof.
  intros bs c. generalize (decode_case bs). generalize (decode bs). intros dd D. destruct D as [|r0|c0 r0 Hc0 Hb0 Hn0|r0|bs0 c0 r0 u ? Hc Hno ?]; cbn [good_ dchar drest fst snd]; intros <- N1 N2 N3; try contradiction; auto; try discriminate N3.
  exfalso. destruct Hc as [->|[->| ->]]; discriminate N3.
Qed.

Lemma unhandled_recorded : forall c s', dchar (decode (rest (cur s1))) <> CRLF -> handleUnhandledEscape o (cur s1) pol s1 = Ok (c, s') ->
  recorded s s' \/ rest (cur s1) = [] \/ isMBUnsafeUTF8Sequence (dchar (decode (rest (cur s1)))) = true.
Proof.
  intros c0 s' Hcr H. unfold handleUnhandledEscape in H. binv H c s2 E2. pose proof (peek_goes _ _ _ _ E2) as [G2 C2]. destruct (G2 R1) as [R2 _]. pose proof (peek_read _ _ _ _ R1 E2) as Ec.
  rewrite <- Ec in *. binv H c1 s3 E3. destruct (next_goes _ _ _ _ E3 R2) as [R3 _]. destruct (next_read _ _ _ _ R2 E3) as (_ & Er3 & _). rewrite C2 in Er3.
  unfold when_ in H. rewrite Hi in H. binv H u s4 E4. binv H u2 s5 E5. injection E5 as <- <-. injection H as <- <-.
  binv E4 b s5 E5. unfold lift in E5. rewrite L0 in E5. injection E5 as <- <-. binv E4 e s5 E5. injection E5 as <- <-.
  destruct (isMBUnsafeUTF8Sequence c) eqn:Eb; [right; right; reflexivity|].
  destruct (Z.eq_dec c EndOfFile) as [Ee|Ne].
  { right. left. destruct (src_step o pol s1 (reachable_Inv o input s1 Ht R1)) as (a & s9 & E9 & _ & Ha & _). apply Ha. destruct (next_read _ _ _ _ R1 E9) as (-> & _). rewrite <- Ec, Ee. reflexivity. }
  left. destruct (decoded_utf8 _ _ (eq_sym Ec) Hcr Ne Eb) as [Hs Eu]. rewrite <- Er3 in Eu.
  assert (W : forall s5, report UnhandledCharacter Fatal (ploc (cur s)) (ploc (cur s3)) s5 = Ok (u, s4) -> recorded s (mkst (cur s1) (lg s4))).
  { intros s5 H. apply report_inv in H. subst s4. cbn [lg].
    assert (X : exists w, other_issue c (mkspan (ploc (cur s)) (ploc (cur s3))) = Ok (Some w)).
    { assert (Hg : okr (graphicalString (wl c))).
      { assert (Hi2 : is_char (wc (wl c)) = true) by (unfold is_char, wl; cbn [wc]; apply Z.leb_le; unfold scalar in Hs; lia). exact (proj1 (proj2 (fmt_ok_printable (wl c) I Hi2))). }
      destruct Hg as (g & Eg). unfold other_issue. rewrite Eg, Eb. cbn [rbind]. destruct (Z.eqb_spec c EndOfFile); [contradiction|]. cbn [orb].
      destruct (src_isUpper c); [eauto|]. destruct (src_isHex c); [eauto|]. destruct (1 <? zlen (encode g)); eauto. }
    destruct X as (w & Ew). exists (encode [c]), (rest (cur s3)), w, (lg s5), s3.
    split; [rewrite E0, Eu at 1; unfold encode; cbn [map concat]; rewrite app_nil_r; reflexivity|]. split; [exact R3|]. split; [reflexivity|]. split; [apply be_other; exact Ew|].
    split; [|reflexivity]. exact (other_helps c _ w (or_introl Hs) Ew (rest (cur s3))). }
  destruct (src_isUpper c) eqn:Eup.
  - binv E4 c2 s5 E5. pose proof (peek_goes _ _ _ _ E5) as [G5 C5]. destruct (G5 R3) as [R5 _]. binv E4 r s6 E6. destruct r as [cs bb]. cbn [fst snd] in E4.
    unfold with_fuel in E6. destruct (unhandled_goes _ _ _ _ _ _ R5 (eq_trans (peek_read _ _ _ _ R3 E5) (f_equal (fun x => dchar (decode (rest x))) (eq_sym C5))) E6) as [G6 F6]. cbv zeta in E4.
    destruct (longname_to_codepoint (c :: cs)) as [p|] eqn:El; [|exact (W _ E4)]. destruct bb; [|exact (W _ E4)].
    binv E4 e s7 E7. injection E7 as <- <-. apply report_inv in E4. subst s4. cbn [lg]. destruct (G6 R5) as [R6 _].
    assert (V : forallb visible (c :: cs) = true) by (apply longname_to_codepoint_In in El; exact (proj1 (forallb_forall _ _) table_visible _ El)).
    assert (F : Forall (fun x => 32 <= x < 0x80) (c :: cs)).
    { apply Forall_forall. intros x Hx. apply (proj1 (forallb_forall _ _) V) in Hx. apply between_iff in Hx. lia. }
    inversion F as [|? ? F1 F2]; subst. specialize (F6 eq_refl F2). rewrite C5 in F6. rewrite utf8_1 in Eu by lia. cbn [app] in Eu.
    exists ((dchar (decode (rest (cur s1))) :: cs) ++ [93]), (rest (cur s6)), (unopened_issue (dchar (decode (rest (cur s1))) :: cs) (mkspan (ploc (cur s)) (ploc (cur s6)))), (lg s6), s6.
    split; [rewrite E0, Eu at 1; rewrite F6; cbn [app]; rewrite <- app_assoc; reflexivity|]. split; [exact R6|]. split; [reflexivity|]. split; [eapply be_unopened; exact El|]. split; [eapply unopened_helps; exact El|]. reflexivity.
  - destruct (src_isHex c); [exact (W _ E4)|]. destruct (Z.eqb_spec c EndOfFile); [contradiction|]. cbn [orb] in E4. exact (W _ E4).
Qed.
End Escape.

Section Whole.
Context (pol : policy) (s s1 : st) (R0 : reachable o input s) (R1 : reachable o input s1) (Hp : p_scan pol = false) (Hi : issues_on o pol = true)
  (E0 : rest (cur s) = 92 :: rest (cur s1)) (L0 : loc_previous (ploc (cur s1)) = Ok (ploc (cur s))).


Lemma hex_digits : forall n s2 s3, reachable o input s2 -> read_digits o n src_isHex pol s2 = Ok (true, s3) ->
  exists ds, rest (cur s2) = ds ++ rest (cur s3) /\ hex_string n ds.
Proof.
  induction n as [|n IH]; intros s2 s3 R2 H; cbn [read_digits] in H; [injection H as <-; exists []; repeat split; constructor|].
  binv H c s4 E4. pose proof (peek_goes _ _ _ _ E4) as [G4 C4]. destruct (G4 R2) as [R4 _]. destruct (src_isHex c) eqn:Eh; [|discriminate].
  binv H c2 s5 E5. destruct (next_goes _ _ _ _ E5 R4) as [R5 _]. destruct (IH s5 s3 R5 H) as (ds & E & L & F). exists (c :: ds).
  destruct (next_read _ _ _ _ R4 E5) as (_ & Er & _). rewrite C4 in Er. pose proof (peek_read _ _ _ _ R2 E4) as Ec. pose proof Eh as Eh2. unfold src_isHex in Eh2. rewrite !orb_true_iff, !between_iff in Eh2.
  split; [|split; [cbn [length]; congruence|constructor; [rewrite <- src_isHex_spec; exact Eh|exact F]]]. cbn [app]. rewrite <- E, Er. apply decode_ascii_inv; [congruence|lia|lia].
Qed.

Lemma unsafe_malformed : forall bs, isMBUnsafeUTF8Sequence (dchar (decode bs)) = true -> forall d t, scalar d -> d <> BOM_CHAR -> bs <> utf8 d ++ t.
Proof.
  intros bs. generalize (decode_case bs). generalize (decode bs). intros dd D. destruct D as [|r0|c0 r0 Hc0 Hb0 Hn0|r0|bs0 c0 r0 u ? Hc Hno ?]; cbn [good_ dchar fst snd]; intros Hun d t Hd Nb E.
  - discriminate Hun.
  - discriminate Hun.
  - unfold isMBUnsafeUTF8Sequence, zin in Hun. apply existsb_exists in Hun as (x & Hx & E'). apply Z.eqb_eq in E'. subst x. unfold scalar in Hc0. destruct Hx as [<-|[<-|[<-|[]]]]; vm_compute in Hc0; intuition congruence.
  - apply utf8_inj in E; [|unfold scalar, BOM_CHAR; lia|exact Hd]. destruct E as [E _]. congruence.
  - exact (Hno d t Hd E).
Qed.

Lemma uncommon_recorded : forall s', handleUncommon o (cur s1) pol s1 = Ok (wl 92, s') -> recorded s s' \/ silent (rest (cur s1)).
Proof.
  intros s' H. unfold handleUncommon in H. binv H p s2 E2. pose proof (peek_goes _ _ _ _ E2) as [G2 C2]. destruct (G2 R1) as [R2 _]. pose proof (peek_read _ _ _ _ R1 E2) as Ep.
  assert (NS : forall q, single o pol q s2 = Ok (wl 92, s') -> False) by (intros q X; unfold single in X; binv X a s3 E3; discriminate X).
  assert (NM : forall q s3, meta_with_issue o (cur s1) q s3 = Ok (wl 92, s') -> False) by (intros q s3 X; unfold meta_with_issue in X; binv X a s4 E3; discriminate X).
  assert (NX : forall c, p = c -> 0 <= c < 128 -> c <> 13 -> forall a s3, next_source_char o pol s2 = Ok (a, s3) -> rest (cur s1) = c :: rest (cur s3) /\ reachable o input s3).
  { intros c E Hc Hn a s3 E3. split; [|exact (proj1 (next_goes _ _ _ _ E3 R2))]. destruct (next_read _ _ _ _ R2 E3) as (_ & Er & _). rewrite Er, C2. apply decode_ascii_inv; [congruence|lia|exact Hn]. }
  assert (ND : forall head n isd v e s3, In head [[58]; [46]; [124]] \/ head = [] /\ src_isOctal (hd 0 (rest (cur s1))) = true -> (exists s2' q, rest (cur s1) = head ++ rest (cur s2') /\ reachable o input s2' /\ reachable o input s3 /\ rest (cur s2') = q ++ rest (cur s3) /\ (head = [] -> q <> [])) ->
    (good <- read_digits o n isd pol ;; if negb good then digits_fail o (cur s1) pol else finish_digits o (cur s1) pol v e) s3 = Ok (wl 92, s') -> e <> ENone -> recorded s s').
  { intros head n isd v e s3 Hh (s2' & q & Eh & Rh & R3 & Eq & Hq) X He. binv X good s4 E4. destruct good; cbn [negb] in X.
    - exfalso. unfold finish_digits in X. binv X a s5 E5. cbv zeta in X. binv X a6 s6 E6. injection X as _ Xe _. contradiction.
    - destruct (read_digits_goes _ _ _ _ _ _ E4 R3) as (R4 & body & Eb). eapply (digits_recorded pol s s1) with (head := head) (body := q ++ body) (s2 := s2'); [exact Hi|exact E0|exact L0|exact Eh|exact Rh| |exact R4| |exact X].
      + rewrite Eq, Eb, app_assoc. reflexivity.
      + destruct Hh as [Hh|[-> Ho]]; [left; exact Hh|right; split; [reflexivity|]]. destruct q as [|x q]; [contradiction (Hq eq_refl eq_refl)|]. rewrite Eh, Eq in Ho. exact Ho. }
  rewrite !switchl_cons in H. cbn [switchl existsb] in H. rewrite !orb_false_r in H.
  destruct (Z.eqb_spec p 10); [exfalso; eauto|]. destruct (Z.eqb_spec p 13); [exfalso; eauto|]. destruct (Z.eqb_spec p CRLF) as [|Ncr]; [exfalso; eauto|].
  destruct (Z.eqb_spec p 91) as [E|_]. { binv H a s3 E3. destruct (NX 91 E ltac:(lia) ltac:(lia) _ _ E3) as [X1 X2]. left. eapply name_recorded; eauto. }
  destruct (Z.eqb_spec p 58) as [E|_]. { binv H a s3 E3. destruct (NX 58 E ltac:(lia) ltac:(lia) _ _ E3) as [X1 X2]. left. unfold handle4Hex in H. binv H u s4 E4.
    assert (s4 = s3) by (unfold assert_ in E4; destruct (match rest (cur s1) with [] => _ | _ :: _ => _ end); [injection E4; auto|discriminate]). subst s4. binv H st0 s4 E5. injection E5 as <- <-.
    apply (ND [58] _ _ _ _ s3) in H; [exact H|left; cbn; auto|exists s3, []; split; [exact X1|]; repeat split; try exact X2; discriminate|discriminate]. }
  destruct (Z.eqb_spec p 46) as [E|_]. { binv H a s3 E3. destruct (NX 46 E ltac:(lia) ltac:(lia) _ _ E3) as [X1 X2]. left. unfold handle2Hex in H. binv H u s4 E4.
    assert (s4 = s3) by (unfold assert_ in E4; destruct (match rest (cur s1) with [] => _ | _ :: _ => _ end); [injection E4; auto|discriminate]). subst s4. binv H st0 s4 E5. injection E5 as <- <-.
    apply (ND [46] _ _ _ _ s3) in H; [exact H|left; cbn; auto|exists s3, []; split; [exact X1|]; repeat split; try exact X2; discriminate|discriminate]. }
  destruct (Z.eqb_spec p 124) as [E|_]. { binv H a s3 E3. destruct (NX 124 E ltac:(lia) ltac:(lia) _ _ E3) as [X1 X2]. unfold handle6Hex in H. binv H u s4 E4.
    assert (s4 = s3) by (unfold assert_ in E4; destruct (match rest (cur s1) with [] => _ | _ :: _ => _ end); [injection E4; auto|discriminate]). subst s4. binv H st0 s4 E5. injection E5 as <- <-.
    binv H good s5 E5. destruct good; cbn [negb] in H.
    - cbv zeta in H. destruct (hex_digits _ _ _ X2 E5) as (ds & Ed & Hd).
      assert (Hh : digits_here 6 is_hex_digit (rest (cur s3)) = Some (ds, rest (cur s5))) by (rewrite Ed; apply digits_here_app; apply Hd).
      destruct (digits_number 4 16 is_hex_digit 6 _ _ _ ltac:(lia) eq_refl toDigit_hex Hh) as [Ev _]. rewrite Ev in H.
      destruct (Z.ltb_spec 0x10ffff (SpecText.number 16 ds)) as [L|L].
      + right. right. right. exists ds, (rest (cur s5)). rewrite X1, Ed. auto.
      + exfalso. unfold finish_digits in H. binv H a1 s6 E6. cbv zeta in H. binv H a2 s7 E7. discriminate H.
    - left. destruct (read_digits_goes _ _ _ _ _ _ E5 X2) as (R5 & body & Eb). eapply (digits_recorded pol s s1) with (head := [124]) (s2 := s3); [exact Hi|exact E0|exact L0|exact X1|exact X2|exact Eb|exact R5|left; cbn; auto|exact H]. }
  destruct ((p =? 48) || _) eqn:Eo.
  { binv H a s3 E3. left. assert (Hp7 : 48 <= p <= 55) by (rewrite !orb_true_iff, !Z.eqb_eq in Eo; lia). destruct (NX p eq_refl ltac:(lia) ltac:(lia) _ _ E3) as [X1 X2]. unfold handleOctal in H. binv H u s4 E4.
    assert (s4 = s3) by (unfold assert_ in E4; destruct (match rest (cur s1) with [] => _ | _ :: _ => _ end); [injection E4; auto|discriminate]). subst s4.
    apply (ND [] _ _ _ _ s3) in H; [exact H|right; split; [reflexivity|]; rewrite X1; cbn [hd]; apply between_iff; lia| |discriminate].
    exists s2, [p]. split; [rewrite C2; reflexivity|]. split; [exact R2|]. split; [exact X2|]. split; [rewrite C2; exact X1|]. discriminate. }
  do 2 (destruct (_ =? _) in H; [binv H a s3 E3; exfalso; eauto|]).
  do 16 (destruct (_ =? _) in H; [exfalso; eauto|]).
  rewrite <- C2 in H. destruct (unhandled_recorded pol s s2 R2 Hi ltac:(rewrite C2; exact E0) ltac:(rewrite C2; exact L0) (wl 92) s') as [X|[X|X]].
  - rewrite C2, <- Ep. exact Ncr.
  - exact H.
  - left. exact X.
  - right. left. rewrite <- C2. exact X.
  - right. right. left. rewrite C2 in X. exact (unsafe_malformed _ X).
Qed.
End Whole.

Lemma bad_escape_reported : forall pol s s', reachable o input s -> p_scan pol = false -> o_check_issues o = true -> p_issues pol = true ->
  next_wolfram_char o pol s = Ok (wl 92, s') -> recorded s s' \/ exists r, rest (cur s) = 92 :: r /\ silent r.
Proof.
  intros pol s s' R Hp Hc Hi H. unfold next_wolfram_char in H. binv H p s1 E1. pose proof (next_goes _ _ _ _ E1 R) as [R1 _]. destruct (next_read _ _ _ _ R E1) as (Ep & Er & El).
  destruct (Z.eqb_spec p 92) as [E92|N92]; cbn [negb] in H; [|injection H as E _; contradiction]. subst p. rewrite E92 in El.
  assert (E0 : rest (cur s) = 92 :: rest (cur s1)) by (rewrite Er; apply decode_ascii_inv; [exact E92|lia|lia]).
  assert (L0 : loc_previous (ploc (cur s1)) = Ok (ploc (cur s))).
  { rewrite El. change (adv o 92 (ploc (cur s))) with (loc_next (ploc (cur s))). eapply loc_previous_next. apply (reachable_Inv o input s Ht R). }
  binv H m s2 E2. injection E2 as <- <-. binv H p s2 E2. pose proof (peek_goes _ _ _ _ E2) as [G2 C2]. destruct (G2 R1) as [R2 _].
  rewrite !switchl_cons in H. cbn [switchl] in H.
  destruct (existsb _ _) in H; [unfold single in H; binv H a s3 E3; discriminate H|].
  do 2 (destruct (existsb _ _) in H; [binv H a s3 E3; unfold meta_with_issue in H; binv H b s4 E4; discriminate H|]).
  destruct (existsb _ _) in H; [binv H a s3 E3; unfold handleBackslash in H; binv H b s4 E4; discriminate H|].
  rewrite <- C2 in H.
  assert (X : recorded s s' \/ silent (rest (cur s2))).
  { apply (uncommon_recorded pol s s2 R2 Hp); [unfold issues_on; rewrite Hc, Hi; reflexivity|rewrite C2; exact E0|rewrite C2; exact L0|exact H]. }
  destruct X as [X|X]; [left; exact X|]. right. exists (rest (cur s1)). split; [exact E0|]. rewrite <- C2. exact X.
Qed.
End Reading.
