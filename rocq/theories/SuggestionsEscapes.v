(** Suggestions about characters written as escapes, and about characters of the code. *)
From Coq Require Import String ZArith List Bool Lia.
From Verif Require Import Base Source WLChar LongNames GenLongNames GenAscii ByteDecoder CharDecoder Format Decode SpecText SpecReader Iter TextProofs Logic LongNamesProofs WlDecode
  ReaderProofs TokSpecs FormatProofs FormatRound Link Tokenizer Suggestions SpecSuggestions SuggestionsProofs.
Import ListNotations.
Local Open Scope string_scope.
Local Open Scope list_scope.
Local Open Scope Z_scope.

(** ** Characters written as escapes *)

Lemma strange_eq : forall c, 0 <= c -> isStrange c = control c && negb (c =? 27).
Proof.
  intros c Hc. apply Bool.eq_iff_eq_true. unfold isStrange, control, between.
  repeat rewrite ?orb_true_iff, ?andb_true_iff, ?negb_true_iff, ?Z.leb_le, ?Z.eqb_neq, ?Z.eqb_eq. lia.
Qed.
Lemma control_low : forall c, control c = true -> c <= 0x7f.
Proof. intros c H. unfold control, between in H. repeat rewrite ?orb_true_iff, ?andb_true_iff, ?Z.leb_le, ?Z.eqb_eq in H. lia. Qed.

Lemma escaped_known : forall pol (c : wlchar) start fin, 0 <= wc c -> escaped_reported (wc c) = false -> escaped_issue pol c start fin = Ok None.
Proof.
  intros pol c start fin Hc H. unfold escaped_issue. unfold escaped_reported in H.
  assert (S : forall x, isStrange x = true -> isStrangeWhitespace x = existsb (Z.eqb x) [11; 12]) by reflexivity.
  rewrite strange_eq by exact Hc.
  destruct (control (wc c)) eqn:Ec; cbn [andb].
  - destruct (Z.eqb_spec (wc c) 27) as [E|N]; cbn [negb].
    + rewrite E. reflexivity.
    + rewrite unexpected_eq, Ec in H by exact Hc. cbn [orb andb] in H. apply negb_false_iff in H. pose proof (control_low _ Ec) as L.
      unfold isStrangeWhitespace, zin. cbn [existsb] in *. destruct (Z.eqb_spec (wc c) 11); [reflexivity|]. destruct (Z.eqb_spec (wc c) 12); [reflexivity|].
      destruct (Z.eqb_spec (wc c) 27); [contradiction|]. destruct (Z.eqb_spec (wc c) 0xf3a2); [lia|]. discriminate H.
  - destruct (isMBStrange (wc c)) eqn:Em; [|reflexivity]. rewrite unexpected_eq, Ec, Em in H by exact Hc. cbn [orb andb] in H. apply negb_false_iff in H.
    assert (H80 : 0x80 <= wc c).
    { unfold isMBStrange, is_ascii, between in Em. destruct (Z.leb_spec 0 (wc c)); [|lia]. destruct (Z.leb_spec (wc c) 0x7f); [discriminate Em|lia]. }
    cbn [existsb] in H. destruct (Z.eqb_spec (wc c) 11); [lia|]. destruct (Z.eqb_spec (wc c) 12); [lia|]. destruct (Z.eqb_spec (wc c) 27); [lia|].
    destruct (Z.eqb_spec (wc c) 0xf3a2) as [E|]; [rewrite E; reflexivity|discriminate H].
Qed.

Lemma escaped_told : forall pol (c : wlchar) start b fin, okr (safeAndGraphicalString c) -> okr (graphicalString c) -> wesc c <> ENone ->
  0 <= wc c -> loc_previous start = Ok b -> loc_leb b fin = Some true -> escaped_reported (wc c) = true ->
  exists w, escaped_issue pol c start fin = Ok (Some w) /\
    issue_about (wc c) spells UnexpectedCharacter (if p_string pol then Remark else Warning) (mkspan b fin) w /\ offers_plain (wc c) w.
Proof.
  intros pol c start b fin Hs (g & Eg) He Hc Hp Hl H. unfold escaped_reported in H. apply andb_true_iff in H as [Hu Hn]. apply negb_true_iff in Hn.
  cbn [existsb] in Hn. repeat rewrite orb_false_iff, Z.eqb_neq in Hn. destruct Hn as (N1 & N2 & N3 & N4 & _).
  destruct (certain_facts c (mkspan b fin) Hs) as (certain & Ec & F1 & F2).
  assert (M : as_meant_by (wesc c) = spells) by (destruct (wesc c); [contradiction|reflexivity..]). rewrite M in F1, F2.
  destruct (ascii_facts (wc c) (mkspan b fin) spells) as [A1 A2].
  assert (B : forall v, exists w, rbind (loc_previous start) (fun b => rbind (graphicalString c) (fun g => rbind (Span_new b fin) (fun src =>
    rbind (certain_actions c src) (fun certain =>
    Ok (Some (mk_wissue "CodeParser`SyntaxIssue" UnexpectedCharacter (encode (lit "Unexpected character: " ++ ticked g ++ lit "."))
      (if p_string pol then Remark else Warning) (SSpan src) v (certain ++ ascii_actions (wc c) src) [] [])))))) = Ok (Some w) /\
    issue_about (wc c) spells UnexpectedCharacter (if p_string pol then Remark else Warning) (mkspan b fin) w /\ offers_plain (wc c) w).
  { intros v. rewrite Hp, Eg. cbn [rbind]. unfold Span_new. rewrite Hl. cbn [rbind]. rewrite Ec. cbn [rbind]. eexists. split; [reflexivity|]. split.
    - split; [reflexivity|]. split; [reflexivity|]. split; [reflexivity|]. cbn [wi_actions]. split; [apply Forall_app; auto|].
      intros p Hm. destruct (F2 p Hm) as (t & T1 & T2). exists t. split; [exact T1|]. rewrite map_app. apply in_or_app. auto.
    - intros t Ht. cbn [wi_actions]. rewrite map_app. apply in_or_app. right. exact (A2 t Ht). }
  unfold escaped_issue. rewrite strange_eq by exact Hc. rewrite unexpected_eq in Hu by exact Hc.
  destruct (control (wc c)) eqn:Ek; cbn [andb orb] in *.
  - destruct (Z.eqb_spec (wc c) 27); [contradiction|]. cbn [negb]. unfold isStrangeWhitespace, zin. cbn [existsb].
    destruct (Z.eqb_spec (wc c) 11); [contradiction|]. destruct (Z.eqb_spec (wc c) 12); [contradiction|]. cbn [orb]. apply B.
  - rewrite Hu. destruct (isMBStrangeWhitespace (wc c)) eqn:Ew; [apply mb_white in Ew as [_ Ew]; apply Ew in Hu; contradiction|]. apply B.
Qed.

(** what the reader records is the same issue *)
Definition core (w : wissue) : issue := mkissue (wi_tag w) (wi_sev w) (match wi_src w with SSpan sp => sp | _ => mkspan (CharIdx 0) (CharIdx 0) end).
Lemma escaped_recorded : forall o pol (c : wlchar) start b s, o_check_issues o = true -> okr (safeAndGraphicalString c) -> okr (graphicalString c) ->
  loc_previous start = Ok b -> loc_leb b (ploc (cur s)) = Some true ->
  exists r, escaped_issue pol c start (ploc (cur s)) = Ok r /\
    check_strange_syntax_issue o pol (wc c) start s = Ok (tt, mkst (cur s) (match r with Some w => addIssue_log (core w) (lg s) | None => lg s end)).
Proof.
  intros o pol c start b s Hi Hs (g & Eg) Hp Hl. destruct (certain_facts c (mkspan b (ploc (cur s))) Hs) as (certain & Ec & _).
  unfold check_strange_syntax_issue, when_. rewrite Hi. unfold escaped_issue.
  assert (S : s = mkst (cur s) (lg s)) by (destruct s; reflexivity).
  assert (B : forall v, exists r, rbind (loc_previous start) (fun b => rbind (graphicalString c) (fun g => rbind (Span_new b (ploc (cur s))) (fun src =>
    rbind (certain_actions c src) (fun certain =>
    Ok (Some (mk_wissue "CodeParser`SyntaxIssue" UnexpectedCharacter (encode (lit "Unexpected character: " ++ ticked g ++ lit "."))
      (if p_string pol then Remark else Warning) (SSpan src) v (certain ++ ascii_actions (wc c) src) [] [])))))) = Ok r /\
    (e <- get_loc ;; b <- lift (loc_previous start) ;; report UnexpectedCharacter (if p_string pol then Remark else Warning) b e) s =
    Ok (tt, mkst (cur s) (match r with Some w => addIssue_log (core w) (lg s) | None => lg s end))).
  { intros v. rewrite Hp, Eg. cbn [rbind]. unfold Span_new at 1. rewrite Hl. cbn [rbind]. rewrite Ec. cbn [rbind]. eexists. split; [reflexivity|].
    unfold report, get_loc, lift, bind, Span_new, addIssue, modlog. rewrite Hl. reflexivity. }
  destruct (isStrange (wc c)).
  - destruct (isStrangeWhitespace (wc c)); [|apply B]. eexists. split; [reflexivity|]. rewrite S at 1. reflexivity.
  - destruct (isMBStrange (wc c)); [|eexists; split; [reflexivity|]; rewrite S at 1; reflexivity].
    destruct (isMBStrangeWhitespace (wc c)); [|apply B]. eexists. split; [reflexivity|]. rewrite S at 1. reflexivity.
Qed.

(** ** Characters of the code *)
Lemma in_code : forall (c : wlchar) charLoc tag conf s, okr (safeAndGraphicalString c) -> okr (graphicalString c) -> loc_leb charLoc (ploc (cur s)) = Some true ->
  In tag [UnexpectedSpaceCharacter; UnexpectedLetterlikeCharacter; UnexpectedNewlineCharacter] ->
  let sp := mkspan charLoc (ploc (cur s)) in
  exists w, unexpected_char_issue c sp tag conf = Ok w /\ issue_about (wc c) (as_meant_by (wesc c)) tag Warning sp w /\
    add_unexpected_char_issue c charLoc tag s = Ok (tt, mkst (cur s) (addIssue_log (core w) (lg s))).
Proof.
  intros c charLoc tag conf s Hs (g & Eg) Hl Ht sp. destruct (certain_facts c sp Hs) as (certain & Ec & F1 & F2). destruct Hs as (safe & Es).
  assert (K : okr (certainCharacterReplacementActions c)).
  { unfold certainCharacterReplacementActions. rewrite Es.
    assert (O : forall p, is_char p = true -> okr (rbind (Ok safe) (fun _ => rmap (fun _ => tt) (safeAndGraphicalString (wl p))))).
    { intros p Hp. cbn [rbind]. destruct (safe_ok (wl p) I Hp) as [y ->]. apply okr_Ok. }
    cbn [switchl]. repeat (destruct (existsb _ _); [apply O; reflexivity|]). apply okr_Ok. }
  destruct K as (u & Ek).
  unfold unexpected_char_issue, add_unexpected_char_issue. rewrite Ec. cbn [rbind].
  unfold bind, get_loc, lift, Span_new, assert_, addIssue, modlog. rewrite Hl, Ek.
  destruct Ht as [<-|[<-|[<-|[]]]]; rewrite ?Es, ?Eg; cbn [rbind]; eexists; (split; [reflexivity|]); (split; [|reflexivity]);
    (split; [reflexivity|]); (split; [reflexivity|]); (split; [reflexivity|]); cbn [wi_actions]; auto.
Qed.

(** ** The reader ends an escape by that check *)
Definition ends (o : opts) (pol : policy) (m : pos) (c : wlchar) (s' : st) : Prop :=
  (by_name (wesc c) = true -> p_issues pol = true) -> by_name (wesc c) || by_number (wesc c) = true ->
  exists s2, check_strange_syntax_issue o pol (wc c) (ploc m) s2 = Ok (tt, s').

Lemma bind_inv : forall A B (m : M A) (f : A -> M B) s b s', bind m f s = Ok (b, s') -> exists a s1, m s = Ok (a, s1) /\ f a s1 = Ok (b, s').
Proof. intros A B m f s b s' H. unfold bind in H. destruct (m s) as [[a s1]| |]; try discriminate. eauto. Qed.
Ltac binv H a s E := apply bind_inv in H as (a & s & E & H).
Ltac plain H := injection H as <- <-; intros ? HH; discriminate HH.

Lemma single_ends : forall o pol p m s c s', single o pol p s = Ok (c, s') -> ends o pol m c s'.
Proof. intros o pol p m s c s' H. unfold single in H. binv H a s1 E. plain H. Qed.
Lemma meta_ends : forall o pol m e p s c s', meta_with_issue o e p s = Ok (c, s') -> ends o pol m c s'.
Proof. intros o pol m e p s c s' H. unfold meta_with_issue in H. binv H a s1 E. plain H. Qed.
Lemma fail_ends : forall o pol m s c s', digits_fail o m pol s = Ok (c, s') -> ends o pol m c s'.
Proof. intros o pol m s c s' H. unfold digits_fail in H. binv H a s1 E. binv H a1 s2 E1. plain H. Qed.
Lemma finish_ends : forall o pol m v e s c s', finish_digits o m pol v e s = Ok (c, s') -> ends o pol m c s'.
Proof.
  intros o pol m v e s c s' H. unfold finish_digits in H. binv H a s1 E. cbv zeta in H. binv H a2 s2 E2. destruct a2.
  injection H as <- <-. intros _ _. cbn [wc]. eauto.
Qed.
Lemma backslash_ends : forall o pol m s c s', handleBackslash o pol s = Ok (c, s') -> ends o pol m c s'.
Proof. intros o pol m s c s' H. unfold handleBackslash in H. binv H a s1 E. plain H. Qed.
Lemma unhandled_ends : forall o pol m s c s', handleUnhandledEscape o m pol s = Ok (c, s') -> ends o pol m c s'.
Proof.
  intros o pol m s c s' H. unfold handleUnhandledEscape in H. binv H a s1 E. binv H a2 s2 E2. binv H a3 s3 E3. binv H a4 s4 E4. plain H.
Qed.
Lemma digits_ends : forall o pol m n isd v e s c s',
  (good <- read_digits o n isd pol ;; if negb good then digits_fail o m pol else finish_digits o m pol v e) s = Ok (c, s') -> ends o pol m c s'.
Proof.
  intros o pol m n isd v e s c s' H. binv H good s1 E. destruct good; cbn [negb] in H; eauto using fail_ends, finish_ends.
Qed.
Lemma name_ends : forall o pol m s c s', o_check_issues o = true -> handleLongName o m pol s = Ok (c, s') -> ends o pol m c s'.
Proof.
  intros o pol m s c s' Hi H. unfold handleLongName in H. binv H a s1 E1. binv H start s2 E2. binv H c0 s3 E3. binv H wf s4 E4.
  destruct wf; cbn [negb] in H.
  2:{ binv H a5 s5 E5. binv H a6 s6 E6. plain H. }
  binv H fin s5 E5. cbv zeta in H. destruct (longname_to_codepoint _) as [p|].
  2:{ binv H a6 s6 E6. binv H a7 s7 E7. plain H. }
  binv H a6 s6 E6. binv H a7 s7 E7. destruct a7. injection H as <- <-. intros Hp _. cbn [wc].
  assert (B : forall b : bool, by_name (if b then ERaw else ELongName) = true) by (intros []; reflexivity).
  unfold issues_on, when_ in E7. rewrite Hi, (Hp (B _)) in E7. cbn [andb] in E7. eauto.
Qed.

Lemma uncommon_ends : forall o pol m s c s', o_check_issues o = true -> handleUncommon o m pol s = Ok (c, s') -> ends o pol m c s'.
Proof.
  intros o pol m s c s' Hi H. unfold handleUncommon in H. binv H p s1 E. rewrite !switchl_cons in H. cbn [switchl] in H.
  do 3 (destruct (existsb _ _) in H; [eauto using single_ends|]).
  destruct (existsb _ _) in H; [binv H a s2 E2; eauto using name_ends|].
  destruct (existsb _ _) in H; [binv H a s2 E2; unfold handle4Hex in H; binv H a3 s3 E3; binv H a4 s4 E4; eauto using digits_ends|].
  destruct (existsb _ _) in H; [binv H a s2 E2; unfold handle2Hex in H; binv H a3 s3 E3; binv H a4 s4 E4; eauto using digits_ends|].
  destruct (existsb _ _) in H.
  { binv H a s2 E2. unfold handle6Hex in H. binv H a3 s3 E3. binv H a4 s4 E4. binv H good s5 E5. destruct good; cbn [negb] in H; [|eauto using fail_ends].
    cbv zeta in H. destruct (_ <? _) in H; [|eauto using finish_ends]. binv H a6 s6 E6. plain H. }
  destruct (existsb _ _) in H; [binv H a s2 E2; unfold handleOctal in H; binv H a3 s3 E3; eauto using digits_ends|].
  do 2 (destruct (existsb _ _) in H; [binv H a s2 E2; eauto using meta_ends|]).
  do 16 (destruct (existsb _ _) in H; [eauto using single_ends|]).
  eauto using unhandled_ends.
Qed.

Lemma escape_ends : forall o pol s c s', Inv o s -> o_check_issues o = true -> next_wolfram_char o pol s = Ok (c, s') -> wesc c <> ENone ->
  exists m, loc_previous (ploc m) = Ok (ploc (cur s)) /\ ends o pol m c s'.
Proof.
  intros o pol s c s' HI Hi H Hn. unfold next_wolfram_char in H. binv H p s1 E.
  destruct (Z.eqb_spec p 92) as [E92|N92]; cbn [negb] in H; [|injection H as <- <-; contradiction Hn; reflexivity].
  binv H m s2 E2. injection E2 as <- <-. exists (cur s1). split.
  - subst p. pose proof (wp_next_src False o pol s HI) as W. unfold wpr in W. rewrite E in W. destruct W as (_ & _ & _ & _ & Hl & _).
    rewrite Hl. change (adv o 92 (ploc (cur s))) with (loc_next (ploc (cur s))). eapply loc_previous_next. apply HI.
  - binv H p2 s3 E3. rewrite !switchl_cons in H. cbn [switchl] in H.
    destruct (existsb _ _) in H; [eauto using single_ends|].
    do 2 (destruct (existsb _ _) in H; [binv H a s4 E4; eauto using meta_ends|]).
    destruct (existsb _ _) in H; [binv H a s4 E4; eauto using backslash_ends|].
    eauto using uncommon_ends.
Qed.

Lemma recorded_in : forall i g, i_sev i <> Fatal -> In i (l_nonfatal (addIssue_log i g)).
Proof.
  intros i g H. unfold addIssue_log. destruct (i_sev i); try contradiction; destruct (issue_mem i (l_nonfatal g)) eqn:E;
    try (apply issue_mem_In; exact E); cbn [l_nonfatal]; apply in_or_app; right; left; reflexivity.
Qed.

Lemma escape_reported : forall o pol s c s', Inv o s -> p_scan pol = false -> o_check_issues o = true -> next_wolfram_char o pol s = Ok (c, s') ->
  (by_name (wesc c) = true -> p_issues pol = true) -> by_name (wesc c) || by_number (wesc c) = true -> 0 <= wc c ->
  let sp := mkspan (ploc (cur s)) (ploc (cur s')) in let sev := if p_string pol then Remark else Warning in
  exists start, loc_previous start = Ok (ploc (cur s)) /\
  if escaped_reported (wc c) then In (mkissue UnexpectedCharacter sev sp) (l_nonfatal (lg s')) /\
    exists w, escaped_issue pol c start (ploc (cur s')) = Ok (Some w) /\ issue_about (wc c) spells UnexpectedCharacter sev sp w /\ offers_plain (wc c) w
  else escaped_issue pol c start (ploc (cur s')) = Ok None.
Proof.
  intros o pol s c s' HI Hp Hi H Hn Hb Hc sp sev.
  assert (N : wesc c <> ENone) by (intros E; rewrite E in Hb; discriminate Hb).
  destruct (escape_ends o pol s c s' HI Hi H N) as (m & Hm & K). exists (ploc m). split; [exact Hm|].
  destruct (read_prints o pol s c s' HI Hp H Hc) as (_ & G & S). destruct (K Hn Hb) as (s2 & E2).
  destruct (escaped_reported (wc c)) eqn:Er; [|apply escaped_known; assumption].
  assert (C : ploc (cur s2) = ploc (cur s')).
  { unfold check_strange_syntax_issue, when_ in E2. rewrite Hi in E2.
    destruct (isStrange (wc c)); [destruct (isStrangeWhitespace (wc c))|destruct (isMBStrange (wc c)); [destruct (isMBStrangeWhitespace (wc c))|]];
      try (injection E2 as <-; reflexivity);
      unfold get_loc, lift, bind, report, addIssue, modlog in E2; rewrite Hm in E2; unfold lift, bind in E2; destruct (Span_new _ _); try discriminate E2; injection E2 as <-; reflexivity. }
  assert (L : loc_leb (ploc (cur s)) (ploc (cur s')) = Some true).
  { pose proof (next_wolfram_run o pol s HI Hp) as W. destruct (wld (rest (cur s))) as [[c1 r1]|]; [|congruence].
    destruct W as (s1 & E1 & _ & _ & W). rewrite H in E1. injection E1 as <- <-. eapply R_leb; eauto. }
  destruct (escaped_told pol c (ploc m) (ploc (cur s)) (ploc (cur s')) S G N Hc Hm L Er) as (w & W1 & W2 & W3). split; [|eauto].
  destruct (escaped_recorded o pol c (ploc m) (ploc (cur s)) s2 Hi S G Hm) as (r & R1 & R2); [rewrite C; exact L|].
  rewrite C, W1 in R1. injection R1 as <-. rewrite E2 in R2. injection R2 as ->. cbn [lg].
  destruct W2 as (T1 & T2 & T3 & _). unfold core. rewrite T1, T2, T3. apply recorded_in. cbn [i_sev]. unfold sev. destruct (p_string pol); discriminate.
Qed.
