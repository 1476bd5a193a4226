(** Characters beyond ASCII, however they are written, as specified in SpecLex.v. *)
From Coq Require Import String ZArith List Bool Lia.
From Verif Require Import Base Source WLChar GenTokenKind GenLongNames LongNames ByteDecoder CharDecoder TokenKind Format Tokenizer SpecText SpecReader SpecTokenizer SpecLex
  LongNamesProofs Decode Iter TextProofs Logic WlDecode ReaderProofs FormatProofs TokLogic TokenizerProofs TokenLoop TokSim TokSpecs TokResults ReparseProofs LexProofs.
Import ListNotations.
Local Open Scope Z_scope.

(** ** Characters that are tokens by themselves *)
Lemma number_snoc_digit : forall p, 128 <= p -> meaning p = p.
Proof. intros p H. unfold meaning. destruct (Z.eqb_spec p 34); [lia|]. destruct (Z.eqb_spec p 92); [lia|]. reflexivity. Qed.

Lemma wld_spelling : forall p w e, scalar p -> 128 <= p -> p <> BOM_CHAR -> spelling p w -> exists x, wld (w ++ e) = Some (mkwl p x, e).
Proof.
  intros p w e S G B H. assert (Esc : forall bs x, escape_spec bs (mkwl p x) e -> exists x, wld (92 :: bs) = Some (mkwl p x, e)).
  { intros bs x E. exists x. rewrite wld_backslash, (escape_spec_at _ _ _ E). reflexivity. }
  pose proof (number_snoc_digit p G) as Mp. destruct H as [|name H|ds H E|ds H E|ds H E|ds H E]; cbn [app].
  - exists (wesc (wl 0)). unfold wld. pose proof (decode_scalar p e S B ltac:(lia)) as D. rewrite D. unfold good_. cbn [dchar drest fst snd]. destruct (Z.eqb_spec p 92); [lia|]. reflexivity.
  - rewrite <- app_assoc. eapply Esc. apply es_name. exact H.
  - eapply Esc. rewrite <- Mp, <- E. apply es_hex2. exact H.
  - eapply Esc. rewrite <- Mp, <- E. apply es_hex4; auto. rewrite E. exact S.
  - eapply Esc. rewrite <- Mp, <- E. apply es_hex6; auto. rewrite E. exact S.
  - eapply Esc. rewrite <- Mp, <- E. apply es_octal. exact H.
Qed.
Lemma twl_spelling : forall p w e, scalar p -> 128 <= p -> p <> BOM_CHAR -> spelling p w -> exists x, twl (w ++ e) = Some (mkwl p x, e).
Proof.
  intros p w e S G B H. destruct (wld_spelling p w e S G B H) as [x E]. exists x. unfold twl. rewrite twf_unfold, E. cbn [wc andb]. rewrite orb_false_r.
  assert (X : is_line_continuation p = false) by (unfold is_line_continuation, LineContinuation_LineFeed; apply andb_false_iff; left; apply Z.leb_gt; lia). rewrite X. reflexivity.
Qed.

(** Which handler a registered character goes to; checked over the whole table. *)
Definition stand_alone (p : Z) : bool := (128 <=? p) && (between 0 p 0xD7FF || between 0xE000 p 0x10FFFF) && negb (p =? BOM_CHAR).
Definition uncommon (p : Z) : bool :=
  negb (existsb (Z.eqb p) [LS_BANG; LS_OPENPAREN]) && negb (isMBLinearSyntax p).
Definition as_operator (k p : Z) : bool := uncommon p && negb (isMBUninterpretable p) && negb (isMBStrangeWhitespace p) && negb (isMBWhitespace p) && negb (isMBStrangeNewline p) && negb (isMBNewline p) &&
  isMBPunctuation p && match LongNameCodePointToOperator p with Ok k' => k' =? k | _ => false end.
Definition as_blank (p : Z) : bool := uncommon p && negb (isMBUninterpretable p) && isMBStrangeWhitespace p.
Definition as_break (p : Z) : bool := uncommon p && negb (isMBUninterpretable p) && negb (isMBStrangeWhitespace p) && negb (isMBWhitespace p) && isMBStrangeNewline p.
Definition as_unhandled (p : Z) : bool := uncommon p && isMBUninterpretable p.

Definition long_prefix := bytes_of_string "LongName_".
Definition named_entry (kinds : list (Z * list Z)) (e : list Z * Z) : bool :=
  forallb (fun ks => if zlist_eqb (snd ks) (long_prefix ++ fst e) then stand_alone (snd e) && as_operator (fst ks) (snd e) else true) kinds &&
  (if existsb (zlist_eqb (fst e)) blank_names then stand_alone (snd e) && as_blank (snd e) else true) &&
  (if existsb (zlist_eqb (fst e)) line_break_names then stand_alone (snd e) && as_break (snd e) else true) &&
  (if existsb (zlist_eqb (fst e)) unhandled_names then stand_alone (snd e) && as_unhandled (snd e) else true).
Definition kind_names := map (fun ks => (fst ks, bytes_of_string (snd ks))) KINDS.
Lemma named_entries : forallb (named_entry kind_names) LN_TABLE = true.
Proof. vm_compute. reflexivity. Qed.

Lemma zlist_eqb_refl : forall l, zlist_eqb l l = true.
Proof. intros l. apply zlist_eqb_eq. reflexivity. Qed.
Lemma named_case : forall b name p k, In (name, p) LN_TABLE -> named_kind b name k -> stand_alone p = true /\
  (as_operator k p = true \/ as_blank p = true /\ k = TK_Whitespace \/ as_break p = true /\ k = b \/ as_unhandled p = true /\ k = TK_Error_UnhandledCharacter).
Proof.
  intros b name p k HIn H. pose proof (proj1 (forallb_forall _ _) named_entries _ HIn) as F. unfold named_entry in F. cbn [fst snd] in F.
  apply andb_prop in F as [F F4]. apply andb_prop in F as [F F3]. apply andb_prop in F as [F1 F2].
  assert (Ex : forall l, In name l -> existsb (zlist_eqb name) l = true) by (intros l Hl; apply existsb_exists; exists name; split; auto; apply zlist_eqb_refl).
  destruct H as [k s Hk E|H|H|H].
  - assert (Hk' : In (k, bytes_of_string s) kind_names) by (unfold kind_names; apply in_map_iff; exists (k, s); auto).
    pose proof (proj1 (forallb_forall _ _) F1 _ Hk') as G. cbn [fst snd] in G. unfold long_prefix in G. rewrite E, zlist_eqb_refl in G. apply andb_prop in G as [G1 G2]. auto.
  - rewrite (Ex _ H) in F2. apply andb_prop in F2 as [G1 G2]. auto 6.
  - rewrite (Ex _ H) in F3. apply andb_prop in F3 as [G1 G2]. auto 8.
  - rewrite (Ex _ H) in F4. apply andb_prop in F4 as [G1 G2]. auto 8.
Qed.

Ltac small E := unfold zin, EndOfFile, isMBLinearSyntax, Unsafe1Byte, Unsafe2Byte, Unsafe3Byte, LS_BANG, LS_OPENPAREN in E; cbn [existsb] in E;
  repeat (apply orb_prop in E as [E|E]); try discriminate; (apply Z.eqb_eq in E || apply between_iff in E); lia.
Lemma nextToken_spelled : forall o pol s name p k w e, Inv o s -> p_scan pol = false -> In (name, p) LN_TABLE -> named_kind (newline_with_policy pol) name k -> spelling p w ->
  rest (cur s) = w ++ e -> po (nextToken o pol) s (fun t _ => t_kind t = k /\ t_text t = w).
Proof.
  intros o pol s name p k w e HI Hp HIn Hk Hw R. destruct (named_case _ _ _ _ HIn Hk) as [St Hc]. unfold stand_alone in St. apply andb_prop in St as [St S3]. apply andb_prop in St as [S1 S2].
  apply Z.leb_le in S1. apply negb_true_iff, Z.eqb_neq in S3.
  assert (Sc : scalar p) by (unfold scalar; apply orb_prop in S2 as [S2|S2]; apply between_iff in S2; lia).
  destruct (twl_spelling p w e Sc S1 S3 Hw) as [x Tw]. unfold nextToken. apply po_mark. apply (po_nextWL o); auto. intros c s1 I1 E1. rewrite R, Tw in E1. injection E1 as <- E1.
  assert (Tok : forall k', k' = k -> po (mk_token k' (cur s)) s1 (fun t _ => t_kind t = k /\ t_text t = w)).
  { intros k' ->. apply po_mk_token. intros t T1 T2 _. split; auto. rewrite T2, R, <- E1. apply buf_between_app. }
  unfold dispatch. cbv zeta. cbn [wc]. assert (A : between 0 p 127 = false) by (destruct (between_spec 0 p 127); auto; lia). rewrite A. cbn [negb]. unfold nextToken_uncommon. cbv zeta. cbn [wc].
  repeat match goal with |- po (if ?c then _ else _) _ _ => destruct c eqn:E; [exfalso; small E|clear E] end.
  assert (U : (p =? LS_BANG) = false /\ (p =? LS_OPENPAREN) = false /\ isMBLinearSyntax p = false).
  { assert (U : uncommon p = true).
    { destruct Hc as [Hc|[(Hc & _)|[(Hc & _)|(Hc & _)]]]; unfold as_operator, as_blank, as_break, as_unhandled in Hc; repeat match type of Hc with (_ && _) = true => apply andb_prop in Hc as [Hc _] end; exact Hc. }
    unfold uncommon in U. apply andb_prop in U as [U1 U2]. apply negb_true_iff in U1, U2. cbn [existsb] in U1. apply orb_false_elim in U1 as [U1 U3]. apply orb_false_elim in U3 as [U3 _]. auto. }
  destruct U as (-> & -> & ->).
  destruct Hc as [Hc|[(Hc & Ek)|[(Hc & Ek)|(Hc & Ek)]]].
  - unfold as_operator in Hc. repeat match goal with H : (_ && _) = true |- _ => apply andb_prop in H as [? ?] end.
    repeat match goal with H : negb ?c = true |- _ => apply negb_true_iff in H; try rewrite H end. match goal with H : isMBPunctuation p = true |- _ => rewrite H end. unfold handleMBPunctuation. apply po_assert. intros _. apply po_assert. intros _.
    cbn [wc]. destruct (LongNameCodePointToOperator p) as [k'| |]; try discriminate. match goal with H : (k' =? k) = true |- _ => apply Z.eqb_eq in H end. apply po_bind. unfold po at 1, lift. apply Tok. auto.
  - unfold as_blank in Hc. repeat match goal with H : (_ && _) = true |- _ => apply andb_prop in H as [? ?] end. repeat match goal with H : negb ?c = true |- _ => apply negb_true_iff in H; try rewrite H end. match goal with H : isMBStrangeWhitespace p = true |- _ => rewrite H end.
    unfold handleMBStrangeWhitespace. apply po_assert. intros _. apply (po_inert o); [solve [inert]|exact I1|]. intros _ s2 I2 C2. apply po_mk_token. intros t T1 T2 _. split; [congruence|]. rewrite T2, R, C2, <- E1. apply buf_between_app.
  - unfold as_break in Hc. repeat match goal with H : (_ && _) = true |- _ => apply andb_prop in H as [? ?] end. repeat match goal with H : negb ?c = true |- _ => apply negb_true_iff in H; try rewrite H end. match goal with H : isMBStrangeNewline p = true |- _ => rewrite H end.
    unfold handleMBStrangeNewline. apply po_assert. intros _. apply (po_inert o); [solve [inert]|exact I1|]. intros _ s2 I2 C2. apply po_mk_token. intros t T1 T2 _. split; [congruence|]. rewrite T2, R, C2, <- E1. apply buf_between_app.
  - unfold as_unhandled in Hc. apply andb_prop in Hc as [_ ->]. apply Tok. auto.
Qed.

(** ** Letters beyond ASCII *)
Definition known (l : list Z) : bool := forallb (fun p => (p <? 128) || existsb (fun e : list Z * Z => if snd e =? p then
  existsb (fun ks => zlist_eqb (snd ks) (long_prefix ++ fst e)) kind_names || existsb (zlist_eqb (fst e)) (blank_names ++ line_break_names ++ unhandled_names) else false) LN_TABLE) l.
Lemma all_known : known (MB_PUNCTUATION ++ MB_WHITESPACE ++ MB_NEWLINE ++ MB_UNINTERPRETABLE ++ [CP_LONGNAME_COMPATIBILITYNOBREAK]) = true.
Proof. vm_compute. reflexivity. Qed.
Lemma known_alone : forall p, 128 <= p -> In p (MB_PUNCTUATION ++ MB_WHITESPACE ++ MB_NEWLINE ++ MB_UNINTERPRETABLE ++ [CP_LONGNAME_COMPATIBILITYNOBREAK]) -> stands_alone p.
Proof.
  intros p H HIn. pose proof (proj1 (forallb_forall _ _) all_known _ HIn) as F. cbv beta in F. apply orb_prop in F as [F|F]; [apply Z.ltb_lt in F; lia|].
  apply existsb_exists in F as ((name & q) & Hn & F). cbn [fst snd] in F. destruct (Z.eqb_spec q p) as [->|]; [|discriminate]. rename F into F2. exists name.
  assert (Ex : forall l, existsb (zlist_eqb name) l = true -> In name l) by (intros l X; apply existsb_exists in X as (y & Hy & E); apply zlist_eqb_eq in E; subst y; exact Hy).
  apply orb_prop in F2 as [F2|F2].
  - apply existsb_exists in F2 as ((k & b) & Hk & E). cbn [snd] in E. apply zlist_eqb_eq in E. subst b. unfold kind_names in Hk. apply in_map_iff in Hk as ((k' & s) & E & Hk). cbn [fst snd] in E. injection E as -> E.
    exists k. split; auto. eapply nk_operator; eauto.
  - apply Ex in F2. apply in_app_or in F2 as [F2|F2]; [eexists; split; [eauto|apply nk_blank; auto]|]. apply in_app_or in F2 as [F2|F2]; eexists; split; eauto; [apply nk_line_break; auto|apply nk_unhandled; auto].
Qed.

Lemma wide_letterlike : forall p, wide_letter p -> isMBLetterlike p = true.
Proof.
  intros p (S & G & B & Nb & Na). assert (N : forall l, (forall q, In q l -> In q (MB_PUNCTUATION ++ MB_WHITESPACE ++ MB_NEWLINE ++ MB_UNINTERPRETABLE ++ [CP_LONGNAME_COMPATIBILITYNOBREAK])) -> ~ In p l).
  { intros l Hl X. apply Na, known_alone; auto. }
  assert (T : forall l, zsorted l = true -> ~ In p l -> table_mem l p = false).
  { intros l Sl X. destruct (table_mem l p) eqn:E; auto. apply table_mem_In in E; auto. contradiction. }
  assert (Z0 : forall l, (forall q, In q l -> q < 128 \/ In q box_characters) -> zin p l = false).
  { intros l Hl. unfold zin. destruct (existsb (Z.eqb p) l) eqn:E; auto. apply existsb_exists in E as (q & Hq & E). apply Z.eqb_eq in E. subst q. destruct (Hl _ Hq); [lia|contradiction]. }
  assert (Sub : (forall q, In q MB_PUNCTUATION -> In q (MB_PUNCTUATION ++ MB_WHITESPACE ++ MB_NEWLINE ++ MB_UNINTERPRETABLE ++ [CP_LONGNAME_COMPATIBILITYNOBREAK])) /\
     (forall q, In q MB_WHITESPACE -> In q (MB_PUNCTUATION ++ MB_WHITESPACE ++ MB_NEWLINE ++ MB_UNINTERPRETABLE ++ [CP_LONGNAME_COMPATIBILITYNOBREAK])) /\
     (forall q, In q MB_NEWLINE -> In q (MB_PUNCTUATION ++ MB_WHITESPACE ++ MB_NEWLINE ++ MB_UNINTERPRETABLE ++ [CP_LONGNAME_COMPATIBILITYNOBREAK])) /\
     (forall q, In q MB_UNINTERPRETABLE -> In q (MB_PUNCTUATION ++ MB_WHITESPACE ++ MB_NEWLINE ++ MB_UNINTERPRETABLE ++ [CP_LONGNAME_COMPATIBILITYNOBREAK])) /\
     (forall q, In q [CP_LONGNAME_COMPATIBILITYNOBREAK] -> In q (MB_PUNCTUATION ++ MB_WHITESPACE ++ MB_NEWLINE ++ MB_UNINTERPRETABLE ++ [CP_LONGNAME_COMPATIBILITYNOBREAK]))).
  { repeat split; intros q Hq; repeat (apply in_or_app; first [left; exact Hq|right]); exact Hq. }
  destruct Sub as (B1 & B2 & B3 & B4 & B5).
  unfold isMBLetterlike, is_ascii, isMBPunctuation, isMBLineContinuation, isMBLinearSyntax, isMBStringMeta, isMBWhitespace, isMBNewline, isMBUninterpretable, isMBUnsafeUTF8Sequence,
    ln_isMBPunctuation, ln_isMBWhitespace, ln_isMBNewline, ln_isMBUninterpretable.
  assert (Sorted : zsorted MB_PUNCTUATION = true /\ zsorted MB_WHITESPACE = true /\ zsorted MB_NEWLINE = true /\ zsorted MB_UNINTERPRETABLE = true) by (repeat split; vm_compute; reflexivity).
  destruct Sorted as (O1 & O2 & O3 & O4).
  rewrite (T _ O1 (N _ B1)), (T _ O2 (N _ B2)), (T _ O3 (N _ B3)), (T _ O4 (N _ B4)), !andb_false_r.
  rewrite !Z0.
  - assert (X1 : between 0 p 127 = false) by (destruct (between_spec 0 p 127); auto; lia). rewrite X1.
    assert (X2 : (p =? EndOfFile) = false /\ (p =? CRLF) = false) by (split; apply Z.eqb_neq; unfold EndOfFile, CRLF; lia). destruct X2 as [-> ->].
    assert (X3 : (p =? CP_LONGNAME_COMPATIBILITYNOBREAK) = false) by (apply Z.eqb_neq; intros ->; apply (N _ B5); left; reflexivity). rewrite X3. reflexivity.
  - intros q Hq. left. cbn in Hq. unfold Unsafe1Byte, Unsafe2Byte, Unsafe3Byte in Hq. lia.
  - intros q Hq. left. cbn in Hq. unfold StringMeta_Open, StringMeta_Close, StringMeta_Backslash, StringMeta_DoubleQuote, StringMeta_Backspace, StringMeta_FormFeed, StringMeta_LineFeed, StringMeta_CarriageReturn, StringMeta_Tab in Hq. lia.
  - intros q Hq. cbn [In] in Hq. unfold LinearSyntax_Space in Hq. repeat (destruct Hq as [<-|Hq]; [first [left; lia|right; vm_compute; tauto]|]). contradiction.
  - intros q Hq. left. cbn in Hq. unfold LineContinuation_LineFeed, LineContinuation_CarriageReturn, LineContinuation_CRLF in Hq. lia.
Qed.

Lemma alone_case : forall p, stands_alone p -> scalar p /\ 128 <= p /\ p <> BOM_CHAR /\ letterlike p = false.
Proof.
  intros p (name & k & HIn & Hk). destruct (named_case _ _ _ _ HIn Hk) as [St Hc]. unfold stand_alone in St. apply andb_prop in St as [St S3]. apply andb_prop in St as [S1 S2].
  apply Z.leb_le in S1. apply negb_true_iff, Z.eqb_neq in S3. split; [unfold scalar; apply orb_prop in S2 as [S2|S2]; apply between_iff in S2; lia|]. split; auto. split; auto.
  unfold letterlike, isLetterlike, isMBLetterlike.
  assert (Sm : between 65 p 90 || between 97 p 122 || (p =? 36) || between 0 p 6 || (p =? 8) || between 14 p 31 = false).
  { destruct (between_spec 65 p 90); [lia|]. destruct (between_spec 97 p 122); [lia|]. destruct (Z.eqb_spec p 36); [lia|]. destruct (between_spec 0 p 6); [lia|]. destruct (Z.eqb_spec p 8); [lia|]. destruct (between_spec 14 p 31); [lia|]. reflexivity. }
  rewrite Sm. cbn [orb].
  destruct Hc as [Hc|[(Hc & _)|[(Hc & _)|(Hc & _)]]]; unfold as_operator, as_blank, as_break, as_unhandled, isMBStrangeNewline, isMBStrangeWhitespace in Hc; repeat match goal with H : (_ && _) = true |- _ => apply andb_prop in H as [? ?] end;
    repeat match goal with H : ?c p = true |- context [?c p] => rewrite H end; cbn [negb]; rewrite ?andb_false_r; reflexivity.
Qed.

(** A wide letter starts a name. *)
Lemma dispatch_wide : forall o s c pol, 128 <= wc c -> isMBLetterlike (wc c) = true -> (forall b, In b box_characters -> wc c <> b) -> dispatch o s c pol = bind (assert_ (isMBLetterlike (wc c))) (fun _ => handleSymbol o s c pol).
Proof.
  intros o s c pol G L Nb. unfold dispatch. cbv zeta. assert (A : between 0 (wc c) 127 = false) by (destruct (between_spec 0 (wc c) 127); auto; lia). rewrite A. cbn [negb]. unfold nextToken_uncommon. cbv zeta.
  pose proof L as L'. unfold isMBLetterlike in L'. repeat match goal with H : (_ && _) = true |- _ => apply andb_prop in H as [? ?] end. repeat match goal with H : negb _ = true |- _ => apply negb_true_iff in H end.
  set (p := wc c) in *. repeat match goal with |- (if ?x then _ else _) = _ => destruct x eqn:E; [exfalso; small E|clear E] end.
  assert (LS : (p =? LS_BANG) = false /\ (p =? LS_OPENPAREN) = false) by (split; apply Z.eqb_neq; apply Nb; vm_compute; tauto). destruct LS as [-> ->].
  unfold isMBStrangeWhitespace, isMBStrangeNewline.
  repeat match goal with H : ?c p = false |- _ => rewrite H; clear H end. cbn [andb]. rewrite L. reflexivity.
Qed.
