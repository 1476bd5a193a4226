(** Tags and file names, as specified in SpecFiles.v. *)
From Coq Require Import String ZArith List Bool Lia.
From Verif Require Import Base Source WLChar GenTokenKind GenLongNames LongNames ByteDecoder CharDecoder TokenKind Format Tokenizer SpecText SpecReader SpecTokenizer SpecLex SpecFiles
  LongNamesProofs Decode Iter TextProofs Logic WlDecode FormatProofs TokLogic TokenizerProofs TokenLoop TokSim TokSpecs TokAgree TokResults ReparseProofs LexProofs LexChars LexSymbols LexNumbers LexMore LexResults.
Import ListNotations.
Local Open Scope Z_scope.

(** ** Characters *)
Lemma file_byte_range : forall b, file_byte b -> 33 <= b < 128 /\ b <> 91 /\ b <> 93 /\ b <> 34 /\ b <> 36.
Proof. intros b [H|[H|[H|H]]]; unfold digit_byte in *; try lia. cbn in H. lia. Qed.
Lemma file_char_iff : forall b, file_char b = true <-> file_byte b.
Proof.
  intros b. unfold file_char, isAlphaOrDigit, file_byte, digit_byte. rewrite !orb_true_iff, !between_iff. unfold zin. rewrite existsb_exists. split.
  - intros [[[H|H]|H]|(x & Hx & E)]; auto. apply Z.eqb_eq in E. subst x. right. right. right. exact Hx.
  - intros [H|[H|[H|H]]]; auto. right. exists b. split; [exact H|apply Z.eqb_refl].
Qed.
Lemma blank_names_mb : forallb (fun e : list Z * Z => if existsb (zlist_eqb (fst e)) (blank_names ++ line_break_names) then isMBWhitespace (snd e) || isMBNewline (snd e) else true) LN_TABLE = true.
Proof. vm_compute. reflexivity. Qed.
Lemma mb_named : forallb (fun p => (p <? 0) || existsb (fun e : list Z * Z => if snd e =? p then existsb (zlist_eqb (fst e)) (blank_names ++ line_break_names) else false) LN_TABLE)
  (MB_WHITESPACE ++ MB_NEWLINE ++ [CP_LONGNAME_COMPATIBILITYNOBREAK]) = true.
Proof. vm_compute. reflexivity. Qed.
Lemma in_existsb : forall (n : list Z) l, existsb (zlist_eqb n) l = true <-> In n l.
Proof.
  intros n l. rewrite existsb_exists. split; [intros (x & Hx & E); apply zlist_eqb_eq in E; subst x; exact Hx|]. intros H. exists n. split; auto. apply zlist_eqb_eq. reflexivity.
Qed.
Lemma blank_iff : forall p, scalar p -> (blank p <-> zin p [32; 9; 11; 12; 10; 13; CRLF] = true \/ isMBWhitespace p || isMBNewline p = true).
Proof.
  intros p Hs. assert (A : zin p [32; 9; 11; 12; 10; 13; CRLF] = true <-> 9 <= p <= 13 \/ p = 32).
  { unfold zin. cbn [existsb]. rewrite !orb_true_iff, !Z.eqb_eq. unfold CRLF, scalar in *. split; [intros; lia|]. intros H. lia. }
  assert (B : isMBWhitespace p || isMBNewline p = true <-> exists name, In (name, p) LN_TABLE /\ (In name blank_names \/ In name line_break_names)).
  { split.
    - intros H. assert (HIn : In p (MB_WHITESPACE ++ MB_NEWLINE ++ [CP_LONGNAME_COMPATIBILITYNOBREAK])).
      { apply orb_prop in H as [H|H]; unfold isMBWhitespace, isMBNewline, ln_isMBWhitespace, ln_isMBNewline in H.
        - apply orb_prop in H as [H|H]; [apply Z.eqb_eq in H; subst p; apply in_or_app; right; apply in_or_app; right; left; reflexivity|].
          apply andb_prop in H as [_ H]. apply in_or_app. left. apply table_mem_In; [vm_compute; reflexivity|exact H].
        - apply in_or_app; right; apply in_or_app; left. apply table_mem_In; [vm_compute; reflexivity|exact H]. }
      pose proof (proj1 (forallb_forall _ _) mb_named _ HIn) as F. cbv beta in F. apply orb_prop in F as [F|F]; [apply Z.ltb_lt in F; unfold scalar in Hs; lia|].
      apply existsb_exists in F as ((name & q) & Hn & F). cbn [fst snd] in F. destruct (Z.eqb_spec q p) as [->|]; [|discriminate]. apply in_existsb, in_app_or in F. eauto.
    - intros (name & Hn & H). pose proof (proj1 (forallb_forall _ _) blank_names_mb _ Hn) as F. cbn [fst snd] in F.
      assert (X : existsb (zlist_eqb name) (blank_names ++ line_break_names) = true) by (apply in_existsb, in_or_app; exact H). rewrite X in F. exact F. }
  rewrite A, B. unfold blank. tauto.
Qed.
Lemma ascii_decode : forall b r, 0 <= b < 128 -> b <> 13 -> dchar (decode (b :: r)) = b /\ drest (decode (b :: r)) = r.
Proof. intros. apply decode_ascii_d; auto. Qed.

Lemma decode_is_crlf : forall bs, dchar (decode bs) = CRLF -> exists r, bs = 13 :: 10 :: r.
Proof.
  intros bs. generalize (decode_case bs). generalize (decode bs). intros dd D. destruct D as [|r0|c0 r0 Hc0 Hb0 Hn0|r0|bs0 c0 r0 u ? Hc Hno ?]; cbn; intros X; try discriminate; eauto;
    unfold CRLF, scalar, Unsafe1Byte, Unsafe2Byte, Unsafe3Byte in *; lia.
Qed.

Section Files.
Context (o : opts).

(** The position in front of [e], its first character known. *)
Definition sees (e : list Z) (c : Z) (s : st) : Prop := Inv o s /\ rest (cur s) = e /\ c = dchar (decode e).

Lemma read_on : forall B pol (k : Z -> M B) s Q w e c, Inv o s -> rest (cur s) = w ++ e -> decode (w ++ e) = good_ c e ->
  (forall c1 s1, sees e c1 s1 -> po (k c1) s1 Q) -> po (bind (next_source_char o pol) (fun _ => bind (peek_source_char o pol) k)) s Q.
Proof.
  intros B pol k s Q w e c HI R D K. apply (po_nsrc o); auto. intros c1 s1 I1 _ R1. rewrite R, D in R1. apply (po_psrc o); auto. intros c2 s2 I2 C2 E2.
  apply K. split; auto. rewrite C2. split; auto. rewrite E2, R1. reflexivity.
Qed.

(** The brackets. *)
Definition in_brackets_post (w e : list Z) (d' : nat) (res : option Z) (s' : st) : Prop :=
  (exists c1 w' w0, res = Some c1 /\ w = w0 ++ w' /\ file_part 0 w' d' /\ sees (w' ++ e) c1 s') \/ (res = None /\ d' <> O /\ rest (cur s') = e).

Lemma not_blank : forall p, scalar p -> ~ blank p -> zin p [32; 9; 11; 12; 10; 13; CRLF] = false /\ isMBWhitespace p || isMBNewline p = false.
Proof. intros p Hs H. rewrite (blank_iff p Hs) in H. split; apply not_true_is_false; tauto. Qed.
Lemma not_end : forall p, scalar p -> (p =? EndOfFile) = false.
Proof. intros p H. apply Z.eqb_neq. unfold scalar, EndOfFile in *. lia. Qed.
Lemma decode_inside : forall p r, scalar p -> p <> BOM_CHAR -> p <> 13 -> decode (utf8 p ++ r) = good_ p r.
Proof. intros. apply decode_scalar; auto. Qed.

Lemma brackets_po : forall n pol d w d' e c s, file_part (S d) w d' -> (d' = O -> True) -> (d' <> O -> e = [] \/ starts_blank e) -> sees (w ++ e) c s ->
  po (brackets_loop o n pol (Z.of_nat (S d)) c) s (in_brackets_post w e d').
Proof.
  induction n as [|n IH]; intros pol d w d' e c s Hw Hd He (HI & R & C); [apply po_out|]. cbn [brackets_loop]. 
  remember (S d) as D eqn:ED. destruct Hw as [D|b w d' Hb Hw|D w d' Hw|D w d' Hw|D p w d' Hp Hb Hn N1 N2 Hw]; subst; try discriminate.
  - cbn [app] in *. specialize (He ltac:(discriminate)). destruct He as [-> |(p & r & -> & Hp & Hb)].
    + change (zin (dchar (decode [])) [32; 9; 11; 12; 10; 13; CRLF]) with false. change (dchar (decode []) =? EndOfFile) with true. cbv iota.
      apply po_ret. right. split; [reflexivity|split; [discriminate|exact R]].
    + assert (X : zin (dchar (decode (utf8 p ++ r))) [32; 9; 11; 12; 10; 13; CRLF] = true \/ dchar (decode (utf8 p ++ r)) = p /\ isMBWhitespace p || isMBNewline p = true /\ 128 <= p).
      { destruct (Z.eq_dec p 13) as [->|N13].
        - left. change (utf8 13 ++ r) with (13 :: r). destruct r as [|x r]; [reflexivity|]. destruct (Z.eq_dec x 10) as [->|Nx]; [rewrite decode_crlf; reflexivity|].
          change (13 :: x :: r) with (utf8 13 ++ x :: r). rewrite decode_scalar; [reflexivity|exact Hp|unfold BOM_CHAR; lia|intros _; exact Nx].
        - assert (NB : p <> BOM_CHAR).
          { intros ->. apply (blank_iff _ Hp) in Hb. destruct Hb as [Hb|Hb]; [discriminate|]. vm_compute in Hb. discriminate. }
          rewrite decode_inside by auto. cbn [good_ dchar]. apply (blank_iff _ Hp) in Hb. destruct Hb as [Hb|Hb]; [left; exact Hb|]. right. split; auto. split; auto.
          destruct (Z.le_gt_cases 128 p); auto. exfalso.
          assert (F : forallb (fun q => negb (isMBWhitespace q || isMBNewline q)) (map Z.of_nat (seq 0 128)) = true) by (vm_compute; reflexivity).
          assert (G : In p (map Z.of_nat (seq 0 128))) by (apply in_map_iff; exists (Z.to_nat p); unfold scalar in Hp; split; [lia|apply in_seq; lia]).
          apply (proj1 (forallb_forall _ _) F) in G. rewrite Hb in G. discriminate G. }
      destruct X as [X|(X1 & X2 & X3)].
      * rewrite X. apply po_ret. right. split; [reflexivity|split; [discriminate|exact R]].
      * rewrite X1, X2, (not_end _ Hp). destruct (zin p _); [apply po_ret; right; split; [reflexivity|split; [discriminate|exact R]]|].
        destruct (Z.eqb_spec p 91); [lia|]. destruct (Z.eqb_spec p 93); [lia|]. apply po_ret. right. split; [reflexivity|split; [discriminate|exact R]].
  - cbn [app] in *. destruct (ascii_decode 91 (w ++ e)) as [D1 D2]; [lia|lia|]. rewrite D1. change (zin 91 _) with false. change (91 =? EndOfFile) with false. change (91 =? 91) with true. cbv iota.
    apply (read_on _ _ _ _ _ [91] (w ++ e) 91); [exact HI|exact R|apply (decode_scalar 91); [unfold scalar; lia|unfold BOM_CHAR; lia|lia]|]. intros c1 s1 S1.
    replace (Z.of_nat (S d) + 1) with (Z.of_nat (S (S d))) by lia. eapply po_conseq; [apply (IH _ _ w d' e); auto|].
    intros r s2 [(c2 & w' & w0 & -> & -> & F & S2)|H]; [left|right; auto]. exists c2, w', (91 :: w0). auto.
  - injection ED as ->. cbn [app] in *. destruct (ascii_decode 93 (w ++ e)) as [D1 D2]; [lia|lia|]. rewrite D1. change (zin 93 _) with false. change (93 =? EndOfFile) with false. change (93 =? 91) with false. change (93 =? 93) with true. cbv iota.
    apply (read_on _ _ _ _ _ [93] (w ++ e) 93); [exact HI|exact R|apply (decode_scalar 93); [unfold scalar; lia|unfold BOM_CHAR; lia|lia]|]. intros c1 s1 S1.
    replace (Z.of_nat (S d) - 1) with (Z.of_nat d) by lia. destruct d as [|d].
    + change (Z.of_nat 0 =? 0) with true. cbv iota. apply po_ret. left. exists c1, w, [93]. auto.
    + destruct (Z.eqb_spec (Z.of_nat (S d)) 0); [lia|]. eapply po_conseq; [apply (IH _ _ w d' e); auto|].
      intros r s2 [(c2 & w' & w0 & -> & -> & F & S2)|H]; [left|right; auto]. exists c2, w', (93 :: w0). auto.
  - injection ED as ->. rewrite <- app_assoc in *. destruct (not_blank p Hp Hn) as [X1 X2].
    assert (N13 : p <> 13) by (intros ->; apply Hn; left; lia). rewrite decode_inside by auto. change (dchar (good_ p (w ++ e))) with p. rewrite X1, X2, (not_end _ Hp).
    destruct (Z.eqb_spec p 91); [contradiction|]. destruct (Z.eqb_spec p 93); [contradiction|].
    apply (read_on _ _ _ _ _ (utf8 p) (w ++ e) p); [exact HI|exact R|apply decode_inside; auto|]. intros c1 s1 S1.
    eapply po_conseq; [apply (IH _ _ w d' e); auto|].
    intros r s2 [(c2 & w' & w0 & -> & -> & F & S2)|H]; [left|right; auto]. exists c2, w', (utf8 p ++ w0). rewrite <- app_assoc. auto.
Qed.

Lemma ends_file_char : forall e, ends_file e -> file_char (dchar (decode e)) = false /\ (dchar (decode e) =? 91) = false.
Proof.
  intros e H. split; apply not_true_is_false; intros X.
  - apply file_char_iff in X. destruct (file_byte_range _ X) as [? _]. destruct (decode_ascii_hd e _ eq_refl) as [r E]; [lia|]. apply H. exists (dchar (decode e)), r. auto.
  - apply Z.eqb_eq in X. destruct (decode_ascii_hd e _ X) as [r E]; [lia|]. apply H. exists 91, r. auto.
Qed.

Definition file_kind (d : nat) : Z := match d with O => TK_String | _ => TK_Error_UnterminatedFileString end.
Definition file_post (p : pos) (e : list Z) (d : nat) (t : token) (s : st) : Prop := t_kind t = file_kind d /\ t_text t = buf_between (rest p) e.
Definition file_end (d : nat) (e : list Z) : Prop := match d with O => ends_file e | _ => e = [] \/ starts_blank e end.

Lemma handle_brackets_po : forall (k : Z -> M token) p pol w d e s, file_part 1 w d -> file_end d e -> Inv o s -> rest (cur s) = w ++ e ->
  (forall w' c1 s', file_part 0 w' d -> sees (w' ++ e) c1 s' -> po (k c1) s' (file_post p e d)) ->
  po (bind (handleFileOpsBrackets o 91 pol) (fun r => match r with Some c1 => k c1 | None => mk_token TK_Error_UnterminatedFileString p end)) s (file_post p e d).
Proof.
  intros k p pol w d e s Hw He HI R K. apply po_bind. unfold handleFileOpsBrackets. apply po_assert. intros _. apply (po_psrc o); auto. intros c s1 I1 C1 E1. apply po_fuel.
  change 1 with (Z.of_nat 1). eapply po_conseq; [apply (brackets_po _ pol 0 w d e); auto|].
  - intros N. destruct d; [contradiction|exact He].
  - split; auto. rewrite C1. split; auto. rewrite E1, R. reflexivity.
  - intros r s2 [(c2 & w' & w0 & -> & _ & F & S2)|(-> & N & R2)].
    + apply K with (w' := w'); auto.
    + apply po_mk_token. intros t T1 T2 _. destruct d; [contradiction|]. split; auto. rewrite T2, R2. reflexivity.
Qed.
Lemma file_loop_po : forall n p pol w d e c s, file_part 0 w d -> file_end d e -> sees (w ++ e) c s -> po (file_loop o n p pol c) s (file_post p e d).
Proof.
  induction n as [|n IH]; intros p pol w d e c s Hw He (HI & R & C); [apply po_out|]. cbn [file_loop].
  remember O as D eqn:ED. destruct Hw as [D|b w d' Hb Hw|D w d' Hw|D w d' Hw|D q w d' Hp Hb Hn N1 N2 Hw]; try discriminate; subst.
  - cbn [app file_end] in *. destruct (ends_file_char e He) as [-> ->]. apply po_mk_token. intros t T1 T2 _. split; auto. rewrite T2, R. reflexivity.
  - cbn [app] in *. destruct (file_byte_range _ Hb) as (Hr & _). destruct (ascii_decode b (w ++ e)) as [D1 D2]; [lia|lia|]. rewrite D1. rewrite (proj2 (file_char_iff b) Hb).
    apply (read_on _ _ _ _ _ [b] (w ++ e) b); [exact HI|exact R|apply decode_ascii; lia|]. intros c1 s1 S1. apply (IH _ _ w d' e); auto.
  - cbn [app] in *. destruct (ascii_decode 91 (w ++ e)) as [D1 D2]; [lia|lia|]. rewrite D1. change (file_char 91) with false. change (91 =? 91) with true. cbv iota.
    apply (po_nsrc o); auto. intros c1 s1 I1 _ R1. rewrite R, D2 in R1. apply (handle_brackets_po (file_loop o n p pol) p pol w); auto. intros w' c2 s' Hw' S'. apply (IH _ _ w'); auto.
Qed.
Lemma nextToken_file : forall s w d e, Inv o s -> file_text w d -> file_end d e -> rest (cur s) = w ++ e ->
  po (nextToken_stringifyAsFile o) s (fun t _ => t_kind t = file_kind d /\ t_text t = w).
Proof.
  intros s w d e HI Hw He R. unfold nextToken_stringifyAsFile. apply po_mark.
  assert (Post : forall m (s1 : st), po m s1 (file_post (cur s) e d) -> po m s1 (fun t _ => t_kind t = file_kind d /\ t_text t = w)).
  { intros m s1 H. eapply po_conseq; [exact H|]. intros t s2 [T1 T2]. split; auto. rewrite T2, R. apply buf_between_app. }
  assert (Start : forall b r, file_byte b \/ b = 36 -> w = b :: r -> file_part 0 r d -> po
    (bind (next_source_char o INSIDE_STRINGIFY_AS_FILE) (fun c => if c =? EndOfFile then error_token_at TK_Error_ExpectedFile (cur s)
      else if is_newline_char c then mk_token (newline_with_policy INSIDE_STRINGIFY_AS_FILE) (cur s)
      else if (c =? 32) || (c =? 9) then mk_token TK_Whitespace (cur s)
      else if c =? 34 then handleString o (cur s) (wl c) INSIDE_STRINGIFY_AS_FILE
      else handleString_stringifyAsFile o (cur s) c INSIDE_STRINGIFY_AS_FILE)) s (fun t _ => t_kind t = file_kind d /\ t_text t = w)).
  { intros b r Hb -> Hr. assert (Rb : 33 <= b < 128 /\ b <> 34) by (destruct Hb as [Hb| ->]; [apply file_byte_range in Hb|]; lia).
    cbn [app] in R. apply (po_nsrc o); auto. intros c s1 I1 E1 R1. rewrite R in E1, R1. destruct (ascii_decode b (r ++ e)) as [D1 D2]; [lia|lia|]. rewrite D1 in E1. rewrite D2 in R1. subst c.
    destruct (Z.eqb_spec b EndOfFile) as [->|]; [unfold EndOfFile in Rb; lia|]. assert (X : is_newline_char b = false) by (unfold is_newline_char, zin, CRLF; cbn [existsb]; repeat match goal with |- context [b =? ?x] => destruct (Z.eqb_spec b x); [lia|] end; reflexivity). rewrite X.
    destruct (Z.eqb_spec b 32); [lia|]. destruct (Z.eqb_spec b 9); [lia|]. destruct (Z.eqb_spec b 34); [lia|]. cbn [orb]. unfold handleString_stringifyAsFile.
    assert (Y : file_char b || (b =? 36) = true) by (apply orb_true_iff; destruct Hb as [Hb| ->]; [left; apply file_char_iff; exact Hb|right; reflexivity]). rewrite Y.
    apply (po_psrc o); auto. intros c s2 I2 C2 E2. apply po_fuel. apply Post. apply (file_loop_po _ _ _ r d e); auto. split; auto. rewrite C2. split; auto. rewrite E2, R1. reflexivity. }
  destruct Hw as [[Hn Hw]|(r & -> & Hw)]; [|apply (Start 36 r); auto].
  remember O as D eqn:ED. destruct Hw as [D|b w d' Hb Hw|D w d' Hw|D w d' Hw|D q w d' Hp Hb Hn' N1 N2 Hw]; try discriminate; subst.
  - contradiction.
  - apply (Start b w); auto.
  - cbn [app] in R. apply (po_nsrc o); auto. intros c s1 I1 E1 R1. rewrite R in E1, R1. destruct (ascii_decode 91 (w ++ e)) as [D1 D2]; [lia|lia|]. rewrite D1 in E1. rewrite D2 in R1. subst c.
    repeat decide_if. unfold handleString_stringifyAsFile. repeat decide_if. apply Post.
    apply (handle_brackets_po (fun c1 => with_fuel (fun n => file_loop o n (cur s) INSIDE_STRINGIFY_AS_FILE c1)) _ _ w); auto. intros w' c2 s' Hw' S'. apply po_fuel. apply (file_loop_po _ _ _ w'); auto.
Qed.
Lemma po_error_token : forall k p s (Q : token -> st -> Prop), (forall t, t_kind t = k -> t_text t = [] -> Q t s) -> po (error_token_at k p) s Q.
Proof. intros k p s Q H. unfold error_token_at. apply po_assert. intros _. unfold new2. apply po_assert. intros _. apply po_ret. apply H; reflexivity. Qed.
Lemma nextToken_no_file : forall s, Inv o s -> no_file (rest (cur s)) ->
  po (nextToken_stringifyAsFile o) s (fun t _ => t_kind t = TK_Error_ExpectedFile /\ t_text t = []).
Proof.
  intros s HI H. unfold nextToken_stringifyAsFile. apply po_mark. apply (po_nsrc o); auto. intros c s1 I1 E1 R1.
  assert (Err : forall p s2, po (error_token_at TK_Error_ExpectedFile p) s2 (fun t _ => t_kind t = TK_Error_ExpectedFile /\ t_text t = [])) by (intros; apply po_error_token; auto).
  assert (N : forall b, 0 <= b < 128 -> (file_byte b \/ In b [91; 36; 34; 32; 9; 10; 13]) -> c <> b).
  { intros b Hb X Y. rewrite Y in E1. symmetry in E1. destruct (decode_ascii_hd _ _ E1 Hb) as [r E]. apply H. exists b, r. auto. }
  destruct (Z.eqb_spec c EndOfFile); [apply Err|].
  assert (X : is_newline_char c = false).
  { apply not_true_is_false. intros X. unfold is_newline_char, zin in X. cbn [existsb] in X. rewrite !orb_true_iff, !Z.eqb_eq in X.
    destruct X as [X|[X|[X|X]]]; try discriminate; [apply (N 10); auto; [lia|cbn; lia]|apply (N 13); auto; [lia|cbn; lia]|].
    rewrite E1 in X; apply decode_is_crlf in X as [r X]. apply H. rewrite X. exists 13, (10 :: r). split; auto. right. cbn. lia. }
  rewrite X. destruct (Z.eqb_spec c 32) as [->|]; [exfalso; apply (N 32); auto; [lia|cbn; lia]|]. destruct (Z.eqb_spec c 9) as [->|]; [exfalso; apply (N 9); auto; [lia|cbn; lia]|]. cbn [orb].
  destruct (Z.eqb_spec c 34) as [->|]; [exfalso; apply (N 34); auto; [lia|cbn; lia]|]. unfold handleString_stringifyAsFile.
  destruct (file_char c) eqn:F; [exfalso; apply file_char_iff in F; apply (N c); auto; apply file_byte_range in F; lia|]. destruct (Z.eqb_spec c 36) as [->|]; [exfalso; apply (N 36); auto; [lia|cbn; lia]|]. cbn [orb].
  destruct (Z.eqb_spec c 91) as [->|]; [exfalso; apply (N 91); auto; [lia|cbn; lia]|]. apply Err.
Qed.
(** blanks and line breaks *)
Lemma nextToken_file_blank : forall s b e, Inv o s -> b = 32 \/ b = 9 -> rest (cur s) = b :: e -> po (nextToken_stringifyAsFile o) s (fun t _ => t_kind t = TK_Whitespace /\ t_text t = [b]).
Proof.
  intros s b e HI Hb R. unfold nextToken_stringifyAsFile. apply po_mark. apply (po_nsrc o); auto. intros c s1 I1 E1 R1. rewrite R in E1, R1. destruct (ascii_decode b e) as [D1 D2]; [lia|lia|]. rewrite D1 in E1. rewrite D2 in R1. subst c.
  assert (X : (b =? EndOfFile) = false /\ is_newline_char b = false /\ (b =? 32) || (b =? 9) = true) by (destruct Hb as [-> | ->]; auto). destruct X as (-> & -> & ->).
  apply po_mk_token. intros t T1 T2 _. split; auto. rewrite T2, R, R1. apply buf1.
Qed.
Lemma nextToken_file_break : forall s w e, Inv o s -> line_break w e -> rest (cur s) = w ++ e -> po (nextToken_stringifyAsFile o) s (fun t _ => t_kind t = TK_ToplevelNewline /\ t_text t = w).
Proof.
  intros s w e HI Hb R. unfold nextToken_stringifyAsFile. apply po_mark. apply (po_nsrc o); auto. intros c s1 I1 E1 R1. rewrite R in E1, R1.
  assert (X : is_newline_char (dchar (decode (w ++ e))) = true /\ (dchar (decode (w ++ e)) =? EndOfFile) = false /\ drest (decode (w ++ e)) = e).
  { destruct Hb as [->|[->|[-> H]]].
    - destruct (ascii_decode 10 e) as [D1 D2]; [lia|lia|]. cbn [app]. rewrite D1, D2. auto.
    - cbn [app]. rewrite decode_crlf. auto.
    - change ([13] ++ e) with (utf8 13 ++ e). rewrite decode_scalar; auto; [unfold scalar; lia|unfold BOM_CHAR; lia|]. intros _ Y. apply H. destruct e as [|x e]; [discriminate|]. exists x, e. auto. }
  destruct X as (X1 & X2 & X3). subst c. rewrite X2, X1. apply po_mk_token. intros t T1 T2 _. split; [rewrite T1; reflexivity|]. rewrite T2, R, R1, X3. apply buf_between_app.
Qed.

(** ** Tags *)
Lemma nextToken_tag : forall s w e, Inv o s -> name w -> ends_name e -> rest (cur s) = w ++ e -> po (nextToken_stringifyAsTag o) s (fun t _ => t_kind t = TK_String /\ t_text t = w).
Proof.
  intros s w e HI (x & r & -> & Hx & Hr) He R. unfold nextToken_stringifyAsTag. apply po_mark. rewrite <- app_assoc in R. destruct (letter_read x (r ++ e) Hx) as (c0 & E0 & L0 & D0 & _).
  apply (po_nextWL o); auto. intros c s1 I1 E1. rewrite R, E0 in E1. injection E1 as <- E1.
  destruct (Z.eqb_spec (wc c0) EndOfFile) as [E|_]; [rewrite E in L0; discriminate|].
  destruct (is_newline_char (wc c0)) eqn:E; [unfold is_newline_char, zin in E; cbn [existsb] in E; rewrite !orb_true_iff, !Z.eqb_eq in E; destruct E as [E|[E|[E|E]]]; try discriminate; rewrite E in L0; discriminate|]. clear E.
  destruct (Z.eqb_spec (wc c0) 34) as [E|_]; [rewrite E in L0; discriminate|]. unfold handleString_stringifyAsTag. rewrite L0. apply po_get_loc. apply po_bind.
  eapply po_conseq; [apply (segment_po o _ _ c0 r e); auto|]. intros c1 s2 (I2 & [(_ & R2 & _)|(e' & -> & _)]); [|exfalso; eapply ends_not_quote; eauto].
  apply po_mk_token. intros t T1 T2 _. split; auto. rewrite T2, R, R2, app_assoc. apply buf_between_app.
Qed.
Lemma nextToken_no_tag : forall s, Inv o s -> no_letter (rest (cur s)) -> ~ starts_with (eq 34) (rest (cur s)) ->
  po (nextToken_stringifyAsTag o) s (fun t _ => t_kind t = TK_Error_ExpectedTag /\ t_text t = []).
Proof.
  intros s HI H Nq. unfold nextToken_stringifyAsTag. apply po_mark. apply (po_nextWL o); auto. intros c s1 I1 E1. destruct (no_letter_char _ _ _ H E1) as [L C].
  assert (Err : forall p s2, po (error_token_at TK_Error_ExpectedTag p) s2 (fun t _ => t_kind t = TK_Error_ExpectedTag /\ t_text t = [])) by (intros; apply po_error_token; auto).
  destruct (Z.eqb_spec (wc c) EndOfFile); [apply Err|]. destruct (is_newline_char (wc c)); [apply Err|].
  destruct (Z.eqb_spec (wc c) 34) as [E|_].
  - exfalso. apply Nq. destruct (twl_ascii_first _ _ _ E1) as (b & t & Eb & Hb); [lia|]. rewrite Eb. exists b, t. split; auto. destruct Hb as [-> | ->]; auto.
    exfalso. rewrite Eb in H. destruct H as [H|[(b & r & Y & _ & _ & N)|(p & w & r & Y & Hp & Hw)]]; [discriminate|injection Y as <- _; auto|].
    destruct (alone_case p Hp) as (S & G & B & _). destruct (twl_spelling p w r S G B Hw) as [y E2]. rewrite Eb, Y, E2 in E1. injection E1 as <- _. cbn [wc] in E. lia.
  - unfold handleString_stringifyAsTag. rewrite L. unfold new2. apply po_assert. intros _. apply po_ret. auto.
Qed.

(** ** Quoted tags and file names *)
Lemma quoted_po : forall p pol s r, Inv o s -> p_scan pol = false -> rest (cur s) = r -> po (handleString o p (wl 34) pol) s (string_post r p).
Proof.
  intros p pol s r HI Hp Er. unfold handleString. apply po_assert. intros _.
  apply (po_inert o); [solve [inert]|exact HI|]. intros _ s2 I2 C2. apply po_fuel. rewrite <- Er, <- C2. apply string_loop_po; auto.
Qed.
Lemma nextToken_quoted_tag : forall s r, Inv o s -> rest (cur s) = 34 :: r -> po (nextToken_stringifyAsTag o) s (string_post r (cur s)).
Proof.
  intros s r HI R. unfold nextToken_stringifyAsTag. apply po_mark. apply (po_nextWL o); auto. intros c s1 I1 E1. rewrite R, twl_ascii in E1 by lia. injection E1 as <- E1.
  cbn [wl wc]. repeat decide_if. apply quoted_po; auto.
Qed.
Lemma nextToken_quoted_file : forall s r, Inv o s -> rest (cur s) = 34 :: r -> po (nextToken_stringifyAsFile o) s (string_post r (cur s)).
Proof.
  intros s r HI R. unfold nextToken_stringifyAsFile. apply po_mark. apply (po_nsrc o); auto. intros c s1 I1 E1 R1. rewrite R in E1, R1. destruct (ascii_decode 34 r) as [D1 D2]; [lia|lia|]. rewrite D1 in E1. rewrite D2 in R1. subst c.
  repeat decide_if. apply quoted_po; auto.
Qed.
End Files.

Section Results.
Context (o : opts) (input : list Z) (s : st) (t : token) (s1 : st) (Ht : 0 < o_tab_width o) (Hr : reached o input s).
Let HI : Inv o s := proj1 (reached_Inv o input s Ht Hr).
Lemma asked_po : forall m (P : token -> Prop), peek m s = Ok (t, s1) -> po m s (fun t _ => P t) -> P t.
Proof. intros m P E H. unfold peek, bind, mark, seek, ret, po in *. destruct (m s) as [[u s2]| |]; try discriminate. injection E as <- _. exact H. Qed.

Lemma quoted_text : forall r (t : token) s', rest (cur s) = 34 :: r -> string_post r (cur s) t s' -> match after_string r with
  | Some r' => t_kind t = TK_String /\ rest (cur s) = t_text t ++ r' | None => t_kind t = TK_Error_UnterminatedString /\ rest (cur s) = t_text t end.
Proof.
  intros r u s' Er H. unfold string_post in H. destruct (after_string r) as [r'|] eqn:Ea.
  - destruct H as [H1 H2]. split; auto. apply after_string_suffix with (n := length r) in Ea as [p Ep]; auto. rewrite H2, Er, Ep.
    change (34 :: p ++ r') with ((34 :: p) ++ r'). rewrite buf_between_app. reflexivity.
  - destruct H as [H1 H2]. auto.
Qed.
Lemma quoted_token : forall r, ask o AsTag s = Ok (t, s1) \/ ask o AsFile s = Ok (t, s1) -> rest (cur s) = 34 :: r -> match after_string r with
  | Some r' => t_kind t = TK_String /\ rest (cur s) = t_text t ++ r' | None => t_kind t = TK_Error_UnterminatedString /\ rest (cur s) = t_text t end.
Proof.
  intros r Ha R. apply (quoted_text r t s1 R). destruct Ha as [Ha|Ha].
  - apply (asked_po _ (fun t => string_post r (cur s) t s1) Ha). exact (nextToken_quoted_tag o s r HI R).
  - apply (asked_po _ (fun t => string_post r (cur s) t s1) Ha). exact (nextToken_quoted_file o s r HI R).
Qed.

Section File.
Context (Ha : ask o AsFile s = Ok (t, s1)).
Lemma file_token : forall w e, file_text w 0 -> ends_file e -> rest (cur s) = w ++ e -> t_kind t = TK_String /\ t_text t = w.
Proof. intros w e Hw He R. exact (asked_po _ _ Ha (nextToken_file o s w 0 e HI Hw He R)). Qed.
Lemma open_file_token : forall w d e, file_text w (S d) -> e = [] \/ starts_blank e -> rest (cur s) = w ++ e -> t_kind t = TK_Error_UnterminatedFileString /\ t_text t = w.
Proof. intros w d e Hw He R. exact (asked_po _ _ Ha (nextToken_file o s w (S d) e HI Hw He R)). Qed.
Lemma no_file_token : no_file (rest (cur s)) -> t_kind t = TK_Error_ExpectedFile /\ t_text t = [].
Proof. intros H. exact (asked_po _ _ Ha (nextToken_no_file o s HI H)). Qed.
Lemma file_blank_token : forall b e, b = 32 \/ b = 9 -> rest (cur s) = b :: e -> t_kind t = TK_Whitespace /\ t_text t = [b].
Proof. intros b e Hb R. exact (asked_po _ _ Ha (nextToken_file_blank o s b e HI Hb R)). Qed.
Lemma file_break_token : forall w e, line_break w e -> rest (cur s) = w ++ e -> t_kind t = TK_ToplevelNewline /\ t_text t = w.
Proof. intros w e Hb R. exact (asked_po _ _ Ha (nextToken_file_break o s w e HI Hb R)). Qed.
End File.
Section Tag.
Context (Ha : ask o AsTag s = Ok (t, s1)).
Lemma tag_token : forall w e, name w -> ends_name e -> rest (cur s) = w ++ e -> t_kind t = TK_String /\ t_text t = w.
Proof. intros w e Hw He R. exact (asked_po _ _ Ha (nextToken_tag o s w e HI Hw He R)). Qed.
Lemma no_tag_token : no_letter (rest (cur s)) -> ~ starts_with (eq 34) (rest (cur s)) -> t_kind t = TK_Error_ExpectedTag /\ t_text t = [].
Proof. intros H N. exact (asked_po _ _ Ha (nextToken_no_tag o s HI H N)). Qed.
End Tag.
End Results.
