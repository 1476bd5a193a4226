(** Bad bases, percent signs and the end of the input, as specified in SpecLex.v. *)
From Coq Require Import String ZArith List Bool Lia.
From Verif Require Import Base Source WLChar GenTokenKind GenLongNames LongNames ByteDecoder CharDecoder TokenKind Format Tokenizer SpecText SpecReader SpecTokenizer SpecLex
  LongNamesProofs Decode Iter TextProofs Logic WlDecode ReaderProofs FormatProofs TokLogic TokenizerProofs TokenLoop TokSim TokSpecs TokResults ReparseProofs LexProofs LexNumbers.
Import ListNotations.
Local Open Scope Z_scope.

(** ** Every result has a property *)
Definition pk {A} (m : M A) (P : A -> Prop) : Prop := forall s a s', m s = Ok (a, s') -> P a.

Lemma pk_bind : forall A B (m : M A) (k : A -> M B) (Q : A -> Prop) P, pk m Q -> (forall a, Q a -> pk (k a) P) -> pk (bind m k) P.
Proof.
  intros A B m k Q P H K s a s' E. unfold bind in E. destruct (m s) as [[u s1]| |] eqn:E1; try discriminate. eapply K; eauto.
Qed.
Lemma pk_any : forall A B (m : M A) (k : A -> M B) P, (forall a, pk (k a) P) -> pk (bind m k) P.
Proof. intros A B m k P K. apply (pk_bind _ _ _ _ (fun _ => True)); [intros s a s' _; auto|auto]. Qed.
Lemma pk_ret : forall A (a : A) (P : A -> Prop), P a -> pk (ret a) P.
Proof. intros A a P H s a' s' E. injection E as <- _. exact H. Qed.
Lemma pk_panic : forall A (P : A -> Prop), pk panic P.
Proof. intros A P s a s' E. discriminate. Qed.
Lemma pk_mk : forall k p (P : token -> Prop), (forall t, t_kind t = k -> P t) -> pk (mk_token k p) P.
Proof.
  intros k p P H s t s' E. pose proof (po_mk_token k p s (fun t _ => P t)) as G. unfold po in G. rewrite E in G. apply G. intros t' T _ _. auto.
Qed.

Section BadBase.
Context (o : opts) (p : pos) (pol : policy).
Definition faulty (x : numctx) : Prop := InvalidBase x = true.
Definition is_error (t : token) : Prop := t_kind t = TK_Error_Number.

Lemma pk_compute : forall x, faulty x -> pk (mk_token (computeTok x) p) is_error.
Proof. intros x H. apply pk_mk. intros t E. unfold is_error. rewrite E. unfold computeTok. rewrite H. reflexivity. Qed.
Lemma pk_error : pk (mk_token TK_Error_Number p) is_error.
Proof. apply pk_mk. auto. Qed.

Lemma alnum_faulty : forall n base x count c, faulty x -> pk (alnum_loop o n p pol base x count c) (fun u => faulty (snd u)).
Proof.
  induction n as [|n IH]; intros base x count c H; cbn [alnum_loop]; [intros s a s' E; discriminate|].
  destruct (negb (isAlphaOrDigit (wc c))); [apply pk_ret; auto|]. destruct (_ && _); [apply pk_ret; auto|]. cbv zeta.
  apply pk_any. intros _. apply pk_any. intros c1. apply IH. destruct (_ && _); exact H.
Qed.
Lemma digits_faulty : forall c base x, faulty x -> pk (handleAlphaOrDigits o p c base pol x) (fun u => faulty (snd u)).
Proof.
  intros c base x H. unfold handleAlphaOrDigits. apply pk_any. intros _ s a s' E. unfold with_fuel in E. eapply alnum_faulty; eauto.
Qed.
Lemma past_faulty : forall m c base x, faulty x -> pk (handlePastDot o p m c base pol x) (fun u => faulty (snd u)).
Proof.
  intros m c base x H. unfold handlePastDot. destruct (wc c =? 46).
  - apply pk_any. intros _. apply pk_any. intros c1. apply pk_ret. exact H.
  - destruct (isAlphaOrDigit (wc c)); [|apply pk_ret; exact H]. eapply pk_bind; [apply digits_faulty; exact H|]. intros [[h c1] x1] H1. apply pk_any. intros _. apply pk_ret. exact H1.
Qed.

Lemma exponent_faulty : forall x star, faulty x -> pk (number_exponent o p pol x star) is_error.
Proof.
  intros x star H. unfold number_exponent. apply pk_any. intros _. apply pk_any. intros c. destruct (negb _); [apply pk_any; intros _; apply pk_compute; auto|].
  apply pk_any. intros _. apply pk_any. intros c1.
  apply (pk_bind _ _ _ _ (fun u => faulty (snd u))).
  { destruct (_ || _); [|apply pk_ret; exact H]. apply pk_any. intros _. apply pk_any. intros c2. apply pk_ret. cbn [snd]. destruct (_ =? _); exact H. }
  intros [c2 x1] H1. cbn [snd] in H1. destruct (negb _); [apply pk_error|]. apply pk_any. intros c3.
  apply (pk_bind _ _ _ _ (fun u => faulty (snd u))).
  { destruct (isDigit _); [|apply pk_ret; exact H1]. apply pk_any. intros r4. apply pk_ret. exact H1. }
  intros [c4 x2] H2. cbn [snd] in H2. destruct (negb _); [apply pk_compute; auto|]. apply pk_any. intros dot. do 2 (apply pk_any; intros _). apply pk_any. intros c5.
  eapply pk_bind; [apply past_faulty; exact H2|]. intros [[h c6] x3] H3. destruct h; [apply pk_error|apply pk_compute; auto].
Qed.
Lemma after_precision_faulty : forall x a b c, faulty x -> pk (number_after_precision o p pol x a b c) is_error.
Proof.
  intros x a b c H. unfold number_after_precision. destruct (wc c =? 42); destruct (_ && _); try apply pk_error; try (apply pk_compute; auto).
  apply pk_any. intros star. do 2 (apply pk_any; intros _). apply exponent_faulty. auto.
Qed.
Lemma precision_dot_faulty : forall x a b d m c, faulty x -> pk (number_precision_dot o p pol x a b d m c) is_error.
Proof.
  intros x a b d m c H. unfold number_precision_dot. destruct (wc c =? 46); [|apply after_precision_faulty; auto]. apply pk_any. intros dot. apply pk_any. intros _. cbv zeta.
  assert (Past : forall c1, pk (bind (handlePastDot o p (imark_of dot) c1 0 pol x) (fun r => let '(h, c2, x1) := r in
      match h with
      | Bailout => if d then mk_token (computeTok x1) p else if b then match m with Some m => bind (backupAndWarn o (imark_of m)) (fun _ => mk_token (computeTok x1) p) | None => panic end else panic
      | Count n => let supplied' := if n =? 0 then d else true in if negb supplied' then mk_token TK_Error_Number p else number_after_precision o p pol x1 a supplied' c2
      end)) is_error).
  { intros c1. eapply pk_bind; [apply past_faulty; exact H|]. intros [[h c2] x1] H1. cbn [snd] in H1. destruct h.
    - cbv zeta. destruct (negb _); [apply pk_error|apply after_precision_faulty; auto].
    - destruct d; [apply pk_compute; auto|]. destruct b; [|apply pk_panic]. destruct m; [|apply pk_panic]. apply pk_any. intros _. apply pk_compute. auto. }
  destruct (negb _); apply pk_any; intros _; apply pk_any; intros c1; [|apply Past].
  destruct (negb _); [|apply Past]. destruct a; [apply pk_error|]. destruct (isSign _); apply pk_any; intros _; [apply pk_error|apply pk_compute; auto].
Qed.
Lemma precision_digits_faulty : forall x a b m c, faulty x -> pk (number_precision_digits o p pol x a b m c) is_error.
Proof.
  intros x a b m c H. unfold number_precision_digits. destruct (isDigit _); [|apply precision_dot_faulty; auto]. apply pk_any. intros [n c1].
  destruct (_ || _); [apply precision_dot_faulty; auto|apply pk_compute; auto].
Qed.
Lemma backquote_faulty : forall x, faulty x -> pk (number_backquote o p pol x) is_error.
Proof.
  intros x H. unfold number_backquote. cbv zeta. apply pk_any. intros c. apply pk_any. intros [c1 acc]. destruct (_ || _); [|apply precision_digits_faulty; exact H].
  apply pk_any. intros sm. do 2 (apply pk_any; intros _). apply pk_any. intros c2. destruct (_ || _); [apply pk_any; intros _; apply precision_digits_faulty; exact H|].
  destruct acc; [apply pk_error|]. apply pk_any. intros _. apply pk_compute. exact H.
Qed.
Lemma tail_faulty : forall x c, faulty x -> pk (number_tail o p pol x c) is_error.
Proof.
  intros x c H. unfold number_tail. destruct (wc c =? 96); [apply pk_any; intros _; apply backquote_faulty; auto|]. destruct (wc c =? 42); [|apply pk_compute; auto].
  unfold number_star. apply pk_any. intros star. do 2 (apply pk_any; intros _). apply exponent_faulty. auto.
Qed.
Lemma fraction_faulty : forall x n m c, faulty x -> pk (number_fraction o p pol x n m c) is_error.
Proof.
  intros x n m c H. unfold number_fraction, handlePossibleFractionalPart. apply (pk_bind _ _ _ _ (fun u => faulty (snd u))).
  { apply pk_any. intros _. apply pk_any. intros c1. apply past_faulty. auto. }
  intros [[h c1] x1] H1. cbn [snd] in H1. destruct h.
  - destruct (_ && _); [apply pk_error|apply tail_faulty; exact H1].
  - destruct (n =? 0); [apply pk_error|apply pk_compute; auto].
Qed.
End BadBase.

(** ** A base outside 2..36 *)
Lemma base_bad : forall ds' r, Forall digit_byte ds' -> ~ (2 <= decimal ds' <= 36) ->
  exists b, number_base (ds' ++ r) r = Ok (true, b).
Proof.
  intros ds' r F N. unfold number_base. destruct ds' as [|a ds'].
  { cbn [app]. rewrite Nat.eqb_refl. eauto. }
  destruct (Nat.eqb_spec (length ((a :: ds') ++ r)) (length r)) as [X|_]; [rewrite app_length in X; cbn [length] in X; lia|].
  rewrite buf_between_app. cbv zeta. inversion F as [|? ? Ha F']; subst. pose proof Ha as Ha'. unfold digit_byte in Ha'. destruct ds' as [|a' [|a'' ds']].
  - unfold decimal in N. cbn [decimal_from] in N. unfold toDigit. destruct (between_spec 48 a 57); [|lia]. destruct (between_spec 2 (a - 48) 36); [lia|]. cbn [negb]. eauto.
  - inversion F' as [|? ? Hb _]; subst. unfold digit_byte in Hb. unfold decimal in N. cbn [decimal_from] in N. unfold toDigit. destruct (between_spec 48 a 57); [|lia]. destruct (between_spec 48 a' 57); [|lia].
    destruct (between_spec 2 ((a - 48) * 10 + (a' - 48)) 36); [lia|]. cbn [negb]. eauto.
  - eauto.
Qed.
Lemma pk_po : forall A (m : M A) P s, pk m P -> po m s (fun a _ => P a).
Proof. intros A m P s H. unfold po. destruct (m s) as [[a s']| |] eqn:E; auto. eapply H; eauto. Qed.

Lemma caret_bad : forall o p pol s ds' caret r, p_scan pol = false -> Inv o s -> Forall digit_byte ds' -> ~ (2 <= decimal ds' <= 36) -> rest (cur s) = 94 :: r ->
  po (number_caret o p pol (ds' ++ rest caret) caret) s (fun t _ => is_error t).
Proof.
  intros o p pol s ds' caret r Hp HI F N R. unfold number_caret. apply (po_peek o p pol Hp); auto. intros c s1 I1 C1 A1. rewrite <- C1 in R. rewrite (ahead_byte _ _ _ _ A1 R) by lia. cbn [wl wc]. change (94 =? 94) with true. cbn [negb].
  apply (po_nextWL o); auto. intros c1 s2 I2 _. apply po_bind. unfold po at 1, lift. destruct (base_bad ds' (rest caret) F N) as [b ->]. cbn [fst snd]. cbv zeta.
  set (x := set_base ctx0 true b). assert (Hx : faulty x) by reflexivity. clearbody x. apply pk_po. apply pk_any. intros c2. destruct (isAlphaOrDigit _).
  - eapply pk_bind; [apply digits_faulty; exact Hx|]. intros [[n c3] x1] H1. cbn [snd] in H1. apply pk_any. intros m. destruct (_ =? 46); [apply pk_any; intros _; apply fraction_faulty; auto|apply tail_faulty; auto].
  - destruct (_ =? 46); [apply pk_any; intros m; apply pk_any; intros _; apply fraction_faulty; auto|]. destruct (_ =? EndOfFile); [do 2 (apply pk_any; intros _)|]; apply pk_error.
Qed.

Lemma dispatch_digit : forall o s b pol, digit_byte b -> dispatch o s (wl b) pol = handleNumber o s (wl b) pol.
Proof.
  intros o s b pol Hd. unfold digit_byte in Hd. assert (C : b = 48 \/ b = 49 \/ b = 50 \/ b = 51 \/ b = 52 \/ b = 53 \/ b = 54 \/ b = 55 \/ b = 56 \/ b = 57) by lia.
  repeat (destruct C as [-> |C]; [reflexivity|]). rewrite C. reflexivity.
Qed.

Lemma nextToken_bad_base : forall o pol s w e, Inv o s -> p_scan pol = false -> p_intshort pol = false -> bad_base w -> rest (cur s) = w ++ e ->
  po (nextToken o pol) s (fun t _ => t_kind t = TK_Error_Number).
Proof.
  intros o pol s w e HI Hp Hsh (bs & -> & Hbs & N) R. destruct (digits_cons _ Hbs) as (d & r & -> & Hd & Fr). rewrite <- app_assoc in R. cbn [app] in R.
  unfold nextToken. apply po_mark. apply (po_nextWL o); auto. intros c s1 I1 E1. pose proof Hd as Hd'. unfold digit_byte in Hd'. rewrite R, twl_ascii in E1 by lia. injection E1 as <- E1.
  rewrite dispatch_digit by auto. unfold handleNumber. apply po_assert. intros _. rewrite Hsh. change (wc (wl d)) with d at 1. rewrite (proj2 (digit_iff d) Hd).
  apply (lead_run o (cur s) pol Hp _ s1 d r (94 :: 94 :: e)); auto; [apply byte_no_digit; unfold digit_byte; lia|].
  intros s2 n c1 m ds' I2 R2 A2 Hn F' Nz Ed. rewrite (ahead_byte _ _ _ _ A2 R2) by lia. cbn [wl wc]. change (94 =? 94) with true. cbv iota.
  apply po_mark, po_assert_first. eapply (po_read o (cur s) pol Hp); eauto; try lia. intros s3 I3 R3. rewrite <- R2. eapply caret_bad; eauto. rewrite Ed. exact N.
Qed.

(** ** Percent signs *)
Lemma percent_run : forall o p pol n s c m e, p_scan pol = false -> Inv o s -> rest (cur s) = repeat 37 m ++ e -> ahead s c -> (forall c r, twl e = Some (c, r) -> wc c <> 37) ->
  po (percent_loop o n p pol c) s (fun _ s' => rest (cur s') = e).
Proof.
  intros o p pol. induction n as [|n IH]; intros s c m e Hp HI R A He; cbn [percent_loop]; [exact I|]. destruct m as [|m].
  - cbn [repeat app] in R. destruct A as [r T]. rewrite R in T. pose proof (He _ _ T). destruct (Z.eqb_spec (wc c) 37); [contradiction|]. exact R.
  - cbn [repeat app] in R. rewrite (ahead_byte _ _ _ _ A R) by lia. cbn [wl wc]. change (37 =? 37) with true. cbn [negb].
    eapply (po_read o p pol Hp); eauto; try lia. intros s1 I1 R1. apply (po_peek o p pol Hp); auto. intros c1 s2 I2 C2 A2. apply (IH s2 c1 m); auto. rewrite C2. auto.
Qed.
Lemma nextToken_percents : forall o pol s n e, Inv o s -> p_scan pol = false -> ~ starts_with (fun c => c = 37 \/ c = 92) e -> rest (cur s) = repeat 37 (S (S n)) ++ e ->
  po (nextToken o pol) s (fun t _ => t_kind t = TK_PercentPercent /\ t_text t = repeat 37 (S (S n))).
Proof.
  intros o pol s n e HI Hp He R. pose proof R as R'. cbn [repeat app] in R'. unfold nextToken. apply po_mark. apply (po_nextWL o); auto. intros c s1 I1 E1. rewrite R', twl_ascii in E1 by lia. injection E1 as <- E1.
  replace (dispatch o (cur s) (wl 37) pol) with (handlePercent o (cur s) (wl 37) pol); [|unfold dispatch, nextToken_uncommon; cbv zeta; symmetry; repeat decide_if; reflexivity].
  unfold handlePercent. apply po_assert. intros _. symmetry in E1. apply (po_peek o (cur s) pol Hp); auto. intros c1 s2 I2 C2 A2. rewrite <- C2 in E1. rewrite (ahead_byte _ _ _ _ A2 E1) by lia. cbn [wl wc]. change (37 =? 37) with true. cbv iota.
  apply (po_peek o (cur s) pol Hp); auto. intros c2 s3 I3 C3 A3. rewrite <- C3 in E1. apply po_bind. apply po_fuel.
  eapply po_conseq; [apply (percent_run o (cur s) pol _ s3 c2 (S n) e); auto|].
  - intros c3 r3 T X. destruct (twl_ascii_first _ _ _ T) as (b & t & -> & Hb); [lia|]. apply He. exists b, t. split; auto. rewrite X in Hb. exact Hb.
  - intros u s4 R4. apply po_mk_token. intros t T1 T2 _. split; auto. rewrite T2, R, R4. apply buf_between_app.
Qed.

(** ** The end of the input *)
Lemma nextToken_end : forall o pol s, Inv o s -> p_scan pol = false -> rest (cur s) = [] ->
  po (nextToken o pol) s (fun t _ => t_kind t = TK_EndOfFile /\ t_text t = []).
Proof.
  intros o pol s HI Hp R. unfold nextToken. apply po_mark. apply (po_nextWL o); auto. intros c s1 I1 E1. rewrite R in E1. cbv in E1. injection E1 as <- E1.
  replace (dispatch o (cur s) _ pol) with (mk_token TK_EndOfFile (cur s)); [|unfold dispatch, nextToken_uncommon; cbv zeta; symmetry; repeat decide_if; reflexivity].
  apply po_mk_token. intros t T1 T2 _. split; auto. rewrite T2, R. reflexivity.
Qed.

(** ** Digits after a hash or percent sign *)
Lemma nextToken_index : forall o pol s ds e, Inv o s -> p_scan pol = false -> p_intshort pol = true -> digits ds -> ~ starts_with (fun b => digit_byte b \/ b = 92) e -> rest (cur s) = ds ++ e ->
  po (nextToken o pol) s (fun t _ => t_kind t = TK_Integer /\ t_text t = ds).
Proof.
  intros o pol s ds e HI Hp Hsh Hds He R. destruct (digits_cons _ Hds) as (d & r & -> & Hd & Fr). pose proof R as R'. cbn [app] in R'.
  unfold nextToken. apply po_mark. apply (po_nextWL o); auto. intros c s1 I1 E1. pose proof Hd as Hd'. unfold digit_byte in Hd'. rewrite R', twl_ascii in E1 by lia. injection E1 as <- E1.
  rewrite dispatch_digit by auto. unfold handleNumber. apply po_assert. intros _. rewrite Hsh. change (wc (wl d)) with d at 1. rewrite (proj2 (digit_iff d) Hd).
  apply (lead_run o (cur s) pol Hp _ s1 d r e); auto.
  - intros c t T. destruct (isDigit (wc c)) eqn:D; auto. apply digit_iff in D. pose proof D as D'. unfold digit_byte in D'. destruct (twl_ascii_first _ _ _ T) as (b & t' & -> & Hb); [lia|].
    exfalso. apply He. exists b, t'. split; auto. destruct Hb as [-> | ->]; auto.
  - intros s2 n c1 m ds' I2 R2 A2 _ _ _ _. apply (po_inert o); [solve [inert]|exact I2|]. intros _ s3 I3 C3. apply po_mk_token. intros t T1 T2 _. split; auto. rewrite T2, R, C3, R2. apply buf_between_app.
Qed.
