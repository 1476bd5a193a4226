(** Numbers, as specified in SpecLex.v. *)
From Coq Require Import String ZArith List Bool Lia.
From Verif Require Import Base Source WLChar GenTokenKind LongNames ByteDecoder CharDecoder TokenKind Format Tokenizer SpecText SpecReader SpecTokenizer SpecLex
  LongNamesProofs Decode Iter TextProofs Logic WlDecode FormatProofs TokLogic TokenizerProofs TokenLoop TokSim TokSpecs TokResults ReparseProofs LexProofs.
Import ListNotations.
Local Open Scope Z_scope.

(** ** What follows *)
Definition ender (based bare : bool) (e : list Z) : Prop :=
  e = [] \/ exists b r, e = b :: r /\ ~ digit_byte b /\ ~ In b [46; 96; 92] /\ (based = true -> ~ alnum b) /\
    (b = 42 \/ b = 94 -> ~ starts_with (fun c => c = 94 \/ c = 92) r) /\
    (bare = true -> b = 43 \/ b = 45 -> ~ starts_with (fun c => digit_byte c \/ c = 46 \/ c = 92) r).

(** The text [l] goes on with neither a digit nor a dot, nor, with a base, a letter. *)
Definition tail_ok (based : bool) (l : list Z) : Prop := forall c r, twl l = Some (c, r) ->
  isDigit (wc c) = false /\ wc c <> 46 /\ (based = true -> isAlphaOrDigit (wc c) = false).

Lemma alnum_iff : forall b, isAlphaOrDigit b = true <-> alnum b.
Proof.
  intros b. unfold isAlphaOrDigit, alnum, digit_byte. destruct (between_spec 65 b 90), (between_spec 97 b 122), (between_spec 48 b 57); cbn [orb]; split; intros; auto; try discriminate; lia.
Qed.
Lemma digit_iff : forall b, isDigit b = true <-> digit_byte b.
Proof. intros b. unfold isDigit, digit_byte. destruct (between_spec 48 b 57); split; intros; auto; try discriminate; lia. Qed.
Lemma alnum_false : forall b, ~ alnum b -> isAlphaOrDigit b = false.
Proof. intros b H. destruct (isAlphaOrDigit b) eqn:E; auto. apply alnum_iff in E. contradiction. Qed.
Lemma digit_false : forall b, ~ digit_byte b -> isDigit b = false.
Proof. intros b H. destruct (isDigit b) eqn:E; auto. apply digit_iff in E. contradiction. Qed.
Lemma alnum_ascii : forall b, alnum b -> 0 <= b < 0x80 /\ b <> 13 /\ b <> 92 /\ b <> 46 /\ b <> 94 /\ b <> 42 /\ b <> 96 /\ b <> 43 /\ b <> 45.
Proof. unfold alnum, digit_byte. intros b H. lia. Qed.
Lemma digit_alnum : forall b, digit_byte b -> alnum b. Proof. left. auto. Qed.

Lemma ender_plain : forall based bare e, ender based bare e -> plain_head e.
Proof. intros based bare e [->|(b & r & -> & _ & N & _)]; [exact I|]. cbn [plain_head]. intros ->. apply N. cbn. auto. Qed.
Lemma ender_byte : forall based bare e c r x, ender based bare e -> twl e = Some (c, r) -> 0 <= x < 0x80 -> wc c = x -> exists r', e = x :: r'.
Proof. intros based bare e c r x H T Hx E. eapply peek_byte; eauto. eapply ender_plain; eauto. Qed.
Lemma ender_tail : forall based bare e, ender based bare e -> tail_ok based e.
Proof.
  intros based bare e H c r T.
  assert (K : forall x, 0 <= x < 0x80 -> wc c = x -> ~ digit_byte x /\ x <> 46 /\ (based = true -> ~ alnum x)).
  { intros x Hx E. destruct (ender_byte _ _ _ _ _ x H T Hx E) as [r' ->]. destruct H as [H|(b & r2 & H & H1 & H2 & H3 & _)]; [discriminate|].
    injection H as <- <-. split; auto. split; auto. intros ->. apply H2. cbn. auto. }
  repeat split.
  - apply digit_false. intros D. pose proof D as D'. unfold digit_byte in D'. destruct (K (wc c)) as [N _]; auto; lia.
  - intros E. destruct (K 46) as (_ & N & _); auto; lia.
  - intros B. apply alnum_false. intros D. pose proof (alnum_ascii _ D). destruct (K (wc c)) as (_ & _ & N); auto; [lia|]. apply N; auto.
Qed.
Lemma ender_no : forall based bare e c r, ender based bare e -> twl e = Some (c, r) -> wc c <> 96.
Proof. intros based bare e c r H T E. destruct (ender_byte _ _ _ _ _ 96 H T) as [r' ->]; [lia|auto|]. destruct H as [H|(b & r2 & H & _ & N & _)]; [discriminate|]. injection H as <- <-. apply N. cbn. auto. Qed.
Lemma byte_tail : forall based b l, b = 42 \/ b = 96 \/ b = 94 -> tail_ok based (b :: l).
Proof.
  intros based b l H c r T. rewrite twl_ascii in T by lia. injection T as <- <-. cbn [wl wc]. destruct H as [->|[->| ->]]; repeat split; auto; lia.
Qed.
Lemma exp_tail : forall based bare x neg e, exponent x neg -> ender based bare e -> tail_ok based (x ++ e).
Proof. intros based bare x neg e H He. destruct H; cbn [app]; [eapply ender_tail; eauto| |]; apply byte_tail; auto. Qed.
Lemma prec_tail : forall based bare p pr x neg e, precision p pr -> exponent x neg -> ender based bare e -> tail_ok based (p ++ x ++ e).
Proof. intros based bare p pr x neg e H Hx He. destruct H; cbn [app]; [eapply exp_tail; eauto| | |]; apply byte_tail; auto. Qed.

(** ** The kind *)
Definition kind_of (bad real neg : bool) : Z := if bad then TK_Error_Number else if real then TK_Real else if neg then TK_Rational else TK_Integer.
Definition bad (x : numctx) : bool := InvalidBase x || UnrecognizedDigit x.
Definition fresh (x : numctx) : Prop := NegativeExponent x = false /\ NonZeroExponentDigitCount x = 0.
Lemma compute_kind : forall x, computeTok x = kind_of (bad x) (RealFlag x) (NegativeExponent x && negb (NonZeroExponentDigitCount x =? 0)).
Proof. intros [a b c d e f]. unfold computeTok, kind_of, bad. cbn. destruct a, b; reflexivity. Qed.
Lemma compute_fresh : forall x, fresh x -> computeTok x = kind_of (bad x) (RealFlag x) false.
Proof. intros x [H _]. rewrite compute_kind, H. reflexivity. Qed.

(** leading zeros *)
Lemma zeros_split : forall ds, Forall digit_byte ds -> exists n ds', ds = repeat 48 n ++ ds' /\ Forall digit_byte ds' /\ hd 0 ds' <> 48.
Proof.
  intros ds. induction ds as [|d ds IH]; intros F; [exists 0%nat, []; split; [reflexivity|]; split; [constructor|discriminate]|].
  inversion F; subst. destruct (Z.eq_dec d 48) as [->|N].
  - destruct IH as (n & ds' & -> & F' & N); auto. exists (S n), ds'. auto.
  - exists 0%nat, (d :: ds). auto.
Qed.
Lemma decimal_zeros : forall n ds, decimal (repeat 48 n ++ ds) = decimal ds.
Proof. unfold decimal. induction n; intros ds; cbn [repeat app decimal_from]; auto. Qed.
Lemma decimal_from_ge : forall ds v, Forall digit_byte ds -> 0 <= v -> v * 10 ^ Z.of_nat (length ds) <= decimal_from v ds.
Proof.
  induction ds as [|d ds IH]; intros v F Hv; cbn [decimal_from length]; [rewrite Z.pow_0_r; lia|]. inversion F as [|? ? Hd F']; subst. unfold digit_byte in Hd.
  rewrite Nat2Z.inj_succ, Z.pow_succ_r by lia. specialize (IH (10 * v + (d - 48)) F' ltac:(lia)).
  assert (0 <= 10 ^ Z.of_nat (length ds)) by (apply Z.pow_nonneg; lia). nia.
Qed.
Lemma decimal_nonzero : forall ds, Forall digit_byte ds -> hd 0 ds <> 48 -> decimal ds <> 0 <-> ds <> [].
Proof.
  intros [|d ds] F N; [split; intros H; exfalso; apply H; reflexivity|]. split; [discriminate|]. intros _. inversion F as [|? ? Hd F']; subst. cbn [hd] in N. unfold digit_byte in Hd.
  unfold decimal. cbn [decimal_from]. pose proof (decimal_from_ge ds (10 * 0 + (d - 48)) F' ltac:(lia)).
  assert (0 < 10 ^ Z.of_nat (length ds)) by (apply Z.pow_pos_nonneg; lia). nia.
Qed.

Section Numbers.
Context (o : opts) (p : pos) (pol : policy) (Hp : p_scan pol = false).

Definition tok_to (k : Z) (e : list Z) (t : token) (s' : st) : Prop := t_kind t = k /\ t_text t = buf_between (rest p) e.
Definition ahead (s : st) (c : wlchar) : Prop := exists r, twl (rest (cur s)) = Some (c, r).

Lemma mk_to : forall k s e, rest (cur s) = e -> po (mk_token k p) s (tok_to k e).
Proof. intros k s e R. apply po_mk_token. intros t T1 T2 _. split; auto. rewrite T2, R. reflexivity. Qed.
Lemma po_assert_first : forall B l x (k : unit -> M B) s Q, po (k tt) s Q -> po (bind (assert_first l x) k) s Q.
Proof. intros B l x k s Q K. unfold assert_first. destruct l; [exact I|]. apply po_assert. auto. Qed.
Lemma ahead_byte : forall s c b r, ahead s c -> rest (cur s) = b :: r -> 0 <= b < 0x80 -> b <> 13 -> b <> 92 -> c = wl b.
Proof. intros s c b r [r' T] R H1 H2 H3. rewrite R, twl_ascii in T by auto. congruence. Qed.
Lemma po_read : forall B b r (k : wlchar -> M B) s Q, Inv o s -> rest (cur s) = b :: r -> 0 <= b < 0x80 -> b <> 13 -> b <> 92 ->
  (forall s', Inv o s' -> rest (cur s') = r -> po (k (wl b)) s' Q) -> po (bind (nextWL o p pol) k) s Q.
Proof.
  intros B b r k s Q HI R H1 H2 H3 K. apply (po_nextWL o); auto. intros c s1 I1 E1. rewrite R, twl_ascii in E1 by auto. injection E1 as <- E1. auto.
Qed.
Lemma po_peek : forall B (k : wlchar -> M B) s Q, Inv o s ->
  (forall c s', Inv o s' -> cur s' = cur s -> ahead s' c -> po (k c) s' Q) -> po (bind (currentWL o p pol) k) s Q.
Proof. intros B k s Q HI K. apply (po_currentWL o); auto. intros c s' r I' C T. apply K; auto. exists r. rewrite C. auto. Qed.

(** ** Runs of digits *)
Lemma count_loop_run : forall n f k c s ds e, Inv o s -> Forall (fun d => digit_byte d /\ f d = true) ds ->
  (forall c' r, twl e = Some (c', r) -> f (wc c') = false) -> rest (cur s) = ds ++ e -> ahead s c ->
  po (count_loop o n p pol f k c) s (fun u s' => Inv o s' /\ rest (cur s') = e /\ ahead s' (snd u) /\ fst u = k + zlen ds).
Proof.
  induction n as [|n IH]; intros f k c s ds e HI F He R [r T]; cbn [count_loop]; [apply po_out|]. rewrite R in T. destruct ds as [|d ds].
  - cbn [app] in *. rewrite (He _ _ T). apply po_ret. split; auto. split; auto. split; [exists r; rewrite R; auto|]. cbn [fst]. unfold zlen. cbn. lia.
  - inversion F as [|? ? [Hd Hf] F']; subst. cbn [app] in *. pose proof Hd as Hd'. unfold digit_byte in Hd'. rewrite twl_ascii in T by lia. injection T as <- <-. cbn [wl wc]. rewrite Hf. cbn [negb].
    eapply po_read; eauto; try lia. intros s1 I1 R1. apply po_peek; auto. intros c2 s2 I2 C2 A2. eapply po_conseq; [apply (IH f (k + 1) c2 s2 ds e); auto; rewrite C2; auto|].
    intros u s' (I' & R' & A' & E). split; [auto|]. split; [auto|]. split; [auto|]. rewrite E. unfold zlen. cbn [length]. lia.
Qed.
Lemma zeros_run : forall c s n e, Inv o s -> wc c = 48 -> rest (cur s) = repeat 48 n ++ e -> (forall c' r, twl e = Some (c', r) -> wc c' <> 48) ->
  po (handleZeros o p pol c) s (fun u s' => Inv o s' /\ rest (cur s') = e /\ ahead s' (snd u) /\ fst u = 1 + Z.of_nat n).
Proof.
  intros c s n e HI E R He. unfold handleZeros. apply po_assert. intros _. apply po_peek; auto. intros c1 s1 I1 C1 A1. apply po_fuel.
  eapply po_conseq; [apply (count_loop_run _ _ _ _ _ (repeat 48 n) e); auto|].
  - apply Forall_forall. intros x Hx. apply repeat_spec in Hx. subst x. split; [unfold digit_byte; lia|reflexivity].
  - intros c' r T. apply Z.eqb_neq. intros X. apply (He _ _ T). auto.
  - rewrite C1. auto.
  - intros u s' (I' & R' & A' & Eu). split; [auto|]. split; [auto|]. split; [auto|]. rewrite Eu. unfold zlen. rewrite repeat_length. lia.
Qed.
Definition no_digit (e : list Z) : Prop := forall c r, twl e = Some (c, r) -> isDigit (wc c) = false.
Lemma digits_run : forall c s ds e, Inv o s -> Forall digit_byte ds -> rest (cur s) = ds ++ e -> no_digit e ->
  po (handleDigits o p pol c) s (fun u s' => Inv o s' /\ rest (cur s') = e /\ ahead s' (snd u) /\ fst u = 1 + zlen ds).
Proof.
  intros c s ds e HI F R He. unfold handleDigits. apply po_assert. intros _. apply po_peek; auto. intros c1 s1 I1 C1 A1. apply po_fuel.
  apply (count_loop_run _ _ _ _ _ ds e); auto.
  - eapply Forall_impl; [|exact F]. intros d Hd. split; auto. apply digit_iff. auto.
  - rewrite C1. auto.
Qed.
Lemma tail_no_digit : forall based e, tail_ok based e -> no_digit e.
Proof. intros based e H c r T. apply H in T. tauto. Qed.
Lemma byte_no_digit : forall b r, 0 <= b < 0x80 -> b <> 13 -> b <> 92 -> ~ digit_byte b -> no_digit (b :: r).
Proof. intros b r H1 H2 H3 N c r' T. rewrite twl_ascii in T by auto. injection T as <- _. apply digit_false. auto. Qed.
(** ** The exponent *)
Lemma hd_char : forall ds e c r x, Forall digit_byte ds -> hd 0 ds <> x -> digit_byte x -> tail_ok false e -> twl (ds ++ e) = Some (c, r) -> wc c <> x.
Proof.
  intros [|d ds] e c r x F N Hx He T; cbn [app] in T.
  - apply He in T as [D _]. intros E. rewrite E, (proj2 (digit_iff x) Hx) in D. discriminate.
  - inversion F as [|? ? Hd _]; subst. unfold digit_byte in Hd. rewrite twl_ascii in T by lia. injection T as <- _. exact N.
Qed.
Lemma tail_false : forall based l, tail_ok based l -> tail_ok false l.
Proof. intros based l H c r T. apply H in T as (A & B & _). split; [auto|]. split; [auto|]. discriminate. Qed.

Lemma exponent_run : forall x star s sg ds e neg based bare, Inv o s -> fresh x -> rest (cur s) = 94 :: sg ++ ds ++ e -> exponent (42 :: 94 :: sg ++ ds) neg ->
  (sg = [] \/ sg = [43] \/ sg = [45]) -> (neg = true <-> sg = [45] /\ decimal ds <> 0) -> digits ds -> ender based bare e ->
  po (number_exponent o p pol x star) s (tok_to (kind_of (bad x) (RealFlag x) neg) e).
Proof.
  intros x star s sg ds e neg based bare HI Hx R _ Hs Hn [Dn Dd] He. pose proof (tail_false _ _ (ender_tail _ _ _ He)) as Te.
  unfold number_exponent. apply po_assert_first. apply po_peek; auto. intros c s1 I1 C1 A1. rewrite <- C1 in R.
  rewrite (ahead_byte _ _ _ _ A1 R) by lia. cbn [wl wc]. change (94 =? 94) with true. cbn [negb]. eapply po_read; eauto; try lia. intros s2 I2 R2.
  apply po_peek; auto. intros c1 s3 I3 C3 A3. rewrite <- C3 in R2.
  set (x1 := if match sg with [45] => true | _ => false end then set_neg x else x).
  apply po_bind. apply (po_conseq _ _ _ (fun u s' => Inv o s' /\ rest (cur s') = ds ++ e /\ ahead s' (fst u) /\ snd u = x1)).
  { destruct ds as [|d ds]; [congruence|]. inversion Dd as [|? ? Hd _]; subst. pose proof Hd as Hd'. unfold digit_byte in Hd'.
    destruct Hs as [->|[->| ->]]; cbn [app] in R2; rewrite (ahead_byte _ _ _ _ A3 R2) by lia; cbn [wl wc].
    - destruct (Z.eqb_spec d 43); [lia|]. destruct (Z.eqb_spec d 45); [lia|]. cbn [orb]. apply po_ret. cbn [fst snd]. split; [auto|]. split; [auto|]. split; [|auto]. exists (ds ++ e). rewrite R2. apply twl_ascii; lia.
    - change ((43 =? 43) || (43 =? 45)) with true. cbv iota. eapply po_read; eauto; try lia. intros s4 I4 R4. apply po_peek; auto. intros c2 s5 I5 C5 A5. apply po_ret. cbn [fst snd]. rewrite C5. auto.
    - change ((45 =? 43) || (45 =? 45)) with true. cbv iota. eapply po_read; eauto; try lia. intros s4 I4 R4. apply po_peek; auto. intros c2 s5 I5 C5 A5. apply po_ret. cbn [fst snd]. rewrite C5. auto. }
  intros [c2 x1'] s4 (I4 & R4 & A4 & E4). cbn [fst snd] in *. subst x1'.
  assert (Dc : isDigit (wc c2) = true).
  { destruct ds as [|d ds]; [congruence|]. inversion Dd as [|? ? Hd _]; subst. pose proof Hd as Hd'. unfold digit_byte in Hd'. cbn [app] in R4.
    rewrite (ahead_byte _ _ _ _ A4 R4) by lia. apply digit_iff. auto. }
  rewrite Dc. cbn [negb]. destruct (zeros_split ds Dd) as (n & ds' & Eds & Fd' & Nz).
  apply po_bind. apply (po_conseq _ _ _ (fun c3 s' => Inv o s' /\ rest (cur s') = ds' ++ e /\ ahead s' c3)).
  { destruct (Z.eqb_spec (wc c2) 48) as [E|E].
    - apply po_bind. eapply po_conseq; [apply (zeros_run c2 s4 n (ds' ++ e)); auto|].
      + rewrite R4, Eds, <- app_assoc. reflexivity.
      + intros c' r T. eapply hd_char; eauto. unfold digit_byte. lia.
      + intros u s5 (I5 & R5 & A5 & _). apply po_ret. auto.
    - apply po_ret. destruct n as [|n]; [cbn [repeat app] in Eds; subst ds; auto|]. exfalso. apply E. rewrite Eds in R4. cbn [repeat app] in R4.
      rewrite (ahead_byte _ _ _ _ A4 R4) by lia. reflexivity. }
  intros c3 s5 (I5 & R5 & A5). apply po_bind.
  apply (po_conseq _ _ _ (fun u s' => Inv o s' /\ rest (cur s') = e /\ ahead s' (fst u) /\ exists m, snd u = set_expcount x1 m /\ (m <> 0 <-> ds' <> []))).
  { destruct (isDigit (wc c3)) eqn:D3.
    - apply po_bind. eapply po_conseq; [apply (digits_run c3 s5 ds' e); auto; eapply tail_no_digit; eauto|]. intros u s6 (I6 & R6 & A6 & E6). apply po_ret. cbn [fst snd]. split; [auto|]. split; [auto|]. split; [auto|].
      exists (fst u). split; auto. rewrite E6. split; intros _; [|unfold zlen; lia]. intros ->. cbn [app] in R5. destruct A5 as [r5 T5]. rewrite R5 in T5. apply Te in T5 as [T5 _]. congruence.
    - apply po_ret. cbn [fst snd]. destruct ds' as [|d ds'].
      + split; [auto|]. split; [auto|]. split; [auto|]. exists 0. split; [|split; congruence]. destruct Hx as [_ Hx]. unfold x1. destruct x as [a1 a2 a3 a4 a5 a6]. cbn in Hx. subst a5. destruct (match sg with [45] => true | _ => false end); reflexivity.
      + inversion Fd' as [|? ? Hd _]; subst. pose proof Hd as Hd'. unfold digit_byte in Hd'. cbn [app] in R5. rewrite (ahead_byte _ _ _ _ A5 R5) in D3 by lia. cbn [wl wc] in D3. rewrite (proj2 (digit_iff _) Hd) in D3. discriminate. }
  intros [c4 x2] s6 (I6 & R6 & A6 & m & Ex & Hm). cbn [fst snd] in *. subst x2.
  destruct A6 as [r6 T6]. rewrite R6 in T6. apply Te in T6 as (_ & N46 & _). destruct (Z.eqb_spec (wc c4) 46); [contradiction|]. cbn [negb].
  rewrite compute_kind.
  replace (kind_of (bad x) (RealFlag x) neg) with (kind_of (bad (set_expcount x1 m)) (RealFlag (set_expcount x1 m)) (NegativeExponent (set_expcount x1 m) && negb (NonZeroExponentDigitCount (set_expcount x1 m) =? 0))).
  { apply mk_to. auto. }
  assert (Ed : decimal ds <> 0 <-> ds' <> []) by (rewrite Eds, decimal_zeros; apply decimal_nonzero; auto).
  destruct Hx as [Hx _]. destruct x as [a1 a2 a3 a4 a5 a6]. cbn in Hx. subst a3. unfold x1, bad, set_expcount, set_neg. 
  assert (Ng : neg = match sg with [45] => true | _ => false end && negb (m =? 0)).
  { destruct (Z.eqb_spec m 0) as [->|Nm]; cbn [negb].
    - rewrite andb_false_r. destruct neg; auto. destruct Hn as [Hn _]. destruct (Hn eq_refl) as [_ Hd]. apply Ed in Hd. apply Hm in Hd. congruence.
    - apply Hm, Ed in Nm. rewrite andb_true_r. destruct Hs as [->|[->| ->]]; [| |apply Hn; auto]; (destruct neg; auto; destruct Hn as [Hn _]; destruct (Hn eq_refl); discriminate). }
  rewrite Ng. destruct Hs as [->|[->| ->]]; reflexivity.
Qed.

(** a star that is or is not the beginning of an exponent *)
Lemma star_or_end : forall x c s w e neg based bare, Inv o s -> fresh x -> exponent w neg -> ender based bare e -> rest (cur s) = w ++ e -> ahead s c ->
  po (if wc c =? 42 then number_star o p pol x else mk_token (computeTok x) p) s (tok_to (kind_of (bad x) (RealFlag x) neg) e).
Proof.
  intros x c s w e neg based bare HI Hx Hw He R A.
  assert (Go : forall sg ds, w = 42 :: 94 :: sg ++ ds -> (sg = [] \/ sg = [43] \/ sg = [45]) -> (neg = true <-> sg = [45] /\ decimal ds <> 0) -> digits ds ->
    po (if wc c =? 42 then number_star o p pol x else mk_token (computeTok x) p) s (tok_to (kind_of (bad x) (RealFlag x) neg) e)).
  { intros sg ds -> Hs Hn Hd. cbn [app] in R. rewrite (ahead_byte _ _ _ _ A R) by lia. cbn [wl wc]. change (42 =? 42) with true. cbv iota.
    unfold number_star. apply po_mark, po_assert_first. eapply po_read; eauto; try lia. intros s1 I1 R1. eapply (exponent_run _ _ _ sg ds); eauto. rewrite R1, <- app_assoc. reflexivity. }
  destruct Hw as [|sg ds Hs Hd|ds neg Hd Hn].
  - cbn [app] in R. destruct (Z.eqb_spec (wc c) 42) as [E|E].
    + destruct A as [r T]. rewrite R in T. destruct (ender_byte _ _ _ _ _ 42 He T) as [r' Er]; [lia|auto|]. rewrite Er in R.
      unfold number_star. apply po_mark, po_assert_first. eapply po_read; eauto; try lia. intros s1 I1 R1. unfold number_exponent. apply po_assert_first.
      apply po_peek; auto. intros c1 s2 I2 C2 [r2 T2]. rewrite C2, R1 in T2.
      destruct He as [He|(b & r3 & He & _ & _ & _ & N & _)]; [congruence|]. rewrite Er in He. injection He as <- <-.
      destruct (Z.eqb_spec (wc c1) 94) as [E1|E1]; cbn [negb].
      * exfalso. apply N; auto. destruct r' as [|z r']; [apply twl_ascii_first in T2 as (b & t & ? & _); [discriminate|lia]|]. exists z, r'. split; auto.
        apply twl_ascii_first in T2 as (b & t & Eb & Hb); [|lia]. injection Eb as <- <-. rewrite E1 in Hb. tauto.
      * rewrite compute_fresh by auto. apply po_bind. unfold po at 1, seek. cbn [cur]. apply mk_to. cbn [cur]. rewrite R. auto.
    + rewrite compute_fresh by auto. apply mk_to. auto.
  - apply (Go sg ds); auto; [tauto|]. split; [discriminate|]. intros [E _]. destruct Hs as [->| ->]; discriminate.
  - apply (Go [45] ds); auto. rewrite Hn. tauto.
Qed.

(** ** Digits in a base *)
Definition unfit (base : Z) (ds : list Z) : bool := negb (base =? 0) && existsb (fun d => base <=? toDigit d) ds.
Definition mark_bad (base : Z) (ds : list Z) (x : numctx) : numctx := if unfit base ds then set_unrec x else x.
Definition run_of (base : Z) (ds e : list Z) : Prop :=
  if base =? 0 then Forall digit_byte ds /\ no_digit e else Forall alnum ds /\ (forall c r, twl e = Some (c, r) -> isAlphaOrDigit (wc c) = false).
Definition no_dot (e : list Z) : Prop := forall c r, twl e = Some (c, r) -> wc c <> 46.
Lemma tail_no_dot : forall based e, tail_ok based e -> no_dot e.
Proof. intros based e H c r T. apply H in T. tauto. Qed.
Lemma tail_run_of : forall base ds e, (if base =? 0 then Forall digit_byte ds else Forall alnum ds) -> tail_ok (negb (base =? 0)) e -> run_of base ds e.
Proof. intros base ds e F H. unfold run_of. destruct (base =? 0); split; auto; intros c r T; apply H in T; tauto. Qed.

Lemma mark_bad_cons : forall base d ds x, mark_bad base ds (if negb (base =? 0) && (base <=? toDigit d) then set_unrec x else x) = mark_bad base (d :: ds) x.
Proof.
  intros base d ds x. unfold mark_bad, unfit. cbn [existsb]. destruct (base =? 0); cbn [negb andb]; auto.
  destruct (base <=? toDigit d); cbn [orb]; auto. destruct (existsb _ ds); reflexivity.
Qed.
Lemma alnum_run : forall n base x k c s ds e, Inv o s -> run_of base ds e -> rest (cur s) = ds ++ e -> ahead s c ->
  po (alnum_loop o n p pol base x k c) s (fun u s' => Inv o s' /\ rest (cur s') = e /\ ahead s' (snd (fst u)) /\ fst (fst u) = k + zlen ds /\ snd u = mark_bad base ds x).
Proof.
  induction n as [|n IH]; intros base x k c s ds e HI F R A; cbn [alnum_loop]; [apply po_out|]. destruct ds as [|d ds].
  - assert (Stop : po (ret (k, c, x)) s (fun u s' => Inv o s' /\ rest (cur s') = e /\ ahead s' (snd (fst u)) /\ fst (fst u) = k + zlen (@nil Z) /\ snd u = mark_bad base [] x)).
    { apply po_ret. cbn [fst snd]. split; [auto|]. split; [auto|]. split; [auto|]. split; [unfold zlen; cbn; lia|]. unfold mark_bad, unfit. cbn [existsb]. rewrite andb_false_r. reflexivity. }
    cbn [app] in R. destruct (isAlphaOrDigit (wc c)) eqn:Ea; cbn [negb]; auto. destruct A as [r T]. rewrite R in T. unfold run_of in F. destruct (base =? 0); cbn [andb].
    + destruct F as [_ He]. apply He in T. rewrite T. cbn [negb]. exact Stop.
    + destruct F as [_ He]. apply He in T. rewrite T in Ea; auto. discriminate.
  - assert (Fd : alnum d /\ run_of base ds e /\ (base = 0 -> digit_byte d)).
    { unfold run_of in *. destruct (Z.eqb_spec base 0); destruct F as [F He]; inversion F as [|? ? Fd F']; subst.
      - split; [apply digit_alnum; auto|]. split; auto.
      - split; auto. split; auto. intros; contradiction. }
    destruct Fd as (Ad & F' & Dd). pose proof (alnum_ascii d Ad). cbn [app] in R. rewrite (ahead_byte _ _ _ _ A R) by lia. cbn [wl wc].
    rewrite (proj2 (alnum_iff d) Ad). cbn [negb]. replace ((base =? 0) && negb (isDigit d)) with false.
    2:{ destruct (Z.eqb_spec base 0); auto. rewrite (proj2 (digit_iff d)) by auto. reflexivity. }
    cbv zeta. eapply po_read; eauto; try lia. intros s1 I1 R1. apply po_peek; auto. intros c2 s2 I2 C2 A2.
    eapply po_conseq; [apply (IH base _ (k + 1) c2 s2 ds e); auto; rewrite C2; auto|]. intros u s' (I' & R' & A' & E1 & E2). split; [auto|]. split; [auto|]. split; [auto|].
    split; [rewrite E1; unfold zlen; cbn [length]; lia|]. rewrite E2. apply mark_bad_cons.
Qed.
Lemma past_dot_run : forall m base x c s ds e, Inv o s -> run_of base ds e -> no_dot e -> rest (cur s) = ds ++ e -> ahead s c ->
  po (handlePastDot o p m c base pol x) s (fun u s' => Inv o s' /\ rest (cur s') = e /\ ahead s' (snd (fst u)) /\ fst (fst u) = Count (zlen ds) /\ snd u = mark_bad base ds x).
Proof.
  intros m base x c s ds e HI F Nd R A. unfold handlePastDot.
  assert (N : wc c <> 46).
  { destruct ds as [|d ds]; cbn [app] in R.
    - destruct A as [r T]. rewrite R in T. eapply Nd; eauto.
    - assert (Ad : alnum d) by (unfold run_of in F; destruct (base =? 0); destruct F as [F _]; inversion F; subst; auto; apply digit_alnum; auto).
      pose proof (alnum_ascii d Ad). rewrite (ahead_byte _ _ _ _ A R) by lia. cbn [wl wc]. lia. }
  destruct (Z.eqb_spec (wc c) 46); [contradiction|]. destruct (isAlphaOrDigit (wc c)) eqn:Ea.
  - apply po_bind. unfold handleAlphaOrDigits. apply po_assert. intros _. apply po_fuel. eapply po_conseq; [apply (alnum_run _ base x 0 c s ds e); auto|].
    intros [[h c1] x1] s1 (I1 & R1 & A1 & E1 & E2). cbn [fst snd] in *. apply (po_inert o); [solve [inert]|auto|]. intros _ s2 I2 C2. apply po_ret. cbn [fst snd].
    split; [auto|]. rewrite C2. split; [auto|]. split; [destruct A1 as [r1 T1]; exists r1; rewrite C2; auto|]. split; [rewrite E1; f_equal; lia|auto].
  - destruct ds as [|d ds].
    + apply po_ret. cbn [fst snd]. split; [auto|]. split; [auto|]. split; [auto|]. split; [reflexivity|]. unfold mark_bad, unfit. cbn [existsb]. rewrite andb_false_r. reflexivity.
    + exfalso. assert (Ad : alnum d) by (unfold run_of in F; destruct (base =? 0); destruct F as [F _]; inversion F; subst; auto; apply digit_alnum; auto).
      pose proof (alnum_ascii d Ad). cbn [app] in R. rewrite (ahead_byte _ _ _ _ A R) in Ea by lia. cbn [wl wc] in Ea. rewrite (proj2 (alnum_iff d) Ad) in Ea. discriminate.
Qed.

(** ** The precision *)
Lemma after_precision : forall x c s w e neg based bare acc sup, Inv o s -> fresh x -> exponent w neg -> ender based bare e -> rest (cur s) = w ++ e -> ahead s c ->
  acc && negb sup = false -> po (number_after_precision o p pol x acc sup c) s (tok_to (kind_of (bad x) (RealFlag x) neg) e).
Proof.
  intros x c s w e neg based bare acc sup HI Hx Hw He R A B. pose proof (star_or_end x c s w e neg based bare HI Hx Hw He R A) as H.
  unfold number_after_precision. rewrite B. exact H.
Qed.
Lemma exp_not_dot : forall w neg e based bare s c, exponent w neg -> ender based bare e -> rest (cur s) = w ++ e -> ahead s c -> wc c <> 46 /\ isDigit (wc c) = false.
Proof. intros w neg e based bare s c Hw He R [r T]. rewrite R in T. pose proof (exp_tail _ _ _ _ _ Hw He _ _ T). tauto. Qed.

Lemma precision_digits : forall x c s d w e neg based bare acc sg sm, Inv o s -> fresh x -> decimal_text d -> exponent w neg -> ender based bare e -> rest (cur s) = d ++ w ++ e -> ahead s c ->
  (sg = true -> sm <> None) -> po (number_precision_digits o p pol x acc sg sm c) s (tok_to (kind_of (bad x) (RealFlag x) neg) e).
Proof.
  intros x c s d w e neg based bare acc sg sm HI Hx Hd Hw He R A Hsm.
  pose proof (tail_false _ _ (exp_tail _ _ _ _ _ Hw He)) as Tw.
  assert (Past : forall m fs c1 s1 sup, Inv o s1 -> Forall digit_byte fs -> rest (cur s1) = fs ++ w ++ e -> ahead s1 c1 -> (sup = true \/ fs <> []) ->
    po (bind (handlePastDot o p m c1 0 pol x) (fun r => let '(h, c2, x1) := r in
      match h with
      | Bailout => if sup then mk_token (computeTok x1) p else if sg then match sm with Some m => bind (backupAndWarn o (imark_of m)) (fun _ => mk_token (computeTok x1) p) | None => panic end else panic
      | Count n => let supplied' := if n =? 0 then sup else true in
          if negb supplied' then mk_token TK_Error_Number p else number_after_precision o p pol x1 acc supplied' c2 end)) s1
      (tok_to (kind_of (bad x) (RealFlag x) neg) e)).
  { intros m fs c1 s1 sup I1 Ff R1 A1 Hs. apply po_bind. eapply po_conseq; [apply (past_dot_run m 0 x c1 s1 fs (w ++ e)); auto; [split; auto; eapply tail_no_digit; eauto|eapply tail_no_dot; eauto]|].
    intros [[h c2] x1] s2 (I2 & R2 & A2 & E1 & E2). cbn [fst snd] in *. subst h x1. change (mark_bad 0 fs x) with x. cbv zeta.
    assert (Es : (if zlen fs =? 0 then sup else true) = true).
    { destruct (Z.eqb_spec (zlen fs) 0) as [Z|]; auto. destruct Hs as [Hs|Hs]; auto. destruct fs; [congruence|]. unfold zlen in Z. cbn [length] in Z. lia. }
    rewrite Es. cbn [negb]. eapply after_precision; eauto. apply andb_false_r. }
  unfold number_precision_digits. destruct Hd as [ds [Dn Dd]|ds fs [Dn Dd] Ff|fs [Fn Ff]].
  - destruct ds as [|d ds]; [congruence|]. inversion Dd as [|? ? Hd _]; subst. pose proof Hd as Hd'. unfold digit_byte in Hd'. pose proof R as Rc. cbn [app] in Rc. rewrite (ahead_byte _ _ _ _ A Rc) by lia. cbn [wl wc].
    rewrite (proj2 (digit_iff d) Hd). apply po_bind. eapply po_conseq; [apply (digits_run (wl d) s (d :: ds) (w ++ e)); auto; eapply tail_no_digit; eauto|].
    intros [n c1] s1 (I1 & R1 & A1 & E1). cbn [fst snd] in *. assert (Hn : (0 <? n) = true) by (apply Z.ltb_lt; rewrite E1; unfold zlen; lia).
    destruct (exp_not_dot _ _ _ _ _ _ _ Hw He R1 A1) as [N46 _]. destruct (Z.eqb_spec (wc c1) 46); [contradiction|]. cbn [orb].
    destruct (Z.eqb_spec (wc c1) 42) as [E|E].
    + rewrite Hn. unfold number_precision_dot. destruct (Z.eqb_spec (wc c1) 46); [contradiction|]. eapply after_precision; eauto. apply andb_false_r.
    + destruct Hw; cbn [app] in R1.
      * rewrite compute_fresh by auto. apply mk_to. auto.
      * exfalso. apply E. rewrite (ahead_byte _ _ _ _ A1 R1) by lia. reflexivity.
      * exfalso. apply E. rewrite (ahead_byte _ _ _ _ A1 R1) by lia. reflexivity.
  - destruct ds as [|d ds]; [congruence|]. inversion Dd as [|? ? Hd _]; subst. pose proof Hd as Hd'. unfold digit_byte in Hd'. pose proof R as Rc. cbn [app] in Rc. rewrite (ahead_byte _ _ _ _ A Rc) by lia. cbn [wl wc].
    rewrite (proj2 (digit_iff d) Hd). apply po_bind. rewrite <- app_assoc in R. eapply po_conseq; [apply (digits_run (wl d) s (d :: ds) ((46 :: fs) ++ w ++ e)); auto|].
    { cbn [app]. apply byte_no_digit; unfold digit_byte; lia. }
    intros [n c1] s1 (I1 & R1 & A1 & E1). cbn [fst snd] in *. assert (Hn : (0 <? n) = true) by (apply Z.ltb_lt; rewrite E1; unfold zlen; lia).
    cbn [app] in R1. rewrite (ahead_byte _ _ _ _ A1 R1) by lia. cbn [wl wc]. change ((46 =? 46) || (46 =? 42)) with true. cbv iota. rewrite Hn.
    unfold number_precision_dot. cbn [wl wc]. change (46 =? 46) with true. cbv iota. apply po_mark, po_assert_first. cbv zeta. rewrite orb_true_r. cbn [negb].
    eapply po_read; eauto; try lia. intros s2 I2 R2. apply po_peek; auto. intros c2 s3 I3 C3 A3. apply (Past _ fs c2 s3 true); auto. rewrite C3. auto.
  - cbn [app] in R. rewrite (ahead_byte _ _ _ _ A R) by lia. cbn [wl wc]. change (isDigit 46) with false. cbv iota.
    unfold number_precision_dot. cbn [wl wc]. change (46 =? 46) with true. cbv iota. apply po_mark, po_assert_first. cbv zeta. rewrite orb_false_r.
    assert (Go : forall s2, Inv o s2 -> rest (cur s2) = fs ++ w ++ e -> forall (f : wlchar -> M token), True) by auto. clear Go.
    destruct sg; cbn [negb].
    + eapply po_read; eauto; try lia. intros s2 I2 R2. apply po_peek; auto. intros c2 s3 I3 C3 A3. apply (Past _ fs c2 s3 false); auto. rewrite C3. auto.
    + eapply po_read; eauto; try lia. intros s2 I2 R2. apply po_peek; auto. intros c2 s3 I3 C3 A3. rewrite <- C3 in R2.
      assert (D2 : isDigit (wc c2) = true).
      { destruct fs as [|f fs]; [congruence|]. inversion Ff as [|? ? Hf _]; subst. pose proof Hf as Hf'. unfold digit_byte in Hf'. cbn [app] in R2. rewrite (ahead_byte _ _ _ _ A3 R2) by lia. apply digit_iff. auto. }
      rewrite D2. cbn [negb]. apply (Past _ fs c2 s3 false); auto.
Qed.

Lemma not_sign : forall b, b <> 43 -> b <> 45 -> (b =? 45) || (b =? 43) = false.
Proof. intros b H1 H2. apply orb_false_intro; apply Z.eqb_neq; auto. Qed.

(** after the backquote *)
Lemma backquote_run : forall x s q w e neg based bare, Inv o s -> fresh x -> precision (96 :: q) true -> exponent w neg -> (q = [] -> w = [] -> bare = true) ->
  ender based bare e -> rest (cur s) = q ++ w ++ e -> po (number_backquote o p pol x) s (tok_to (kind_of (bad x) true neg) e).
Proof.
  intros x s q w e neg based bare HI Hx Hq Hw Hb He R. unfold number_backquote. cbv zeta.
  assert (Hx' : fresh (set_real x)) by exact Hx. change (tok_to (kind_of (bad x) true neg) e) with (tok_to (kind_of (bad (set_real x)) (RealFlag (set_real x)) neg) e). set (y := set_real x) in *. clearbody y. clear x Hx.
  assert (Sg : forall acc sg d s1 c1, Inv o s1 -> sign sg -> decimal_text d -> rest (cur s1) = sg ++ d ++ w ++ e -> ahead s1 c1 ->
    po (if (wc c1 =? 45) || (wc c1 =? 43) then
          bind mark (fun sm => bind match rest sm with [] => panic | b :: _ => assert_ (ifASCIIWLCharacter b 45 || ifASCIIWLCharacter b 43) end (fun _ =>
          bind (nextWL o p pol) (fun _ => bind (currentWL o p pol) (fun c2 =>
            if isDigit (wc c2) || (wc c2 =? 46) then bind (when_ (o_check_issues o && negb acc) (report UnexpectedSign Warning (ploc sm) (ploc sm))) (fun _ =>
              number_precision_digits o p pol y acc true (Some sm) c2)
            else if acc then mk_token TK_Error_Number p else bind (backupAndWarn o (imark_of sm)) (fun _ => mk_token (computeTok y) p)))))
        else number_precision_digits o p pol y acc false None c1) s1 (tok_to (kind_of (bad y) (RealFlag y) neg) e)).
  { intros acc sg d s1 c1 I1 Hs Hd R1 A1.
    assert (First : forall s2 c2, rest (cur s2) = d ++ w ++ e -> ahead s2 c2 -> isDigit (wc c2) || (wc c2 =? 46) = true /\ wc c2 <> 45 /\ wc c2 <> 43).
    { intros s2 c2 R2 A2. destruct Hd as [ds [Dn Dd]|ds fs [Dn Dd] Ff|fs [Fn Ff]].
      - destruct ds as [|d ds]; [congruence|]. inversion Dd as [|? ? Hd _]; subst. pose proof Hd as Hd'. unfold digit_byte in Hd'. cbn [app] in R2. rewrite (ahead_byte _ _ _ _ A2 R2) by lia.
        cbn [wl wc]. rewrite (proj2 (digit_iff d) Hd). cbn [orb]. lia.
      - destruct ds as [|d ds]; [congruence|]. inversion Dd as [|? ? Hd _]; subst. pose proof Hd as Hd'. unfold digit_byte in Hd'. cbn [app] in R2. rewrite (ahead_byte _ _ _ _ A2 R2) by lia.
        cbn [wl wc]. rewrite (proj2 (digit_iff d) Hd). cbn [orb]. lia.
      - cbn [app] in R2. rewrite (ahead_byte _ _ _ _ A2 R2) by lia. cbn [wl wc]. split; [reflexivity|lia]. }
    assert (Signed : forall b r, b = 43 \/ b = 45 -> rest (cur s1) = b :: d ++ w ++ e -> c1 = wl b -> r = d -> po (if (wc c1 =? 45) || (wc c1 =? 43) then
          bind mark (fun sm => bind match rest sm with [] => panic | b :: _ => assert_ (ifASCIIWLCharacter b 45 || ifASCIIWLCharacter b 43) end (fun _ =>
          bind (nextWL o p pol) (fun _ => bind (currentWL o p pol) (fun c2 =>
            if isDigit (wc c2) || (wc c2 =? 46) then bind (when_ (o_check_issues o && negb acc) (report UnexpectedSign Warning (ploc sm) (ploc sm))) (fun _ =>
              number_precision_digits o p pol y acc true (Some sm) c2)
            else if acc then mk_token TK_Error_Number p else bind (backupAndWarn o (imark_of sm)) (fun _ => mk_token (computeTok y) p)))))
        else number_precision_digits o p pol y acc false None c1) s1 (tok_to (kind_of (bad y) (RealFlag y) neg) e)).
    { intros b r Hb' Rb -> _. cbn [wl wc]. replace ((b =? 45) || (b =? 43)) with true by (destruct Hb' as [->| ->]; reflexivity). cbv iota.
      apply po_mark. rewrite Rb. apply po_assert. intros _. eapply po_read; eauto; try lia. intros s2 I2 R2. apply po_peek; auto. intros c2 s3 I3 C3 A3. rewrite <- C3 in R2.
      destruct (First _ _ R2 A3) as [-> _]. apply (po_inert o); [solve [inert]|auto|]. intros _ s4 I4 C4. eapply (precision_digits _ _ _ d w e); eauto; try (rewrite C4; auto); [|discriminate].
      destruct A3 as [r3 T3]. exists r3. rewrite C4. auto. }
    destruct Hs as [->|[->| ->]]; cbn [app] in R1.
    - destruct (First _ _ R1 A1) as (_ & N1 & N2). rewrite not_sign by auto. eapply (precision_digits _ _ _ d w e); eauto. discriminate.
    - apply (Signed 43 d); auto. apply (ahead_byte _ _ _ _ A1 R1); lia.
    - apply (Signed 45 d); auto. apply (ahead_byte _ _ _ _ A1 R1); lia. }
  apply po_peek; auto. intros c s1 I1 C1 A1. rewrite <- C1 in R. inversion Hq as [|Eq|sg d Hs Hd Eq|sg d Hs Hd Eq]; subst q.
  - (* nothing *)
    cbn [app] in R.
    assert (Nc : wc c <> 96 /\ (w <> [] -> wc c = 42)).
    { destruct Hw as [|sg ds Hs Hd|ds neg Hd Hn]; cbn [app] in R.
      - split; [|congruence]. destruct A1 as [r T]. rewrite R in T. eapply ender_no; eauto.
      - rewrite (ahead_byte _ _ _ _ A1 R) by lia. cbn [wl wc]. lia.
      - rewrite (ahead_byte _ _ _ _ A1 R) by lia. cbn [wl wc]. lia. }
    destruct Nc as [N96 Nw]. destruct (Z.eqb_spec (wc c) 96); [contradiction|]. apply po_bind, po_ret.
    destruct ((wc c =? 45) || (wc c =? 43)) eqn:Es.
    + assert (Ew : w = []) by (destruct w; auto; specialize (Nw ltac:(discriminate)); rewrite Nw in Es; discriminate). subst w. cbn [app] in R. specialize (Hb eq_refl eq_refl). subst bare.
      assert (Hc : wc c = 43 \/ wc c = 45) by (apply orb_prop in Es as [Es|Es]; apply Z.eqb_eq in Es; auto). clear Es.
      destruct A1 as [r T]. rewrite R in T. destruct (ender_byte _ _ _ _ _ (wc c) He T) as [r' Er]; [lia|auto|]. rewrite Er in R.
      apply po_mark. rewrite R. apply po_assert. intros _. eapply po_read; eauto; try lia. intros s2 I2 R2. apply po_peek; auto. intros c2 s3 I3 C3 [r3 T3]. rewrite C3, R2 in T3.
      destruct He as [He|(b & r4 & He & _ & _ & _ & _ & N)]; [congruence|]. rewrite Er in He. injection He as <- <-. specialize (N eq_refl ltac:(tauto)).
      assert (Nx : forall z, 0 <= z < 0x80 -> (digit_byte z \/ z = 46) -> wc c2 <> z).
      { intros z Hz Hz' E. apply N. destruct (twl_ascii_first _ _ _ T3) as (b & t & -> & Hb); [lia|]. exists b, t. split; auto. rewrite E in Hb. destruct Hb as [->| ->]; tauto. }
      replace (isDigit (wc c2) || (wc c2 =? 46)) with false.
      2:{ symmetry. apply orb_false_intro; [|apply Z.eqb_neq; apply Nx; auto; lia]. apply digit_false. intros D. pose proof D as D'. unfold digit_byte in D'. apply (Nx (wc c2)); auto; lia. }
      apply po_backup; [auto|]. intros s4 C4. rewrite compute_fresh by auto. inversion Hw; subst neg.
      apply mk_to. rewrite C4, R, Er. reflexivity.
    + destruct (exp_not_dot _ _ _ _ _ _ _ Hw He R A1) as [N46 ND]. unfold number_precision_digits. rewrite ND. unfold number_precision_dot. destruct (Z.eqb_spec (wc c) 46); [contradiction|].
      eapply after_precision; eauto.
  - rewrite <- app_assoc in R.
    assert (Nc : wc c <> 96).
    { assert (K : exists b l, sg ++ d = b :: l /\ (b = 43 \/ b = 45 \/ b = 46 \/ digit_byte b)).
      { destruct Hs as [->|[->| ->]]; cbn [app]; [|exists 43, d; auto|exists 45, d; auto]. destruct Hd as [ds [Dn Dd]|ds fs [Dn Dd] Ff|fs [Fn Ff]]; [| |exists 46, fs; auto].
        - destruct ds as [|d ds]; [congruence|]. inversion Dd; subst. exists d, ds. auto.
        - destruct ds as [|d ds]; [congruence|]. inversion Dd; subst. exists d, (ds ++ 46 :: fs). auto. }
      destruct K as (b & l & E & Hl). rewrite app_assoc, E in R. cbn [app] in R. unfold digit_byte in Hl. rewrite (ahead_byte _ _ _ _ A1 R) by lia. cbn [wl wc]. lia. }
    destruct (Z.eqb_spec (wc c) 96); [contradiction|]. apply po_bind, po_ret. apply (Sg false sg d); auto.
  - cbn [app] in R. rewrite <- app_assoc in R. rewrite (ahead_byte _ _ _ _ A1 R) by lia. cbn [wl wc]. change (96 =? 96) with true. cbv iota. apply po_bind.
    eapply po_read; eauto; try lia. intros s2 I2 R2. apply po_peek; auto. intros c2 s3 I3 C3 A3. apply po_ret. apply (Sg true sg d); auto. rewrite C3. auto.
Qed.

(** precision and exponent *)
Lemma tail_run : forall x c s q pr w e neg based bare, Inv o s -> fresh x -> precision q pr -> exponent w neg -> (last q 0 = 96 -> w = [] -> bare = true) ->
  ender based bare e -> rest (cur s) = q ++ w ++ e -> ahead s c -> po (number_tail o p pol x c) s (tok_to (kind_of (bad x) (RealFlag x || pr) neg) e).
Proof.
  intros x c s q pr w e neg based bare HI Hx Hq Hw Hb He R A. unfold number_tail.
  assert (Back : forall q', q = 96 :: q' -> pr = true -> precision (96 :: q') true -> (q' = [] -> w = [] -> bare = true) ->
    po (if wc c =? 96 then bind (nextWL o p pol) (fun _ => number_backquote o p pol x) else if wc c =? 42 then number_star o p pol x else mk_token (computeTok x) p) s (tok_to (kind_of (bad x) (RealFlag x || pr) neg) e)).
  { intros q' -> -> Hq' Hb'. cbn [app] in R. rewrite (ahead_byte _ _ _ _ A R) by lia. cbn [wl wc]. change (96 =? 96) with true. cbv iota. rewrite orb_true_r.
    eapply po_read; eauto; try lia. intros s1 I1 R1. eapply backquote_run; eauto. }
  destruct Hq as [| |sg d Hs Hd|sg d Hs Hd].
  - cbn [app] in R. assert (N : wc c <> 96).
    { destruct Hw as [|sg ds Hs Hd|ds neg Hd Hn]; cbn [app] in R.
      - destruct A as [r T]. rewrite R in T. eapply ender_no; eauto.
      - rewrite (ahead_byte _ _ _ _ A R) by lia. cbn [wl wc]. lia.
      - rewrite (ahead_byte _ _ _ _ A R) by lia. cbn [wl wc]. lia. }
    destruct (Z.eqb_spec (wc c) 96); [contradiction|]. rewrite orb_false_r. eapply star_or_end; eauto.
  - apply (Back []); auto. constructor.
  - apply (Back (sg ++ d)); auto; [constructor; auto|]. intros E. exfalso. apply app_eq_nil in E as [_ E]. destruct Hd as [ds [Dn _]|ds fs _ _|fs _]; try (apply app_eq_nil in E as [_ E]); try discriminate; contradiction.
  - apply (Back (96 :: sg ++ d)); auto; [constructor; auto|]. intros E. discriminate.
Qed.

(** ** The mantissa *)
Lemma fraction_run : forall x c s fs q pr w e neg bare lead m, Inv o s -> fresh x -> wc c = 46 -> (if Base x =? 0 then Forall digit_byte fs else Forall alnum fs) ->
  precision q pr -> exponent w neg -> (last q 0 = 96 -> w = [] -> bare = true) -> ender (negb (Base x =? 0)) bare e -> rest (cur s) = fs ++ q ++ w ++ e ->
  (0 < lead \/ lead = 0 /\ fs <> []) -> po (number_fraction o p pol x lead m c) s (tok_to (kind_of (bad x || unfit (Base x) fs) true neg) e).
Proof.
  intros x c s fs q pr w e neg bare lead m HI Hx Ec F Hq Hw Hb He R Hl. unfold number_fraction, handlePossibleFractionalPart. apply po_bind, po_assert. intros _.
  apply po_peek; auto. intros c1 s1 I1 C1 A1. rewrite <- C1 in R. assert (Tl : tail_ok (negb (Base x =? 0)) (q ++ w ++ e)) by (eapply prec_tail; eauto).
  eapply po_conseq; [apply (past_dot_run m (Base x) x c1 s1 fs (q ++ w ++ e)); auto; [apply tail_run_of; auto|eapply tail_no_dot; eauto]|].
  intros [[h c2] x1] s2 (I2 & R2 & A2 & E1 & E2). cbn [fst snd] in *. subst h x1.
  replace ((zlen fs =? 0) && (lead =? 0)) with false.
  2:{ symmetry. destruct (Z.eqb_spec (zlen fs) 0) as [Z|]; auto. destruct (Z.eqb_spec lead 0); auto. destruct Hl as [Hl|[_ Hl]]; [lia|]. destruct fs; [congruence|]. unfold zlen in Z. cbn [length] in Z. lia. }
  assert (Hx' : fresh (set_real (mark_bad (Base x) fs x))) by (unfold mark_bad; destruct (unfit _ _); exact Hx).
  pose proof (tail_run _ c2 s2 q pr w e neg _ bare I2 Hx' Hq Hw Hb He R2 A2) as H.
  replace (bad x || unfit (Base x) fs) with (bad (set_real (mark_bad (Base x) fs x))).
  2:{ unfold mark_bad, bad. destruct (unfit (Base x) fs); cbn; [rewrite !orb_true_r; reflexivity|rewrite orb_false_r; reflexivity]. }
  exact H.
Qed.

Lemma base_value : forall ds' r n, Forall digit_byte ds' -> hd 0 ds' <> 48 -> decimal ds' = n -> 2 <= n <= 36 -> number_base (ds' ++ r) r = Ok (false, n).
Proof.
  intros ds' r n F N E Hn. unfold number_base.
  assert (L : ds' <> []) by (intros ->; cbn in E; lia).
  destruct (Nat.eqb_spec (length (ds' ++ r)) (length r)) as [X|_]; [rewrite app_length in X; destruct ds'; [congruence|cbn in X; lia]|].
  rewrite buf_between_app. cbv zeta. destruct ds' as [|a [|a' [|a'' ds']]]; [congruence| | |].
  - inversion F as [|? ? Ha _]; subst. unfold digit_byte in Ha. unfold decimal in *. cbn [decimal_from] in *. unfold toDigit. destruct (between_spec 48 a 57); [|lia].
    destruct (between_spec 2 (a - 48) 36); [|lia]. cbn [negb]. do 2 f_equal; lia.
  - inversion F as [|? ? Ha F']; subst. inversion F' as [|? ? Ha' _]; subst. unfold digit_byte in *. unfold decimal in *. cbn [decimal_from] in *. unfold toDigit. destruct (between_spec 48 a 57); [|lia].
    destruct (between_spec 48 a' 57); [|lia]. destruct (between_spec 2 ((a - 48) * 10 + (a' - 48)) 36); [|lia]. cbn [negb]. do 2 f_equal; lia.
  - exfalso. inversion F as [|? ? Ha F']; subst. inversion F' as [|? ? Ha' F'']; subst. inversion F'' as [|? ? Ha'' F3]; subst. unfold digit_byte in *. cbn [hd] in N. unfold decimal in Hn. cbn [decimal_from] in Hn.
    pose proof (decimal_from_ge ds' (10 * (10 * (10 * 0 + (a - 48)) + (a' - 48)) + (a'' - 48)) F3 ltac:(lia)). assert (1 <= 10 ^ Z.of_nat (length ds')) by (pose proof (Z.pow_pos_nonneg 10 (Z.of_nat (length ds'))); lia). nia.
Qed.

Definition base_num (base : option Z) : Z := match base with Some b => b | None => 0 end.
Lemma caret_run : forall s ds' caret base bs ds real tail q pr w e neg bare, Inv o s -> Forall digit_byte ds' -> hd 0 ds' <> 48 -> decimal ds' = base -> 2 <= base <= 36 ->
  rest caret = 94 :: 94 :: tail -> rest (cur s) = 94 :: tail -> bs = ds -> 
  (real = false /\ ds <> [] /\ Forall alnum ds /\ tail = ds ++ q ++ w ++ e \/ exists is fs, real = true /\ ds = is ++ fs /\ ds <> [] /\ Forall alnum is /\ Forall alnum fs /\ tail = is ++ 46 :: fs ++ q ++ w ++ e) ->
  precision q pr -> exponent w neg -> (last q 0 = 96 -> w = [] -> bare = true) -> ender true bare e ->
  po (number_caret o p pol (ds' ++ rest caret) caret) s (tok_to (kind_of (unfit base ds) (real || pr) neg) e).
Proof.
  intros s ds' caret base bs ds real tail q pr w e neg bare HI Fd Nz Eb Hb Rc R _ Hd Hq Hw Hbare He. unfold number_caret.
  apply po_peek; auto. intros c s1 I1 C1 A1. rewrite <- C1 in R. rewrite (ahead_byte _ _ _ _ A1 R) by lia. cbn [wl wc]. change (94 =? 94) with true. cbn [negb].
  eapply po_read; eauto; try lia. intros s2 I2 R2. apply po_bind. unfold po at 1, lift. rewrite (base_value ds' (rest caret) base Fd Nz Eb Hb). cbn [fst snd].
  cbv zeta. set (x := set_base ctx0 false base). assert (Hx : fresh x) by (split; reflexivity).
  assert (Bx : Base x = base) by reflexivity. assert (B0 : (base =? 0) = false) by (apply Z.eqb_neq; lia).
  assert (Bad : bad x = false) by reflexivity. assert (Re : RealFlag x = false) by reflexivity.
  apply po_peek; auto. intros c1 s3 I3 C3 A3. rewrite <- C3 in R2.
  assert (Ls : tail_ok true (q ++ w ++ e)) by (eapply prec_tail; eauto).
  destruct Hd as [(-> & Dn & Da & ->)|(is & fs & -> & -> & Dn & Di & Df & ->)].
  - destruct ds as [|d ds]; [congruence|]. inversion Da as [|? ? Hd' Da']; subst. pose proof (alnum_ascii d Hd'). pose proof R2 as R2'. cbn [app] in R2'. rewrite (ahead_byte _ _ _ _ A3 R2') in A3 |- * by lia. cbn [wl wc].
    rewrite (proj2 (alnum_iff d) Hd'). apply po_bind. unfold handleAlphaOrDigits. apply po_assert. intros _. apply po_fuel.
    eapply po_conseq; [apply (alnum_run _ (Base x) x 0 (wl d) s3 (d :: ds) (q ++ w ++ e)); auto; apply tail_run_of; rewrite Bx, B0; auto|].
    intros [[n c2] x1] s4 (I4 & R4 & A4 & E1 & E2). cbn [fst snd] in *. subst x1. apply po_mark.
    destruct A4 as [r4 T4]. pose proof T4 as T4'. rewrite R4 in T4'. apply Ls in T4' as (_ & N46 & _). destruct (Z.eqb_spec (wc c2) 46); [contradiction|].
    rewrite Bx. replace (kind_of (unfit (decimal ds') (d :: ds)) (false || pr) neg) with (kind_of (bad (mark_bad (decimal ds') (d :: ds) x)) (RealFlag (mark_bad (decimal ds') (d :: ds) x) || pr) neg).
    + eapply tail_run; eauto; [|exists r4; auto]. unfold mark_bad. destruct (unfit _ _); exact Hx.
    + unfold mark_bad. destruct (unfit _ _); reflexivity.
  - assert (Hal : forall d l, is = d :: l -> isAlphaOrDigit (wc c1) = true).
    { intros d l ->. inversion Di as [|? ? Hd' _]; subst. pose proof (alnum_ascii d Hd'). cbn [app] in R2. rewrite (ahead_byte _ _ _ _ A3 R2) by lia. apply alnum_iff. auto. }
    assert (Fin : forall s5 s6 x1 lead m c5, Inv o s5 -> Inv o s6 -> rest (cur s6) = fs ++ q ++ w ++ e -> wc c5 = 46 -> x1 = mark_bad base is x -> (0 < lead \/ lead = 0 /\ fs <> []) ->
      po (number_fraction o p pol x1 lead m c5) s6 (tok_to (kind_of (unfit base (is ++ fs)) (true || pr) neg) e)).
    { intros s5 s6 x1 lead m c5 I5 I6 R6 E5 -> Hl. assert (Bx1 : Base (mark_bad base is x) = base) by (unfold mark_bad; destruct (unfit _ _); auto).
      replace (unfit base (is ++ fs)) with (bad (mark_bad base is x) || unfit (Base (mark_bad base is x)) fs).
      2:{ rewrite Bx1. unfold mark_bad, unfit. rewrite B0. cbn [negb andb]. rewrite existsb_app. destruct (existsb _ is); reflexivity. }
      eapply fraction_run; eauto; rewrite ?Bx1.
      - unfold mark_bad. destruct (unfit _ _); exact Hx.
      - rewrite B0. auto.
      - rewrite B0. exact He. }
    destruct is as [|i is].
    + cbn [app] in *. rewrite (ahead_byte _ _ _ _ A3 R2) by lia. cbn [wl wc]. change (isAlphaOrDigit 46) with false. change (46 =? 46) with true. cbv iota. apply po_mark.
      eapply po_read; eauto; try lia. intros s4 I4 R4. apply (Fin s3); auto. unfold mark_bad, unfit. cbn [existsb]. rewrite andb_false_r. auto.
    + rewrite (Hal i is eq_refl). apply po_bind. unfold handleAlphaOrDigits. apply po_assert. intros _. apply po_fuel.
      eapply po_conseq; [apply (alnum_run _ (Base x) x 0 c1 s3 (i :: is) (46 :: fs ++ q ++ w ++ e)); auto|].
      * unfold run_of. rewrite Bx, B0. split; auto. intros c' r T. rewrite twl_ascii in T by lia. injection T as <- _. reflexivity.
      * intros [[n c2] x1] s4 (I4 & R4 & A4 & E1 & E2). cbn [fst snd] in *. subst x1. apply po_mark. rewrite (ahead_byte _ _ _ _ A4 R4) by lia. cbn [wl wc]. change (46 =? 46) with true. cbv iota.
        eapply po_read; eauto; try lia. intros s5 I5 R5. apply (Fin s3); auto. left. rewrite E1. unfold zlen. cbn [length]. lia.
Qed.

(** ** The leading digits *)
Lemma lead_run : forall B s d ds tl (k : Z -> wlchar -> pos -> list Z -> M B) Q, Inv o s -> digit_byte d -> Forall digit_byte ds -> no_digit tl ->
  rest p = d :: ds ++ tl -> rest (cur s) = ds ++ tl ->
  (forall s' n c' m ds', Inv o s' -> rest (cur s') = tl -> ahead s' c' -> 0 < n -> Forall digit_byte ds' -> hd 0 ds' <> 48 -> decimal ds' = decimal (d :: ds) -> po (k n c' m (ds' ++ tl)) s' Q) ->
  po (bind (if wc (wl d) =? 48 then bind (handleZeros o p pol (wl d)) (fun r => bind get_rest (fun nz => ret (fst r, snd r, nz))) else ret (0, wl d, rest p)) (fun r =>
      let '(zeros, c1, nz) := r in bind mark (fun m1 =>
      bind (if isDigit (wc c1) then bind (handleDigits o p pol c1) (fun r2 => bind mark (fun m2 => ret (zeros + fst r2, snd r2, m2))) else ret (zeros, c1, m1)) (fun r2 =>
      let '(leading, c2, lead_mark) := r2 in k leading c2 lead_mark nz)))) s Q.
Proof.
  intros B s d ds tl k Q HI Hd Fd Ht Rp R K. destruct (zeros_split (d :: ds)) as (n & ds' & E & Fd' & Nz); [constructor; auto|]. apply po_bind. cbn [wl wc].
  apply (po_conseq _ _ _ (fun u s' => Inv o s' /\ 0 <= fst (fst u) /\ snd u = ds' ++ tl /\
    ((rest (cur s') = ds' ++ tl /\ ahead s' (snd (fst u)) /\ 0 < fst (fst u)) \/ (rest (cur s') = ds ++ tl /\ snd (fst u) = wl d)))).
  { destruct (Z.eqb_spec d 48) as [->|N].
    - destruct n as [|n]; [cbn [repeat app] in E; subst ds'; cbn [hd] in Nz; congruence|]. cbn [repeat app] in E. injection E as E.
      apply po_bind. eapply po_conseq; [apply (zeros_run (wl 48) s n (ds' ++ tl)); auto|].
      + rewrite R, E, <- app_assoc. reflexivity.
      + intros c' r T. destruct ds' as [|x ds']; cbn [app] in T.
        * apply Ht in T. intros X. rewrite X in T. discriminate.
        * inversion Fd' as [|? ? Hx _]; subst. unfold digit_byte in Hx. rewrite twl_ascii in T by lia. injection T as <- _. exact Nz.
      + intros u s1 (I1 & R1 & A1 & E1). apply po_get_rest, po_ret. cbn [fst snd]. split; auto. split; [lia|]. split; auto. left. split; auto. split; auto. lia.
    - apply po_ret. cbn [fst snd]. split; auto. split; [lia|]. destruct n as [|n]; [|cbn [repeat app] in E; congruence]. cbn [repeat app] in E. subst ds'. split; auto. }
  intros [[zeros c1] nz] s1 (I1 & Hz & En & H1). cbn [fst snd] in *. subst nz. apply po_mark. apply po_bind.
  apply (po_conseq _ _ _ (fun u s' => Inv o s' /\ 0 < fst (fst u) /\ rest (cur s') = tl /\ ahead s' (snd (fst u)))).
  { destruct (isDigit (wc c1)) eqn:D.
    - apply po_bind. assert (G : exists l, Forall digit_byte l /\ rest (cur s1) = l ++ tl) by (destruct H1 as [(H1 & _)|(H1 & _)]; eauto). destruct G as (l & Fl & Rl).
      eapply po_conseq; [apply (digits_run c1 s1 l tl); auto|]. intros u s2 (I2 & R2 & A2 & E2). apply po_mark, po_ret. cbn [fst snd]. split; auto. split; [|auto]. rewrite E2. unfold zlen. lia.
    - destruct H1 as [(R1 & A1 & Hz')|(_ & ->)]; [|cbn [wl wc] in D; rewrite (proj2 (digit_iff d) Hd) in D; discriminate]. apply po_ret. cbn [fst snd].
      destruct ds' as [|x ds']; [cbn [app] in R1; auto|]. inversion Fd' as [|? ? Hx _]; subst. pose proof Hx as Hx'. unfold digit_byte in Hx'. cbn [app] in R1.
      rewrite (ahead_byte _ _ _ _ A1 R1) in D by lia. cbn [wl wc] in D. rewrite (proj2 (digit_iff x) Hx) in D. discriminate. }
  intros [[leading c2] m] s2 (I2 & Hl & R2 & A2). cbn [fst snd] in *. apply K; auto. rewrite E, decimal_zeros. reflexivity.
Qed.

Definition fit_kind (base : option Z) (ds : list Z) (real neg : bool) : Z :=
  kind_of (match base with Some b => unfit b ds | None => false end) real neg.

Lemma digits_cons : forall ds, digits ds -> exists d r, ds = d :: r /\ digit_byte d /\ Forall digit_byte r.
Proof. intros [|d r] [N F]; [congruence|]. inversion F; subst. exists d, r. auto. Qed.

Lemma number_run : forall s b0 m0 m base ds real q pr w e neg bare, Inv o s -> p_intshort pol = false -> mantissa m base ds real -> precision q pr -> exponent w neg ->
  (forall b, base = Some b -> 2 <= b <= 36) -> (last q 0 = 96 -> w = [] -> bare = true) ->
  ender (match base with Some _ => true | None => false end) bare e -> m = b0 :: m0 -> rest p = m ++ q ++ w ++ e -> rest (cur s) = m0 ++ q ++ w ++ e ->
  po (handleNumber o p (wl b0) pol) s (tok_to (fit_kind base ds (real || pr) neg) e).
Proof.
  intros s b0 m0 m base ds real q pr w e neg bare HI Hsh Hm Hq Hw Hbase Hbare He Em Rp R. unfold handleNumber. apply po_assert. intros _. rewrite Hsh.
  destruct Hm as [ds Hds|is fs His Hfs|fs Hfs|bs ds Hbs Dn Dd|bs is fs Hbs Di Df Dn].
  - destruct (digits_cons _ Hds) as (d & r & -> & Hd & Fr). injection Em as <- <-. cbn [wl wc]. rewrite (proj2 (digit_iff d) Hd).
    pose proof (prec_tail _ _ _ _ _ _ _ Hq Hw He) as Tl. apply (lead_run _ s d r (q ++ w ++ e)); auto; [eapply tail_no_digit; eauto|].
    intros s1 n c1 mk ds' I1 R1 A1 Hn _ _ _. destruct A1 as [r1 T1]. pose proof T1 as T1'. rewrite R1 in T1'. pose proof (Tl _ _ T1') as (_ & N46 & _).
    destruct (Z.eqb_spec (wc c1) 94) as [E94|N94].
    + (* a caret that does not announce a base *)
      assert (X : q = [] /\ w = []).
      { destruct Hq as [| |sg d' Hs Hd'|sg d' Hs Hd']; cbn [app] in R1; try (rewrite (ahead_byte _ _ _ _ (ex_intro _ r1 T1) R1) in E94 by lia; discriminate).
        split; auto. destruct Hw; auto; cbn [app] in R1; rewrite (ahead_byte _ _ _ _ (ex_intro _ r1 T1) R1) in E94 by lia; discriminate. }
      destruct X as [-> ->]. cbn [app] in *. destruct (ender_byte _ _ _ _ _ 94 He T1') as [r2 Er]; [lia|auto|]. rewrite Er in R1.
      apply po_mark, po_assert_first. eapply po_read; eauto; try lia. intros s2 I2 R2. unfold number_caret. apply po_peek; auto. intros c2 s3 I3 C3 [r3 T3]. rewrite C3, R2 in T3.
      destruct He as [He|(b & r4 & He & _ & _ & _ & N & _)]; [congruence|]. rewrite Er in He. injection He as <- <-.
      destruct (Z.eqb_spec (wc c2) 94) as [E2|E2]; cbn [negb].
      * exfalso. apply N; auto. destruct (twl_ascii_first _ _ _ T3) as (b & t & -> & Hb); [lia|]. exists b, t. split; auto. rewrite E2 in Hb. auto.
      * inversion Hq; subst. inversion Hw; subst. apply po_bind. unfold po at 1, seek. apply mk_to. cbn [cur]. rewrite R1. reflexivity.
    + destruct (Z.eqb_spec (wc c1) 46); [contradiction|]. pose proof (tail_run ctx0 c1 s1 q pr w e neg _ bare I1 (conj eq_refl eq_refl) Hq Hw Hbare He R1 (ex_intro _ r1 T1)) as H. exact H.
  - destruct (digits_cons _ His) as (d & r & -> & Hd & Fr). cbn [app] in Em. injection Em as <- <-. cbn [wl wc]. rewrite (proj2 (digit_iff d) Hd).
    cbn [app] in *. rewrite <- app_assoc in R, Rp. cbn [app] in R, Rp. apply (lead_run _ s d r (46 :: fs ++ q ++ w ++ e)); auto; [apply byte_no_digit; unfold digit_byte; lia|].
    intros s1 n c1 mk ds' I1 R1 A1 Hn _ _ _. rewrite (ahead_byte _ _ _ _ A1 R1) by lia. cbn [wl wc]. change (46 =? 94) with false. change (46 =? 46) with true. cbv iota.
    eapply po_read; eauto; try lia. intros s2 I2 R2. pose proof (fraction_run ctx0 (wl 46) s2 fs q pr w e neg bare n (imark_of mk) I2 (conj eq_refl eq_refl) eq_refl Hfs Hq Hw Hbare He R2 ltac:(auto)) as H. exact H.
  - injection Em as <- <-. change (isDigit (wc (wl 46))) with false. cbv iota.
    pose proof (fraction_run ctx0 (wl 46) s fs q pr w e neg bare 0 (mkimark (rest p) None (ploc p)) HI (conj eq_refl eq_refl) eq_refl (proj2 Hfs) Hq Hw Hbare He R (or_intror (conj eq_refl (proj1 Hfs)))) as H. exact H.
  - specialize (Hbase _ eq_refl). destruct (digits_cons _ Hbs) as (d & r & -> & Hd & Fr). cbn [app] in Em. injection Em as <- <-. cbn [wl wc]. rewrite (proj2 (digit_iff d) Hd).
    cbn [app] in *. rewrite <- app_assoc in R, Rp. cbn [app] in R, Rp. apply (lead_run _ s d r (94 :: 94 :: ds ++ q ++ w ++ e)); auto; [apply byte_no_digit; unfold digit_byte; lia|].
    intros s1 n c1 mk ds' I1 R1 A1 Hn F' Nz Ed. rewrite (ahead_byte _ _ _ _ A1 R1) by lia. cbn [wl wc]. change (94 =? 94) with true. cbv iota.
    apply po_mark, po_assert_first. eapply po_read; eauto; try lia. intros s2 I2 R2. rewrite <- R1. unfold fit_kind.
    eapply (caret_run s2 ds' (cur s1) (decimal (d :: r)) ds ds false); eauto.
  - specialize (Hbase _ eq_refl). destruct (digits_cons _ Hbs) as (d & r & -> & Hd & Fr). cbn [app] in Em. injection Em as <- <-. cbn [wl wc]. rewrite (proj2 (digit_iff d) Hd).
    cbn [app] in *. rewrite <- !app_assoc in R, Rp. cbn [app] in R, Rp. rewrite <- !app_assoc in R, Rp. cbn [app] in R, Rp. apply (lead_run _ s d r (94 :: 94 :: is ++ 46 :: fs ++ q ++ w ++ e)); auto; [apply byte_no_digit; unfold digit_byte; lia|].
    intros s1 n c1 mk ds' I1 R1 A1 Hn F' Nz Ed. rewrite (ahead_byte _ _ _ _ A1 R1) by lia. cbn [wl wc]. change (94 =? 94) with true. cbv iota.
    apply po_mark, po_assert_first. eapply po_read; eauto; try lia. intros s2 I2 R2. rewrite <- R1. unfold fit_kind.
    eapply (caret_run s2 ds' (cur s1) (decimal (d :: r)) (is ++ fs) (is ++ fs) true); eauto. right. exists is, fs. auto 8.
Qed.
End Numbers.

(** ** From the specification *)
Lemma value_digit : forall d, alnum d -> toDigit d = digit_value d.
Proof.
  intros d H. unfold toDigit, digit_value, alnum, digit_byte in *. destruct (between_spec 48 d 57), (between_spec 65 d 90), (between_spec 97 d 122), (Z.leb_spec d 57), (Z.leb_spec d 90); auto; lia.
Qed.
Lemma unfit_iff : forall b ds, 2 <= b -> Forall alnum ds -> unfit b ds = false <-> digits_fit (Some b) ds.
Proof.
  intros b ds Hb F. unfold unfit. destruct (Z.eqb_spec b 0); [lia|]. cbn [negb andb digits_fit]. induction F as [|d ds Hd F IH]; cbn [existsb]; [split; auto|].
  rewrite orb_false_iff, IH, value_digit, Z.leb_gt by auto. split; [intros []; constructor; auto|intros H; inversion H; auto].
Qed.
Lemma number_of : forall w k, number w k -> exists m base ds real q pr x neg, w = m ++ q ++ x /\ mantissa m base ds real /\ precision q pr /\ exponent x neg /\
  (forall b, base = Some b -> 2 <= b <= 36) /\ k = fit_kind base ds (real || pr) neg.
Proof.
  intros w k [m base ds real q pr x neg k0 Hm Hq Hx Hb H1 H2]. exists m, base, ds, real, q, pr, x, neg. repeat (split; auto). unfold fit_kind.
  assert (F : match base with Some b => unfit b ds = false <-> digits_fit base ds | None => True end).
  { destruct Hm; auto; apply unfit_iff; try (specialize (Hb _ eq_refl); lia); auto. apply Forall_app. auto. }
  destruct base as [b|]; [|apply H1; exact I]. destruct (unfit b ds).
  - unfold kind_of. apply H2. intros X. apply F in X. discriminate.
  - apply H1, F. reflexivity.
Qed.
Lemma last_app_cons : forall (l : list Z) a r d, last (l ++ a :: r) d = last (a :: r) d.
Proof. induction l as [|x l IH]; intros a r d; auto. cbn [app]. rewrite <- (IH a r d). destruct l; reflexivity. Qed.
Lemma mantissa_head : forall m base ds real, mantissa m base ds real -> exists b r, m = b :: r /\ (digit_byte b \/ b = 46 /\ starts_with digit_byte r).
Proof.
  intros m base ds real H. destruct H as [ds Hds|is fs His Hfs|fs Hfs|bs ds Hbs Dn Dd|bs is fs Hbs Di Df Dn]; try (destruct (digits_cons _ Hds) as (d & r & -> & Hd & _)); try (destruct (digits_cons _ His) as (d & r & -> & Hd & _)); try (destruct (digits_cons _ Hbs) as (d & r & -> & Hd & _)); cbn [app]; eauto.
  destruct (digits_cons _ Hfs) as (d & r & -> & Hd & _). exists 46, (d :: r). split; auto. right. split; auto. exists d, r. auto.
Qed.
Lemma nextToken_number : forall o pol s w k e, Inv o s -> p_scan pol = false -> p_intshort pol = false -> number w k -> after_number w e -> rest (cur s) = w ++ e ->
  po (nextToken o pol) s (fun t _ => t_kind t = k /\ t_text t = w).
Proof.
  intros o pol s w k e HI Hp Hsh Hn He R. destruct (number_of _ _ Hn) as (m & base & ds & real & q & pr & x & neg & -> & Hm & Hq & Hx & Hb & ->).
  set (bare := (last (m ++ q ++ x) 0 =? 96)).
  assert (Hbare : last q 0 = 96 -> x = [] -> bare = true).
  { intros L ->. unfold bare. apply Z.eqb_eq. rewrite app_nil_r. destruct q as [|a q]; [discriminate|]. rewrite last_app_cons. exact L. }
  assert (He' : ender (match base with Some _ => true | None => false end) bare e).
  { destruct He as [He|(b & r & E & H1 & H2 & H3 & H4 & H5)]; [left; auto|]. right. exists b, r. split; auto. split; auto. split; auto. split; [|split; auto].
    - intros B. apply H3. destruct Hm; try discriminate; rewrite <- !app_assoc; eauto.
    - intros B. apply H5. apply Z.eqb_eq. exact B. }
  destruct (mantissa_head _ _ _ _ Hm) as (b & r & Em & Hb'). rewrite <- !app_assoc in R. pose proof R as R'. rewrite Em in R'. cbn [app] in R'.
  assert (Run : forall s1, Inv o s1 -> rest (cur s1) = r ++ q ++ x ++ e -> po (handleNumber o (cur s) (wl b) pol) s1 (fun t _ => t_kind t = fit_kind base ds (real || pr) neg /\ t_text t = m ++ q ++ x)).
  { intros s1 I1 R1. eapply po_conseq; [eapply (number_run o (cur s) pol Hp s1 b r m base ds real q pr x e neg bare); eauto|].
    intros t s' [T1 T2]. split; auto. rewrite T2, R. rewrite (app_assoc m), (app_assoc (m ++ q)). rewrite buf_between_app. rewrite <- app_assoc. reflexivity. }
  assert (A : 0 <= b < 0x80 /\ b <> 13 /\ b <> 92) by (unfold digit_byte in Hb'; destruct Hb' as [?|[-> _]]; lia). destruct A as (A1 & A2 & A3).
  unfold nextToken. apply po_mark. apply (po_nextWL o); auto. intros c s1 I1 E1. rewrite R', twl_ascii in E1 by auto. injection E1 as <- E1.
  destruct Hb' as [Hd|[-> (d & r2 & -> & Hd)]].
  - replace (dispatch o (cur s) (wl b) pol) with (handleNumber o (cur s) (wl b) pol); [apply Run; auto|].
    unfold digit_byte in Hd. assert (C : b = 48 \/ b = 49 \/ b = 50 \/ b = 51 \/ b = 52 \/ b = 53 \/ b = 54 \/ b = 55 \/ b = 56 \/ b = 57) by lia.
    repeat (destruct C as [-> |C]; [reflexivity|]). rewrite C. reflexivity.
  - replace (dispatch o (cur s) (wl 46) pol) with (handleDot o (cur s) (wl 46) pol); [|unfold dispatch, nextToken_uncommon; cbv zeta; symmetry; repeat decide_if; reflexivity].
    unfold handleDot. apply po_assert. intros _. apply (po_currentWL o); auto. intros c2 s2 r3 I2 C2 T2. rewrite <- E1 in T2. cbn [app] in T2. pose proof Hd as Hd'. unfold digit_byte in Hd'. rewrite twl_ascii in T2 by lia.
    injection T2 as <- _. cbn [wl wc]. rewrite (proj2 (digit_iff d) Hd). apply Run; auto. rewrite C2. auto.
Qed.
