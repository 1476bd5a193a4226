(** Pure characterisation of reading one Wolfram character ([wld]) and the proof that
    [next_wolfram_char] realises it. *)
From Coq Require Import ZArith List Bool Lia.
From Verif Require Import Base Source WLChar LongNames ByteDecoder CharDecoder Decode SpecText Iter
  TextProofs Logic LongNamesProofs.
Import ListNotations.
Local Open Scope Z_scope.

(** Longest prefix of ASCII letters and digits. *)
Fixpoint alnum_run (bs : list Z) : list Z * list Z :=
  match bs with
  | b :: r => if ascii_alnum b then let p := alnum_run r in (b :: fst p, snd p) else ([], bs)
  | [] => ([], [])
  end.

(** A registered long name followed by a closing bracket. *)
Definition name_here (bs : list Z) : option (wlchar * list Z) :=
  let (n, r) := alnum_run bs in
  match r with
  | b :: r' =>
      if b =? 93 then
        match longname_to_codepoint n with
        | Some p => Some (mkwl p (if isRaw n then ERaw else ELongName), r')
        | None => None
        end
      else None
  | [] => None
  end.

(** [n] digits. *)
Definition digits_here (n : nat) (isd : Z -> bool) (bs : list Z) : option (list Z * list Z) :=
  if (n <=? length bs)%nat && forallb isd (firstn n bs) then Some (firstn n bs, skipn n bs) else None.

(** The escape that starts after a backslash; [None]: no valid escape. *)
Inductive esc := NoEsc | Esc (c : wlchar) (r : list Z) | Abort.

Definition of_number (v : Z) (e : escape) (r : list Z) : esc :=
  match from_u32 v with
  | Some v => Esc (mkwl (canonical_point v) e) r
  | None => Abort
  end.

Definition escape_at (bs : list Z) : esc :=
  let c := dchar (decode bs) in
  let r := drest (decode bs) in
  let sg p := Esc (mkwl p ESingle) r in
  switchl c
    [ ([34], sg StringMeta_DoubleQuote);
      ([60], sg StringMeta_Open);
      ([62], sg StringMeta_Close);
      ([92], sg StringMeta_Backslash);
      ([10], sg LineContinuation_LineFeed);
      ([13], sg LineContinuation_CarriageReturn);
      ([CRLF], sg LineContinuation_CRLF);
      ([91], match name_here r with Some (c, r') => Esc c r' | None => NoEsc end);
      ([58], match digits_here 4 is_hex_digit r with
             | Some (ds, r') => of_number (number 16 ds) EHex4 r' | None => NoEsc end);
      ([46], match digits_here 2 is_hex_digit r with
             | Some (ds, r') => of_number (number 16 ds) EHex2 r' | None => NoEsc end);
      ([124], match digits_here 6 is_hex_digit r with
              | Some (ds, r') => if 0x10ffff <? number 16 ds then NoEsc else of_number (number 16 ds) EHex6 r'
              | None => NoEsc end);
      ([48; 49; 50; 51; 52; 53; 54; 55],
         match digits_here 3 is_octal_digit bs with
         | Some (ds, r') => of_number (number 8 ds) EOctal r' | None => NoEsc end);
      ([98], sg StringMeta_Backspace);
      ([102], sg StringMeta_FormFeed);
      ([110], sg StringMeta_LineFeed);
      ([114], sg StringMeta_CarriageReturn);
      ([116], sg StringMeta_Tab);
      ([33], sg LS_BANG); ([37], sg LS_PERCENT); ([38], sg LS_AMP); ([40], sg LS_OPENPAREN);
      ([41], sg LS_CLOSEPAREN); ([42], sg LS_STAR); ([43], sg LS_PLUS); ([47], sg LS_SLASH);
      ([64], sg LS_AT); ([94], sg LS_CARET); ([95], sg LS_UNDER); ([96], sg LS_BACKTICK);
      ([32], sg LinearSyntax_Space) ]
    NoEsc.

(** One Wolfram character; [None]: the read aborts. *)
Definition wld (bs : list Z) : option (wlchar * list Z) :=
  let c := dchar (decode bs) in
  let r := drest (decode bs) in
  if c =? 92 then
    match escape_at r with
    | NoEsc => Some (wl 92, r)
    | Esc c' r' => Some (c', r')
    | Abort => None
    end
  else Some (wl c, r).

(** ** Decoding ASCII *)
Lemma decode_ascii_inv : forall bs c, dchar (decode bs) = c -> 0 <= c < 0x80 -> c <> 13 ->
  bs = c :: drest (decode bs).
Proof.
  intros bs c. generalize (decode_case bs). generalize (decode bs). intros dd D.
  destruct D as [|r0|c0 r0 Hc0 Hb0 Hn0|r0|bs0 c0 r0 u ? Hc Hno ?]; unfold good_; cbn [dchar drest fst snd]; intros E Hra H13.
  - subst c. unfold EndOfFile in Hra. lia.
  - subst c. unfold CRLF in Hra; lia.
  - subst c. unfold utf8. destruct (Z.ltb_spec c0 0x80); [reflexivity|lia].
  - subst c. unfold Unsafe3Byte in Hra; lia.
  - subst c. unfold Unsafe1Byte, Unsafe2Byte, Unsafe3Byte in *; lia.
Qed.

Lemma decode_ascii_d : forall c r, 0 <= c < 0x80 -> c <> 13 -> dchar (decode (c :: r)) = c /\ drest (decode (c :: r)) = r.
Proof. intros. rewrite decode_ascii by auto. auto. Qed.

Lemma digits_here_app : forall n isd ds r, length ds = n -> Forall (fun d => isd d = true) ds ->
  digits_here n isd (ds ++ r) = Some (ds, r).
Proof.
  intros n isd ds r <- F. unfold digits_here. rewrite firstn_app, Nat.sub_diag, firstn_all, firstn_O, app_nil_r.
  rewrite skipn_app, Nat.sub_diag, skipn_all. cbn [app skipn].
  assert (length ds <=? length (ds ++ r) = true)%nat as -> by (apply Nat.leb_le; rewrite app_length; lia).
  assert (forallb isd ds = true) as -> by (apply forallb_forall; apply Forall_forall; auto). reflexivity.
Qed.

Lemma surrogate_abort : forall bs, surrogate_escape (92 :: bs) -> escape_at bs = Abort.
Proof.
  intros bs (ds & r & F & E & Hs). destruct E as [[E L]|[E L]]; injection E as ->.
  - destruct (decode_ascii_d 58 (ds ++ r)) as [D1 D2]; [lia|lia|].
    unfold escape_at. rewrite D1, D2. cbn -[digits_here of_number number]. rewrite digits_here_app by auto.
    unfold of_number, from_u32. destruct (between_spec 0xd800 (number 16 ds) 0xdfff); [reflexivity|lia].
  - destruct (decode_ascii_d 124 (ds ++ r)) as [D1 D2]; [lia|lia|].
    unfold escape_at. rewrite D1, D2. cbn -[digits_here of_number number]. rewrite digits_here_app by auto.
    destruct (Z.ltb_spec 0x10ffff (number 16 ds)); [lia|].
    unfold of_number, from_u32. destruct (between_spec 0xd800 (number 16 ds) 0xdfff); [reflexivity|lia].
Qed.

(** ** Digits *)
Definition digit_ok (isd : Z -> bool) : Prop := forall c, isd c = true -> 48 <= c <= 102.

Lemma hex_digit_ok : digit_ok src_isHex.
Proof. intros c H. unfold src_isHex, between in H. rewrite !orb_true_iff, !andb_true_iff, !Z.leb_le in H. lia. Qed.
Lemma octal_digit_ok : digit_ok src_isOctal.
Proof. intros c H. unfold src_isOctal, between in H. rewrite !andb_true_iff, !Z.leb_le in H. lia. Qed.

Lemma src_isHex_spec : forall c, src_isHex c = is_hex_digit c.
Proof. reflexivity. Qed.
Lemma src_isOctal_spec : forall c, src_isOctal c = is_octal_digit c.
Proof. reflexivity. Qed.

Ltac wret := apply wpr_ret; [assumption | assumption |].

(** [wnext c s']: read source character [c], new state [s'] *)
Tactic Notation "wnext" ident(c) ident(s') :=
  apply wpr_bind; eapply wpr_call; [eassumption | apply wp_next_src; eassumption |
    cbv beta; let HI := fresh "I" s' in let HR1 := fresh "R" s' in let HR := fresh "B" s' in
    let Hc := fresh "C" s' in let Hr := fresh "E" s' in let Hl := fresh "L" s' in let Hs := fresh "S" s' in let Hw := fresh "W" s' in
    intros c s' HI HR1 HR [Hc [Hr [Hl [Hs Hw]]]]].

(** [wpeek c s']: peek source character [c], new state [s'] *)
Tactic Notation "wpeek" ident(c) ident(s') :=
  unfold peek_source_char; apply wpr_bind; eapply wpr_peek; [eassumption | eassumption | apply wp_next_src; eassumption |
    cbv beta; let HI := fresh "I" s' in let HR1 := fresh "R" s' in let HR := fresh "B" s' in
    let Hc := fresh "C" s' in let Ecur := fresh "E" s' in let s2 := fresh "tmp" in
    intros c s2 s' Ecur _ _ [Hc _] _ HI HR1 HR; try clear s2].

Section PanicCondition.
Context (PE : Prop).
Local Notation wpr := (wpr PE).

Lemma digits_here_cons : forall n isd b r, isd b = true ->
  digits_here (S n) isd (b :: r) =
  match digits_here n isd r with Some (ds, t) => Some (b :: ds, t) | None => None end.
Proof.
  intros. unfold digits_here. cbn [length firstn skipn forallb Nat.leb]. rewrite H. cbn [andb].
  destruct ((n <=? length r)%nat && forallb isd (firstn n r)); reflexivity.
Qed.

Lemma read_digits_wp : forall o pol isd n s0 s, digit_ok isd -> Inv o s -> R o s0 s ->
  wpr o s0 (read_digits o n isd pol) s (fun g s' => R o s s' /\
    if g then exists ds, digits_here n isd (rest (cur s)) = Some (ds, rest (cur s'))
    else digits_here n isd (rest (cur s)) = None).
Proof.
  intros o pol isd n. induction n as [|n IH]; intros s0 s Hd HI HR; cbn [read_digits].
  - wret. split; [apply R_refl|]. exists []. unfold digits_here. reflexivity.
  - wpeek c s1.
    destruct (isd c) eqn:Ed.
    + assert (E : rest (cur s) = c :: drest (decode (rest (cur s)))).
      { apply decode_ascii_inv; auto; pose proof (Hd c Ed); lia. }
      wnext c2 s2. eapply wpr_conseq; [apply IH; auto|]. cbv beta. intros g s3 _ _ [HR3 H].
      split; [eapply R_trans; [exact Rs1|eapply R_trans; eauto]|].
      rewrite Es1 in Es2. rewrite <- Es2 in E. rewrite E.
      rewrite digits_here_cons by auto. destruct g.
      * destruct H as [ds ->]. exists (c :: ds). reflexivity.
      * rewrite H. reflexivity.
    + wret. split; [auto|]. unfold digits_here. destruct (rest (cur s)) as [|b r] eqn:Eb; [reflexivity|].
      cbn [length firstn forallb Nat.leb]. destruct (isd b) eqn:Eb2; [|rewrite andb_false_r; reflexivity].
      exfalso. pose proof (Hd b Eb2). destruct (decode_ascii_d b r) as [E1 _]; [lia|lia|]. congruence.
Qed.

(** Value of the digits. *)
Lemma toDigit_hex : forall b, is_hex_digit b = true -> toDigit b = digit_val b /\ 0 <= digit_val b < 16.
Proof.
  intros b H. unfold is_hex_digit in H. rewrite !orb_true_iff, !andb_true_iff, !Z.leb_le in H.
  unfold toDigit, digit_val, between.
  destruct (Z.leb_spec 48 b), (Z.leb_spec b 57), (Z.leb_spec 65 b), (Z.leb_spec b 90), (Z.leb_spec b 70),
    (Z.leb_spec 97 b), (Z.leb_spec b 122); cbn; try lia.
Qed.

Lemma toDigit_octal : forall b, is_octal_digit b = true -> toDigit b = digit_val b /\ 0 <= digit_val b < 8.
Proof.
  intros b H. unfold is_octal_digit in H. rewrite !andb_true_iff, !Z.leb_le in H.
  unfold toDigit, digit_val, between.
  destruct (Z.leb_spec 48 b), (Z.leb_spec b 57); cbn; try lia.
Qed.

Lemma digits_value_number : forall shift base isd, 0 <= shift -> base = 2 ^ shift ->
  (forall b, isd b = true -> toDigit b = digit_val b /\ 0 <= digit_val b < base) ->
  forall n bs acc, digits_here n isd bs <> None ->
  digits_value shift n bs acc = fold_left (fun a d => a * base + digit_val d) (firstn n bs) acc.
Proof.
  intros shift base isd Hs Hb Hd. induction n as [|n IH]; intros bs acc H; [reflexivity|].
  destruct bs as [|b r]; [unfold digits_here in H; cbn in H; congruence|].
  cbn [digits_value firstn fold_left hd tl].
  assert (Hi : isd b = true).
  { unfold digits_here in H. cbn [length firstn forallb] in H. destruct (isd b); auto.
    cbn [andb] in H. rewrite andb_false_r in H. congruence. }
  destruct (Hd b Hi) as [E1 E2]. rewrite IH.
  - rewrite E1. rewrite lor_shift_add by lia. rewrite Hb. reflexivity.
  - rewrite digits_here_cons in H by auto. destruct (digits_here n isd r) as [[? ?]|]; congruence.
Qed.

Lemma digits_here_firstn : forall n isd bs ds r, digits_here n isd bs = Some (ds, r) ->
  ds = firstn n bs /\ bs = ds ++ r /\ length ds = n /\ Forall (fun d => isd d = true) ds.
Proof.
  intros n isd bs ds r H. unfold digits_here in H. destruct (_ && _) eqn:E; [|discriminate].
  injection H as <- <-. apply andb_true_iff in E as [E1 E2]. apply Nat.leb_le in E1.
  repeat split.
  - symmetry; apply firstn_skipn.
  - apply firstn_length_le; auto.
  - apply Forall_forall. apply forallb_forall. auto.
Qed.

Lemma number_bound : forall base isd, 0 < base ->
  (forall b, isd b = true -> 0 <= digit_val b < base) ->
  forall ds acc, 0 <= acc -> Forall (fun d => isd d = true) ds ->
  0 <= fold_left (fun a d => a * base + digit_val d) ds acc < (acc + 1) * base ^ Z.of_nat (length ds).
Proof.
  intros base isd Hb Hd. induction ds as [|d ds IH]; intros acc Ha F; cbn [fold_left length].
  - change (Z.of_nat 0) with 0. rewrite Z.pow_0_r. lia.
  - inversion F; subst. pose proof (Hd d H1). specialize (IH (acc * base + digit_val d) ltac:(nia) H2).
    rewrite Nat2Z.inj_succ, Z.pow_succ_r by lia.
    assert (0 < base ^ Z.of_nat (length ds)) by (apply Z.pow_pos_nonneg; lia). nia.
Qed.

(** ** Issue-only blocks *)
Lemma wpr_check_strange : forall o pol point start b s0 s (Q : unit -> st -> Prop), Inv o s -> R o s0 s ->
  loc_previous start = Ok b -> loc_leb b (ploc (cur s)) = Some true ->
  (forall s', cur s' = cur s -> Inv o s' -> R o s s' -> R o s0 s' -> Q tt s') ->
  wpr o s0 (check_strange_syntax_issue o pol point start) s Q.
Proof.
  intros o pol point start b s0 s Q HI HR Hb Hl HQ. unfold check_strange_syntax_issue.
  assert (Q0 : Q tt s) by (apply HQ; auto; apply R_refl).
  apply wpr_when; auto. intros Hc.
  assert (Rep : wpr o s0 (e <- get_loc ;; b <- lift (loc_previous start) ;;
       report UnexpectedCharacter (if p_string pol then Remark else Warning) b e) s Q).
  { apply wpr_bind, wpr_get_loc; auto. apply wpr_bind. eapply wpr_lift_ok; eauto.
    apply wpr_report; auto. }
  destruct (isStrange point). { destruct (isStrangeWhitespace point); auto. wret. auto. }
  destruct (isMBStrange point). { destruct (isMBStrangeWhitespace point); auto. wret. auto. }
  wret; auto.
Qed.

(** issue, rewind to [s1], lone backslash *)
Lemma digits_fail_wp : forall o pol s0 s1 s b, Inv o s -> Inv o s1 -> R o s0 s1 -> R o s1 s ->
  loc_previous (ploc (cur s1)) = Ok b -> loc_leb b (ploc (cur s)) = Some true ->
  wpr o s0 (digits_fail o (cur s1) pol) s (fun c s' => c = wl 92 /\ cur s' = cur s1).
Proof.
  intros o pol s0 s1 s b HI HI1 HR1 HR Hb Hl. unfold digits_fail.
  pose proof (R_trans _ _ _ _ HR1 HR) as HR2.
  apply wpr_bind. eapply wpr_conseq with (P := fun _ s' => R o s1 s').
  - apply wpr_when; auto. intros Hc. apply andb_true_iff in Hc as [Hc _].
    apply wpr_bind. eapply wpr_lift_ok; eauto. apply wpr_bind, wpr_get_loc; auto.
    apply wpr_report; auto. intros. eapply R_trans; eauto.
  - intros _ s' HI' HR' HR1'. apply wpr_bind. apply wpr_seek; auto.
    intros. wret. auto.
Qed.

(** ** Long names *)
Lemma alnum_run_app : forall bs, bs = fst (alnum_run bs) ++ snd (alnum_run bs).
Proof. induction bs as [|b r IH]; cbn; auto. destruct (ascii_alnum b); cbn; auto. f_equal; auto. Qed.

Lemma alnum_run_stop : forall n r, forallb ascii_alnum n = true ->
  (forall b t, r = b :: t -> ascii_alnum b = false) -> alnum_run (n ++ r) = (n, r).
Proof.
  induction n as [|b n IH]; intros r H Hr.
  - destruct r as [|b r]; cbn; auto. rewrite (Hr b r eq_refl). reflexivity.
  - cbn [forallb] in H. apply andb_true_iff in H as [H1 H2]. cbn [app alnum_run]. rewrite H1, IH by auto. reflexivity.
Qed.

Lemma src_alnum_ascii : forall o b, ascii_alnum b = true -> src_isAlphaOrDigit o b = true /\ 48 <= b <= 122.
Proof.
  intros o b H. unfold ascii_alnum in H. unfold src_isAlphaOrDigit. assert (48 <= b <= 122).
  { unfold between in H. rewrite !orb_true_iff, !andb_true_iff, !Z.leb_le in H. lia. }
  assert (is_ascii b = true) by (unfold is_ascii; apply between_iff; lia). rewrite H1. auto.
Qed.

Lemma src_alnum_93 : forall o, src_isAlphaOrDigit o 93 = false.
Proof. reflexivity. Qed.

(** the scanning loop over an ASCII run ended by the bracket *)
Lemma src_alnum_nonempty : forall o bs, src_isAlphaOrDigit o (dchar (decode bs)) = true -> bs <> [].
Proof. intros o bs H E. subst. discriminate. Qed.

Lemma longName_loop_wp : forall o pol fuel s0 s, Inv o s -> R o s0 s ->
  (length (rest (cur s)) < fuel)%nat ->
  wpr o s0 (longName_loop o fuel pol (dchar (decode (rest (cur s))))) s (fun wf s' => R o s s' /\
    (wf = true -> exists n t, rest (cur s) = n ++ 93 :: t /\ rest (cur s') = 93 :: t) /\
    (forall n t, rest (cur s) = n ++ 93 :: t -> forallb ascii_alnum n = true ->
       wf = true /\ rest (cur s') = 93 :: t)).
Proof.
  intros o pol fuel. induction fuel as [|k IH]; intros s0 s HI HR Hf; [lia|]. cbn [longName_loop].
  destruct (src_isAlphaOrDigit o (dchar (decode (rest (cur s))))) eqn:Ea.
  - pose proof (src_alnum_nonempty _ _ Ea) as Hne.
    wnext c1 s1. wpeek c2 s2. subst c1 c2.
    assert (Hlt : (length (rest (cur s2)) < k)%nat) by (rewrite Es2; specialize (Ss1 Hne); lia).
    rewrite <- Es2. eapply wpr_conseq; [apply IH; auto|]. cbv beta.
    intros wf s3 _ _ [HR3 [H1 H2]].
    split; [eapply R_trans; [exact Rs1|]; eapply R_trans; eauto|].
    rewrite Es2 in H1, H2. split.
    + intros Hw. destruct (H1 Hw) as (n & t & E1 & E2).
      destruct (decode_suffix _ Hne) as [pre [_ Ep]]. rewrite <- Es1 in Ep.
      exists (pre ++ n), t. split; auto. rewrite Ep, E1, <- app_assoc. reflexivity.
    + intros n t E Hn. destruct n as [|b n].
      * cbn [app] in E. exfalso. rewrite E in Ea. destruct (decode_ascii_d 93 t) as [Q _]; [lia|lia|].
        rewrite Q in Ea. discriminate.
      * cbn [forallb] in Hn. apply andb_true_iff in Hn as [Hb Hn].
        destruct (src_alnum_ascii o b Hb) as [_ Hrange].
        apply (H2 n t); auto. rewrite Es1, E. cbn [app]. apply decode_ascii_d; lia.
  - destruct (Z.eqb_spec (dchar (decode (rest (cur s)))) 93) as [E93|E93].
    + wret. split; [apply R_refl|]. apply decode_ascii_inv in E93; [|lia|lia].
      split.
      * intros _. exists [], (drest (decode (rest (cur s)))). cbn. auto.
      * intros n t E Hn. split; auto. destruct n as [|b n]; [exact E|].
        exfalso. cbn [forallb] in Hn. apply andb_true_iff in Hn as [Hb _].
        rewrite E93 in E. injection E as <- _. discriminate.
    + wret. split; [apply R_refl|]. split; [discriminate|].
      intros n t E Hn. exfalso. destruct n as [|b n].
      * cbn [app] in E. apply E93. rewrite E. apply decode_ascii_d; lia.
      * cbn [forallb] in Hn. apply andb_true_iff in Hn as [Hb _].
        destruct (src_alnum_ascii o b Hb) as [Q Hrange]. rewrite E in Ea. cbn [app] in Ea.
        destruct (decode_ascii_d b (n ++ 93 :: t)) as [Q2 _]; [lia|lia|]. congruence.
Qed.

Lemma buf_between_app : forall pre suf, buf_between (pre ++ suf) suf = pre.
Proof.
  intros. unfold buf_between. rewrite app_length. replace (length pre + length suf - length suf)%nat with (length pre) by lia.
  rewrite firstn_app, Nat.sub_diag, firstn_all. cbn. apply app_nil_r.
Qed.

Lemma name_here_none : forall bs, (forall n t, bs = n ++ 93 :: t -> good_name n = true -> longname_to_codepoint n = None) ->
  name_here bs = None.
Proof.
  intros bs H. unfold name_here. pose proof (alnum_run_app bs) as E.
  destruct (alnum_run bs) as [n r] eqn:Er. cbn [fst snd] in E.
  destruct r as [|b r']; auto. destruct (Z.eqb_spec b 93) as [->|]; auto.
  destruct (longname_to_codepoint n) eqn:El; auto.
  rewrite (H n r') in El; [discriminate|auto|]. eapply names_good; eauto.
Qed.

Lemma name_here_some : forall n t, forallb ascii_alnum n = true -> name_here (n ++ 93 :: t) =
  match longname_to_codepoint n with
  | Some p => Some (mkwl p (if isRaw n then ERaw else ELongName), t)
  | None => None
  end.
Proof.
  intros n t H. unfold name_here. rewrite alnum_run_stop; auto.
  intros b t' E. injection E as <- <-. reflexivity.
Qed.

Lemma upper_alnum : forall c, src_isUpper c = true -> ascii_alnum c = true.
Proof. intros c H. unfold src_isUpper in H. unfold ascii_alnum. rewrite H. reflexivity. Qed.

(** [handleLongName] entered just after the open bracket [s1 -> s]; on failure it
    rewinds to [s1]. *)
Lemma handleLongName_wp : forall o pol s0 s1 s b, Inv o s -> Inv o s1 -> R o s0 s1 -> R o s1 s ->
  rest (cur s1) = 91 :: rest (cur s) ->
  loc_previous (ploc (cur s1)) = Ok b -> loc_leb b (ploc (cur s)) = Some true ->
  (p_scan pol = true -> exists b', loc_previous b = Ok b' /\ loc_leb b' (ploc (cur s)) = Some true) ->
  wpr o s0 (handleLongName o (cur s1) pol) s (fun c s' =>
    match name_here (rest (cur s)) with
    | Some (c', r) => c = c' /\ rest (cur s') = r
    | None => c = wl 92 /\ cur s' = cur s1
    end).
Proof.
  intros o pol s0 s1 s b HI HI1 HR01 HR1s Eopen Hb Hbl Hscan. unfold handleLongName.
  pose proof (R_trans _ _ _ _ HR01 HR1s) as HR.
  apply wpr_bind, wpr_assert; auto. { rewrite Eopen. reflexivity. }
  apply wpr_bind, wpr_get_rest; auto.
  wpeek c s2.
  set (bs := rest (cur s)) in *.
  (* result of the scan *)
  apply wpr_bind.
  eapply wpr_conseq with (P := fun wf s3 => R o s s3 /\
     (wf = true -> exists n t, bs = n ++ 93 :: t /\ rest (cur s3) = 93 :: t) /\
     (forall n t, bs = n ++ 93 :: t -> good_name n = true -> wf = true /\ rest (cur s3) = 93 :: t)).
  { destruct (src_isUpper c) eqn:Eu.
    - assert (Ec : bs = c :: drest (decode bs)).
      { apply decode_ascii_inv; auto; unfold src_isUpper in Eu; apply between_iff in Eu; lia. }
      wnext c3 s3. wpeek c4 s4. apply wpr_with_fuel. subst c4. rewrite <- Es4.
      eapply wpr_conseq; [apply longName_loop_wp; auto; lia|]. cbv beta.
      intros wf s5 _ _ [HR5 [H1 H2]]. rewrite Es4 in *. rewrite Es2 in Es3. fold bs in Es3.
      split; [eapply R_trans; [exact Rs2|]; eapply R_trans; [exact Rs3|]; eapply R_trans; eauto|].
      split.
      + intros Hw. destruct (H1 Hw) as (n & t & E1 & E2). exists (c :: n), t. split; auto.
        rewrite Ec, <- Es3, E1. reflexivity.
      + intros n t E Hg. unfold good_name in Hg. destruct n as [|x n]; [discriminate|].
        cbn [forallb] in Hg. rewrite !andb_true_iff in Hg. apply (H2 n t); [|tauto].
        rewrite Es3. rewrite E in Ec at 1. injection Ec as _ Ec. symmetry; exact Ec.
    - assert (No : forall n t, bs = n ++ 93 :: t -> good_name n = true -> False).
      { intros n t E Hg. unfold good_name in Hg. destruct n as [|x n]; [discriminate|].
        apply andb_true_iff in Hg as [Hg _]. apply between_iff in Hg.
        destruct (decode_ascii_d x (n ++ 93 :: t)) as [Q _]; [lia|lia|].
        rewrite E in Cs2. cbn [app] in Cs2. rewrite Q in Cs2. subst c. unfold src_isUpper in Eu.
        apply between_iff in Hg. congruence. }
      destruct (c =? 93).
      + wnext c3 s3. wpeek c4 s4. wret. split; [eapply R_trans; [exact Rs2|]; eapply R_trans; [exact Rs3|]; eauto|].
        split; [discriminate|]. intros n t E Hg. exfalso; eauto.
      + wret. split; auto. split; [discriminate|]. intros n t E Hg. exfalso; eauto. }
  cbv beta. clear c s2 Es2 Is2 Rs2 Bs2 Cs2.
  intros wf s3 HI3 HR03 [HRs3 [H1 H2]].
  pose proof (R_trans _ _ _ _ HR1s HRs3) as HR13.
  assert (Hb3 : loc_leb b (ploc (cur s3)) = Some true).
  { eapply loc_leb_trans; [exact Hbl|]. eapply R_leb; eauto. }
  destruct wf; cbn [negb].
  - destruct (H1 eq_refl) as (n & t & En & E3).
    apply wpr_bind, wpr_get_rest; auto.
    rewrite E3, En, buf_between_app.
    destruct (longname_to_codepoint n) as [p|] eqn:El.
    + pose proof (names_good _ _ El) as Hg. unfold good_name in Hg.
      assert (Hg' : forallb ascii_alnum n = true) by (destruct n; [discriminate|]; apply andb_true_iff in Hg; tauto).
      rewrite name_here_some, El by auto.
      wnext c4 s4. apply wpr_bind. eapply wpr_conseq with (P := fun _ s' => cur s' = cur s4).
      * apply wpr_when; auto. intros _. eapply wpr_check_strange; eauto.
        eapply loc_leb_trans; [exact Hb3|]. eapply R_leb; eauto.
      * cbv beta. intros _ s5 HI5 HR5 E5. wret. split; auto.
        rewrite E5, Es4, E3. apply decode_ascii_d; lia.
    + rewrite name_here_none.
      2:{ intros n' t' E' Hg. rewrite <- En in E'. destruct (H2 n' t' E' Hg) as [_ E3']. rewrite E3 in E3'.
          injection E3' as <-. rewrite En in E'. apply app_inv_tail in E'. subst; auto. }
      apply wpr_bind. eapply wpr_conseq with (P := fun _ s' => R o s1 s').
      * apply wpr_when; auto. intros Hc. apply andb_true_iff in Hc as [Hc _].
        apply wpr_bind, wpr_get_loc; auto. apply wpr_bind. eapply wpr_lift_ok; eauto.
        destruct (p_scan pol) eqn:Esc.
        -- destruct (Hscan eq_refl) as (b' & Eb' & Hb'). apply wpr_bind. eapply wpr_lift_ok; eauto.
           apply wpr_report; auto.
           ++ eapply loc_leb_trans; [exact Hb'|]. eapply loc_leb_trans; [|apply loc_leb_next]. eapply R_leb; eauto.
           ++ intros. eapply R_trans; eauto.
        -- apply wpr_report; auto.
           ++ eapply loc_leb_trans; [exact Hb3|apply loc_leb_next].
           ++ intros. eapply R_trans; eauto.
      * intros _ s' HI' HR' HR1'. apply wpr_bind. apply wpr_seek; auto. intros. wret. auto.
  - rewrite name_here_none.
    2:{ intros n' t' E' Hg. destruct (H2 n' t' E' Hg) as [? _]. discriminate. }
    apply wpr_bind. eapply wpr_conseq with (P := fun _ s' => R o s1 s').
    + apply wpr_when; auto. intros Hc. apply andb_true_iff in Hc as [Hc _].
      apply wpr_bind. eapply wpr_lift_ok; eauto. apply wpr_bind, wpr_get_loc; auto.
      apply wpr_report; auto. intros. eapply R_trans; eauto.
    + intros _ s' HI' HR' HR1'. apply wpr_bind. apply wpr_seek; auto. intros. wret. auto.
Qed.

(** ** Numeric escapes *)
Definition esc_post (s1 : st) (e : esc) (c : wlchar) (s' : st) : Prop :=
  match e with
  | Esc c' r => c = c' /\ rest (cur s') = r
  | NoEsc => c = wl 92 /\ cur s' = cur s1
  | Abort => False
  end.

Definition surr_value (v : Z) := 0xD800 <= v <= 0xDFFF.

Lemma from_u32_none : forall v, 0 <= v <= 0x10FFFF -> from_u32 v = None -> surr_value v.
Proof.
  intros v H. unfold from_u32, surr_value, between.
  destruct (Z.leb_spec 0xD800 v), (Z.leb_spec v 0xDFFF), (Z.ltb_spec 0x10FFFF v); cbn; intros; try discriminate; lia.
Qed.

Lemma from_u32_id : forall v w, from_u32 v = Some w -> w = v.
Proof. intros v w. unfold from_u32. destruct (_ || _); congruence. Qed.

Lemma finish_digits_wp : forall o pol s0 s1 s b v e r, Inv o s -> R o s0 s ->
  loc_previous (ploc (cur s1)) = Ok b -> loc_leb b (ploc (cur s)) = Some true ->
  rest (cur s) = r ->
  (from_u32 v = None -> PE) ->
  wpr o s0 (finish_digits o (cur s1) pol v e) s (esc_post s1 (of_number v e r)).
Proof.
  intros o pol s0 s1 s b v e r HI HR Hb Hl Er Hs. unfold finish_digits, of_number, unwrap_u32.
  destruct (from_u32 v) as [w|] eqn:Ev.
  - apply wpr_bind. wret. apply wpr_bind. eapply wpr_check_strange; eauto.
    intros s' E HI' HR' HR0'. wret. cbn. split; auto. congruence.
  - apply wpr_bind. unfold wpr, panic. apply Hs; auto.
Qed.

Lemma digits_number : forall shift base isd n bs ds r, 0 <= shift -> base = 2 ^ shift ->
  (forall b, isd b = true -> toDigit b = digit_val b /\ 0 <= digit_val b < base) ->
  digits_here n isd bs = Some (ds, r) ->
  digits_value shift n bs 0 = number base ds /\ 0 <= number base ds < base ^ Z.of_nat n.
Proof.
  intros shift base isd n bs ds r Hs Hb Hd H. split.
  - rewrite (digits_value_number shift base isd) by (auto; congruence).
    destruct (digits_here_firstn _ _ _ _ _ H) as [-> _]. reflexivity.
  - destruct (digits_here_firstn _ _ _ _ _ H) as [_ [_ [Hl F]]].
    pose proof (number_bound base isd) as N.
    assert (0 < base) by (subst base; apply Z.pow_pos_nonneg; lia).
    specialize (N ltac:(lia) ltac:(intros x Hx; apply Hd; auto) ds 0 ltac:(lia) F).
    rewrite Hl in N. unfold number. lia.
Qed.

(** Numeric escape entered after its lead character. *)
Section Numeric.
Context (o : opts) (pol : policy) (s0 s1 s : st) (b : loc).
Context (HI : Inv o s) (HI1 : Inv o s1) (HR01 : R o s0 s1) (HR1s : R o s1 s)
  (Hb : loc_previous (ploc (cur s1)) = Ok b) (Hbl : loc_leb b (ploc (cur s)) = Some true).

Lemma Hleb : forall s', R o s s' -> loc_leb b (ploc (cur s')) = Some true.
Proof using HI Hbl. intros s' H. eapply loc_leb_trans; [exact Hbl|]. eapply R_leb; eauto. Qed.

Lemma handle4Hex_wp : rest (cur s1) = 58 :: rest (cur s) ->
  (surrogate_escape (92 :: rest (cur s1)) -> PE) ->
  wpr o s0 (handle4Hex o (cur s1) pol) s (esc_post s1
    (match digits_here 4 is_hex_digit (rest (cur s)) with
     | Some (ds, r') => of_number (number 16 ds) EHex4 r' | None => NoEsc end)).
Proof using HI HI1 HR01 HR1s Hb Hbl.
  intros E Hbs. unfold handle4Hex. pose proof (R_trans _ _ _ _ HR01 HR1s) as HR.
  apply wpr_bind, wpr_assert; auto; [rewrite E; reflexivity|].
  apply wpr_bind, wpr_get_rest; auto. apply wpr_bind.
  eapply wpr_conseq; [apply read_digits_wp; auto; apply hex_digit_ok|]. cbv beta.
  intros g s2 HI2 HR2 [HRs2 Hg]. destruct g; cbn [negb].
  - destruct Hg as [ds Hg]. change src_isHex with is_hex_digit in Hg. rewrite Hg.
    destruct (digits_number 4 16 is_hex_digit 4 _ _ _ ltac:(lia) eq_refl toDigit_hex Hg) as [Ev Hv].
    rewrite Ev. eapply finish_digits_wp; eauto; [apply Hleb; auto|].
    intros N. apply from_u32_none in N; [|change (16 ^ Z.of_nat 4) with 65536 in Hv; lia].
    destruct (digits_here_firstn _ _ _ _ _ Hg) as [_ [Eds [Hl F]]].
    apply Hbs. exists ds, (rest (cur s2)). split; auto. split.
    + left. split; auto. rewrite E, Eds at 1. reflexivity.
    + exact N.
  - change src_isHex with is_hex_digit in Hg. rewrite Hg.
    eapply digits_fail_wp; eauto; [eapply R_trans; eauto|apply Hleb; auto].
Qed.

Lemma handle2Hex_wp : rest (cur s1) = 46 :: rest (cur s) ->
  wpr o s0 (handle2Hex o (cur s1) pol) s (esc_post s1
    (match digits_here 2 is_hex_digit (rest (cur s)) with
     | Some (ds, r') => of_number (number 16 ds) EHex2 r' | None => NoEsc end)).
Proof using HI HI1 HR01 HR1s Hb Hbl.
  intros E. unfold handle2Hex. pose proof (R_trans _ _ _ _ HR01 HR1s) as HR.
  apply wpr_bind, wpr_assert; auto; [rewrite E; reflexivity|].
  apply wpr_bind, wpr_get_rest; auto. apply wpr_bind.
  eapply wpr_conseq; [apply read_digits_wp; auto; apply hex_digit_ok|]. cbv beta.
  intros g s2 HI2 HR2 [HRs2 Hg]. destruct g; cbn [negb].
  - destruct Hg as [ds Hg]. change src_isHex with is_hex_digit in Hg. rewrite Hg.
    destruct (digits_number 4 16 is_hex_digit 2 _ _ _ ltac:(lia) eq_refl toDigit_hex Hg) as [Ev Hv].
    rewrite Ev. eapply finish_digits_wp; eauto; [apply Hleb; auto|].
    intros N. exfalso. apply from_u32_none in N; change (16 ^ Z.of_nat 2) with 256 in Hv; unfold surr_value in *; lia.
  - change src_isHex with is_hex_digit in Hg. rewrite Hg.
    eapply digits_fail_wp; eauto; [eapply R_trans; eauto|apply Hleb; auto].
Qed.

Lemma handle6Hex_wp : rest (cur s1) = 124 :: rest (cur s) ->
  (surrogate_escape (92 :: rest (cur s1)) -> PE) ->
  wpr o s0 (handle6Hex o (cur s1) pol) s (esc_post s1
    (match digits_here 6 is_hex_digit (rest (cur s)) with
     | Some (ds, r') => if 0x10ffff <? number 16 ds then NoEsc else of_number (number 16 ds) EHex6 r'
     | None => NoEsc end)).
Proof using HI HI1 HR01 HR1s Hb Hbl.
  intros E Hbs. unfold handle6Hex. pose proof (R_trans _ _ _ _ HR01 HR1s) as HR.
  apply wpr_bind, wpr_assert; auto; [rewrite E; reflexivity|].
  apply wpr_bind, wpr_get_rest; auto. apply wpr_bind.
  eapply wpr_conseq; [apply read_digits_wp; auto; apply hex_digit_ok|]. cbv beta.
  intros g s2 HI2 HR2 [HRs2 Hg]. destruct g; cbn [negb].
  - destruct Hg as [ds Hg]. change src_isHex with is_hex_digit in Hg. rewrite Hg.
    destruct (digits_number 4 16 is_hex_digit 6 _ _ _ ltac:(lia) eq_refl toDigit_hex Hg) as [Ev Hv].
    rewrite Ev. destruct (Z.ltb_spec 0x10ffff (number 16 ds)).
    + apply wpr_bind. apply wpr_seek; auto; [eapply R_trans; eauto|]. intros. wret. split; auto.
    + eapply finish_digits_wp; eauto; [apply Hleb; auto|].
      intros N. apply from_u32_none in N; [|lia].
        destruct (digits_here_firstn _ _ _ _ _ Hg) as [_ [Eds [Hl F]]].
      apply Hbs. exists ds, (rest (cur s2)). split; auto. split.
      * right. split; auto. rewrite E, Eds at 1. reflexivity.
      * exact N.
  - change src_isHex with is_hex_digit in Hg. rewrite Hg.
    eapply digits_fail_wp; eauto; [eapply R_trans; eauto|apply Hleb; auto].
Qed.

Lemma handleOctal_wp : forall c, is_octal_digit c = true -> rest (cur s1) = c :: rest (cur s) ->
  wpr o s0 (handleOctal o (cur s1) pol) s (esc_post s1
    (match digits_here 3 is_octal_digit (rest (cur s1)) with
     | Some (ds, r') => of_number (number 8 ds) EOctal r' | None => NoEsc end)).
Proof using HI HI1 HR01 HR1s Hb Hbl.
  intros c Hc E. unfold handleOctal. pose proof (R_trans _ _ _ _ HR01 HR1s) as HR.
  apply wpr_bind, wpr_assert; auto; [rewrite E; exact Hc|].
  apply wpr_bind.
  eapply wpr_conseq; [apply read_digits_wp; auto; apply octal_digit_ok|]. cbv beta.
  intros g s2 HI2 HR2 [HRs2 Hg]. change src_isOctal with is_octal_digit in Hg.
  assert (D : digits_here 3 is_octal_digit (rest (cur s1)) =
     match digits_here 2 is_octal_digit (rest (cur s)) with Some (ds, t) => Some (c :: ds, t) | None => None end).
  { rewrite E. apply digits_here_cons; auto. }
  destruct g; cbn [negb].
  - destruct Hg as [ds Hg]. rewrite Hg in D. rewrite D.
    destruct (digits_number 3 8 is_octal_digit 3 _ _ _ ltac:(lia) eq_refl toDigit_octal D) as [Ev Hv].
    rewrite Ev. eapply finish_digits_wp; eauto; [apply Hleb; auto|].
    intros N. exfalso. apply from_u32_none in N; change (8 ^ Z.of_nat 3) with 512 in Hv; unfold surr_value in *; lia.
  - rewrite Hg in D. rewrite D.
    eapply digits_fail_wp; eauto; [eapply R_trans; eauto|apply Hleb; auto].
Qed.

Lemma meta_with_issue_wp : forall p r, rest (cur s) = r ->
  wpr o s0 (meta_with_issue o (cur s1) p) s (esc_post s1 (Esc (mkwl p ESingle) r)).
Proof using HI HI1 HR01 HR1s Hb Hbl.
  intros p r E. unfold meta_with_issue. pose proof (R_trans _ _ _ _ HR01 HR1s) as HR.
  apply wpr_bind. apply wpr_when; auto.
  - intros Hc. apply wpr_bind. eapply wpr_lift_ok; eauto. apply wpr_bind, wpr_get_loc; auto.
    apply wpr_report; auto. intros s' E' HI' HR' HR0'. wret. split; auto. congruence.
  - intros _. wret. split; auto.
Qed.
End Numeric.

(** ** Scans that only decide what to report *)
Lemma backslash_loop_wp : forall o pol fuel c s0 s, Inv o s -> R o s0 s ->
  (length (rest (cur s)) + (if src_isAlphaOrDigit o c then 1 else 0) < fuel)%nat ->
  (weof (cur s) = true -> c < 0) ->
  wpr o s0 (backslash_loop o fuel pol c) s (fun g s' => R o s s' /\ (g = true -> weof (cur s') = false)).
Proof.
  intros o pol fuel. induction fuel as [|k IH]; intros c s0 s HI HR Hf Hw; [lia|]. cbn [backslash_loop].
  destruct (src_isAlphaOrDigit o c) eqn:Ea.
  - wnext c1 s1. eapply wpr_conseq; [apply IH; auto|].
    + destruct (src_isAlphaOrDigit o c1) eqn:E1.
      * subst c1. apply src_alnum_nonempty in E1. specialize (Ss1 E1). lia.
      * pose proof (R_length _ _ _ Rs1). lia.
    + cbv beta. intros g s2 _ _ [? ?]. split; auto. eapply R_trans; eauto.
  - wret. split; [apply R_refl|]. intros E. apply Z.eqb_eq in E. subst c.
    destruct (weof (cur s)); auto. specialize (Hw eq_refl). lia.
Qed.

Lemma unhandled_loop_wp : forall o pol fuel s0 s, Inv o s -> R o s0 s ->
  (length (rest (cur s)) < fuel)%nat ->
  wpr o s0 (unhandled_loop o fuel pol (dchar (decode (rest (cur s))))) s (fun _ s' => R o s s').
Proof.
  intros o pol fuel. induction fuel as [|k IH]; intros s0 s HI HR Hf; [lia|]. cbn [unhandled_loop].
  destruct (src_isAlphaOrDigit o (dchar (decode (rest (cur s))))) eqn:Ea.
  - pose proof (src_alnum_nonempty _ _ Ea) as Hne.
    wnext c1 s1. wpeek c2 s2. subst c2. rewrite <- Es2. apply wpr_bind. eapply wpr_conseq; [apply IH; auto|].
    + rewrite Es2. specialize (Ss1 Hne). lia.
    + cbv beta. intros r s3 HI3 HR3 HR23. wret. eapply R_trans; [exact Rs1|]. eapply R_trans; eauto.
  - destruct (_ =? 93).
    + wnext c1 s1. wret. auto.
    + wret. apply R_refl.
Qed.

Lemma handleUnhandledEscape_wp : forall o pol s0 s b, Inv o s -> R o s0 s ->
  loc_previous (ploc (cur s)) = Ok b -> loc_leb b (ploc (cur s)) = Some true ->
  forall m, cur m = cur s -> R o s0 m -> R o m s -> Inv o m ->
  wpr o s0 (handleUnhandledEscape o (cur m) pol) s (esc_post m NoEsc).
Proof.
  intros o pol s0 s b HI HR Hb Hl m Em HRm HRms HIm. unfold handleUnhandledEscape.
  wpeek c s1. wnext c2 s2. apply wpr_bind.
  pose proof (R_trans _ _ _ _ Rs1 Rs2) as Rss2.
  assert (Hl2 : loc_leb b (ploc (cur s2)) = Some true).
  { eapply loc_leb_trans; [exact Hl|]. eapply R_leb; eauto. }
  eapply wpr_conseq with (P := fun _ s' => R o s s').
  - apply wpr_when; auto. intros Hc. apply andb_true_iff in Hc as [Hc _]. rewrite Em.
    apply wpr_bind. eapply wpr_lift_ok; eauto. apply wpr_bind, wpr_get_loc; auto.
    assert (Rep : forall s3, cur s3 = cur s3 -> Inv o s3 -> R o s2 s3 ->
        wpr o s0 (report UnhandledCharacter Fatal b (ploc (cur s3))) s3 (fun _ s' => R o s s')).
    { intros s3 _ HI3 HR3. apply wpr_report; auto; [eapply R_trans; eauto| |].
      - eapply loc_leb_trans; [exact Hl2|]. eapply R_leb; eauto.
      - intros. eapply R_trans; [exact Rss2|]. eapply R_trans; eauto. }
    assert (Rep2 : forall s3, cur s3 = cur s3 -> Inv o s3 -> R o s2 s3 ->
        wpr o s0 (report UnhandledCharacter Fatal b (ploc (cur s2))) s3 (fun _ s' => R o s s')).
    { intros s3 _ HI3 HR3. apply wpr_report; auto; [eapply R_trans; eauto|].
      intros. eapply R_trans; [exact Rss2|]. eapply R_trans; eauto. }
    destruct (src_isUpper c).
    + wpeek c3 s3. apply wpr_bind, wpr_with_fuel. subst c3. rewrite <- Es3.
      eapply wpr_conseq; [apply unhandled_loop_wp; auto; lia|]. cbv beta.
      intros r s4 HI4 HR4 HR34. pose proof (R_trans _ _ _ _ Rs3 HR34).
      destruct (match longname_to_codepoint (c :: fst r) with Some _ => snd r | None => false end).
      * apply wpr_bind, wpr_get_loc; auto.
      * rewrite <- Es3 in *. apply Rep2; auto.
    + destruct (src_isHex c); [apply Rep2; auto; apply R_refl|].
      destruct (_ || _); [wret; auto|apply Rep2; auto; apply R_refl].
  - cbv beta. intros _ s3 HI3 HR3 HR3'. apply wpr_bind. apply wpr_seek; auto; [eapply R_trans; eauto|].
    intros. wret. split; auto.
Qed.

(** [handleBackslash] entered after both backslashes. *)
Lemma handleBackslash_wp : forall o pol s0 s b b', Inv o s -> R o s0 s ->
  loc_previous (ploc (cur s)) = Ok b -> loc_leb b (ploc (cur s)) = Some true ->
  loc_previous b = Ok b' -> loc_leb b' (ploc (cur s)) = Some true ->
  wpr o s0 (handleBackslash o pol) s (fun c s' => c = mkwl StringMeta_Backslash ESingle /\ rest (cur s') = rest (cur s)).
Proof.
  intros o pol s0 s b b' HI HR Hb Hl Hb' Hl'. unfold handleBackslash. apply wpr_bind.
  apply wpr_when; auto; [|intros _; wret; auto].
  intros Hc. apply wpr_bind, wpr_mark; auto. wnext c1 s1. apply wpr_bind.
  eapply wpr_conseq with (P := fun _ s' => R o s s').
  2:{ cbv beta. intros _ s2 HI2 HR2 HRs2. apply wpr_seek; auto. intros HR3 HI3. wret. auto. }
  apply wpr_when; auto. intros E91. apply Z.eqb_eq in E91.
  apply wpr_bind, wpr_get_rest; auto. apply wpr_bind, wpr_get_loc; auto.
  wnext c2 s2. apply wpr_bind.
  eapply wpr_conseq with (P := fun g s' => R o s1 s' /\ (g = true -> weof (cur s') = false)).
  - destruct (src_isUpper c2).
    + wnext c3 s3. apply wpr_with_fuel. eapply wpr_conseq; [apply backslash_loop_wp; auto|].
      * destruct (src_isAlphaOrDigit o c3); lia.
      * cbv beta. intros g s4 _ _ [? ?]. split; auto. eapply R_trans; [exact Rs2|]. eapply R_trans; eauto.
    + wret. split; auto. discriminate.
  - cbv beta. intros g s3 HI3 HR3 [HR13 Hg]. apply wpr_when; auto; [|intros; eapply R_trans; eauto].
    intros ->. specialize (Hg eq_refl). apply wpr_bind. unfold seek_loc.
    set (s4 := mkst (mkpos (rest (cur s1)) (weof (cur s3)) (ploc (cur s1))) (lg s3)).
    assert (HR14 : R o s1 s4) by (apply R_seek_loc; auto; apply R_refl).
    assert (HRs4 : R o s s4) by exact (R_trans _ _ _ _ Rs1 HR14).
    assert (HR04 : R o s0 s4) by exact (R_trans _ _ _ _ HR HRs4).
    assert (HI4 : Inv o s4).
    { destruct Is1 as [A [B C]]. split; auto. split; auto. intros W. cbn in W. congruence. }
    unfold wpr at 1. fold s4. split; auto. split; auto.
    apply (wpr_base _ _ _ s0 s); auto. apply wpr_bind. eapply wpr_conseq.
    + eapply handleLongName_wp with (s1 := s) (b := b); eauto; try apply R_refl.
      * cbn [s4 cur rest]. rewrite Es1. apply decode_ascii_inv; [congruence|lia|lia].
      * eapply loc_leb_trans; [exact Hl|]. eapply R_leb; eauto.
      * intros _. exists b'. split; auto. eapply loc_leb_trans; [exact Hl'|]. eapply R_leb; eauto.
    + cbv beta. intros c s5 HI5 HR5 _. wret. exact HR5.
Qed.

Lemma switchl_cons : forall A x ks (a : A) r d,
  switchl x ((ks, a) :: r) d = if existsb (Z.eqb x) ks then a else switchl x r d.
Proof. reflexivity. Qed.

Lemma single_wp : forall o pol p s0 s1 s r, Inv o s -> R o s0 s -> drest (decode (rest (cur s))) = r ->
  wpr o s0 (single o pol p) s (esc_post s1 (Esc (mkwl p ESingle) r)).
Proof. intros. unfold single. wnext c s2. wret. split; auto. congruence. Qed.

End PanicCondition.

Theorem next_wolfram_char_wp : forall o pol s, Inv o s -> p_scan pol = false ->
  wpr (wld (rest (cur s)) = None) o s (next_wolfram_char o pol) s (fun c s' => wld (rest (cur s)) = Some (c, rest (cur s'))).
Proof.
  intros o pol s HI Hscan.
  assert (HPE : forall r, rest (cur s) = 92 :: r -> surrogate_escape (92 :: r) -> wld (rest (cur s)) = None).
  { intros r Er HS. unfold wld. rewrite Er. destruct (decode_ascii_d 92 r) as [D1 D2]; [lia|lia|].
    rewrite D1, D2. cbn [Z.eqb Pos.eqb]. rewrite (surrogate_abort r HS). reflexivity. }
  revert HPE. generalize (wld (rest (cur s)) = None). intros PE HPE.
  unfold next_wolfram_char. pose proof (R_refl o s) as HR.
  wnext c s1. unfold wld. rewrite <- Cs1, <- Es1.
  destruct (Z.eqb_spec c 92) as [E92|N92]; cbn [negb].
  2:{ wret. reflexivity. }
  assert (E1 : rest (cur s) = 92 :: rest (cur s1)).
  { rewrite Es1. apply decode_ascii_inv; [congruence|lia|lia]. }
  assert (Hb : loc_previous (ploc (cur s1)) = Ok (ploc (cur s))).
  { rewrite Ls1, E92. change (adv o 92 (ploc (cur s))) with (loc_next (ploc (cur s))).
    eapply loc_previous_next. apply HI. }
  assert (Hl : forall s', R o s s' -> loc_leb (ploc (cur s)) (ploc (cur s')) = Some true).
  { intros. eapply R_leb; eauto. }
  eapply wpr_conseq with (P := esc_post s1 (escape_at (rest (cur s1)))).
  2:{ intros c' s' _ _ H. unfold esc_post in H. destruct (escape_at (rest (cur s1))); destruct H; subst; auto.
      rewrite H0. reflexivity. }
  apply wpr_bind, wpr_mark; auto. wpeek c2 s2. unfold escape_at. rewrite <- Cs2.
  assert (Er : rest (cur s2) = rest (cur s1)) by (rewrite Es2; auto).
  pose proof (R_trans _ _ _ _ Rs1 Rs2) as Rss2.
  assert (Hbs : surrogate_escape (92 :: rest (cur s1)) -> PE) by (apply HPE; auto).
  assert (Asc : forall k, c2 = k -> 0 <= k < 128 -> k <> 13 -> rest (cur s1) = k :: drest (decode (rest (cur s1)))).
  { intros k E Hk Hk13. apply decode_ascii_inv; congruence. }
  rewrite !switchl_cons. cbn [switchl existsb]. rewrite !orb_false_r.
  Ltac one := match goal with |- context [if ?x =? ?k then _ else _] => destruct (Z.eqb_spec x k) as [Ek|?] end.
  one; [apply single_wp; auto; congruence|].
  one; [wnext c3 s3; eapply meta_with_issue_wp; eauto; [eapply R_trans; eauto|congruence]|].
  one; [wnext c3 s3; eapply meta_with_issue_wp; eauto; [eapply R_trans; eauto|congruence]|].
  one.
  { wnext c3 s3. eapply wpr_conseq.
    - eapply handleBackslash_wp with (b := ploc (cur s1)) (b' := ploc (cur s)); eauto.
      + rewrite Ls3, Cs3, Er, <- Cs2, Ek. change (adv o 92 (ploc (cur s2))) with (loc_next (ploc (cur s2))).
        rewrite Es2. eapply loc_previous_next. apply Is1.
      + eapply R_leb; eauto. eapply R_trans; eauto.
    - cbv beta. intros c4 s4 _ _ [-> E4]. split; auto. congruence. }
  unfold handleUncommon. wpeek c5 s5.
  rewrite Er, <- Cs2 in Cs5. subst c5.
  assert (Er5 : rest (cur s5) = rest (cur s1)) by (rewrite Es5; auto).
  pose proof (R_trans _ _ _ _ Rs2 Rs5) as Rs15.
  rewrite !switchl_cons. cbn [switchl existsb]. rewrite !orb_false_r.
  one; [apply single_wp; auto; congruence|].
  one; [apply single_wp; auto; congruence|].
  one; [apply single_wp; auto; congruence|].
  one.
  { wnext c3 s3. rewrite Er5 in Es3. pose proof (R_trans _ _ _ _ Rs15 Rs3) as Rs13.
    eapply wpr_conseq.
    - eapply handleLongName_wp with (s1 := s1); eauto.
      + rewrite Es3. apply Asc; auto; lia.
      + congruence.
    - cbv beta. rewrite Es3. intros c4 s4 _ _ H.
      destruct (name_here (drest (decode (rest (cur s1))))) as [[c' r']|]; exact H. }
  one.
  { wnext c3 s3. rewrite Er5 in Es3. pose proof (R_trans _ _ _ _ Rs15 Rs3) as Rs13.
    rewrite <- Es3. eapply handle4Hex_wp; eauto. rewrite Es3. apply Asc; auto; lia. }
  one.
  { wnext c3 s3. rewrite Er5 in Es3. pose proof (R_trans _ _ _ _ Rs15 Rs3) as Rs13.
    rewrite <- Es3. eapply handle2Hex_wp; eauto. rewrite Es3. apply Asc; auto; lia. }
  one.
  { wnext c3 s3. rewrite Er5 in Es3. pose proof (R_trans _ _ _ _ Rs15 Rs3) as Rs13.
    rewrite <- Es3. eapply handle6Hex_wp; eauto. rewrite Es3. apply Asc; auto; lia. }
  match goal with |- context [if ?x then _ else _] => destruct x eqn:Eo end.
  { assert (Ho : 48 <= c2 <= 55) by (rewrite !orb_true_iff, !Z.eqb_eq in Eo; lia).
    wnext c3 s3. rewrite Er5 in Es3. pose proof (R_trans _ _ _ _ Rs15 Rs3) as Rs13.
    eapply handleOctal_wp with (c := c2); eauto.
    - unfold is_octal_digit. apply andb_true_iff. rewrite !Z.leb_le. lia.
    - rewrite Es3. apply Asc; auto; lia. }
  one; [wnext c3 s3; eapply meta_with_issue_wp; eauto; [eapply R_trans; eauto|congruence]|].
  one; [wnext c3 s3; eapply meta_with_issue_wp; eauto; [eapply R_trans; eauto|congruence]|].
  do 16 (one; [apply single_wp; auto; congruence|]).
  eapply handleUnhandledEscape_wp with (b := ploc (cur s)); eauto; congruence.
Qed.
