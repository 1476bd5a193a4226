(** Program logic for the tokenizer: reading a character across line continuations
    ([twl]), and the rules used on the handlers. *)
From Coq Require Import ZArith List Bool Lia.
From Verif Require Import Base Source WLChar LongNames ByteDecoder CharDecoder Decode SpecText Iter
  TextProofs Logic LongNamesProofs WlDecode SpecReader ReaderProofs GenTokenKind TokenKind Format FormatProofs Tokenizer.
Import ListNotations.
Local Open Scope Z_scope.

(** ** One character across line continuations *)
Fixpoint tw (fuel : nat) (after : bool) (bs : list Z) : option (wlchar * list Z) :=
  match fuel with
  | O => None
  | S k =>
      match wld bs with
      | None => None
      | Some (c, r) =>
          if is_line_continuation (wc c) || (after && isWhitespace (wc c)) then tw k true r else Some (c, r)
      end
  end.
Definition twf (after : bool) (bs : list Z) := tw (S (S (length bs))) after bs.
Definition twl := twf false.

Lemma tw_skip_shorter : forall bs c r a, wld bs = Some (c, r) ->
  is_line_continuation (wc c) || (a && isWhitespace (wc c)) = true -> (length r < length bs)%nat.
Proof.
  intros bs c r a H L. pose proof (wld_cases bs) as C. rewrite H in C. destruct C as [(-> & -> & ->)|(_ & _ & C)]; auto.
  destruct a; discriminate.
Qed.

Lemma tw_fuel : forall n m a bs, (length bs < n)%nat -> (length bs < m)%nat -> tw n a bs = tw m a bs.
Proof.
  induction n as [|n IH]; intros m a bs Hn Hm; [lia|]. destruct m as [|m]; [lia|]. cbn [tw].
  destruct (wld bs) as [[c r]|] eqn:E; auto. destruct (_ || _) eqn:L; auto.
  pose proof (tw_skip_shorter _ _ _ _ E L). apply IH; lia.
Qed.

Lemma twf_unfold : forall a bs, twf a bs =
  match wld bs with
  | None => None
  | Some (c, r) => if is_line_continuation (wc c) || (a && isWhitespace (wc c)) then twf true r else Some (c, r)
  end.
Proof.
  intros a bs. unfold twf at 1. remember (S (length bs)) as n eqn:En. cbn [tw].
  destruct (wld bs) as [[c r]|] eqn:E; auto. destruct (_ || _) eqn:L; auto.
  pose proof (tw_skip_shorter _ _ _ _ E L). apply tw_fuel; lia.
Qed.

Lemma twf_ind : forall P : bool -> list Z -> Prop,
  (forall a bs, (forall c r, wld bs = Some (c, r) ->
     is_line_continuation (wc c) || (a && isWhitespace (wc c)) = true -> P true r) -> P a bs) ->
  forall a bs, P a bs.
Proof.
  intros P H a bs. remember (length bs) as n eqn:En. revert a bs En.
  induction n as [n IH] using (well_founded_induction lt_wf). intros a bs En. apply H. intros c r E L.
  pose proof (tw_skip_shorter _ _ _ _ E L). apply (IH (length r)); auto. lia.
Qed.

Lemma wld_suffix : forall bs c r, wld bs = Some (c, r) -> exists pre, bs = pre ++ r.
Proof.
  intros bs c r H. apply wld_inv in H as [(-> & _ & ->)|[(Hn & _ & _ & ->)|[(t & -> & H)|(-> & _)]]].
  - exists []; auto.
  - destruct (decode_suffix bs Hn) as (pre & _ & E). exists pre. exact E.
  - destruct H as [b p r H|r|r Hr|name p r H|ds r H|ds r H Hs|ds r H Hs|ds r H].
    + exists [92; b]; auto.
    + exists [92; 13; 10]; auto.
    + exists [92; 13]; auto.
    + exists (92 :: 91 :: name ++ [93]). cbn. rewrite <- app_assoc. auto.
    + exists (92 :: 46 :: ds); auto.
    + exists (92 :: 58 :: ds); auto.
    + exists (92 :: 124 :: ds); auto.
    + exists (92 :: ds); auto.
  - exists [92]; auto.
Qed.

Lemma twf_suffix : forall a bs c r, twf a bs = Some (c, r) -> exists pre, bs = pre ++ r.
Proof.
  intros a bs. pattern a, bs. apply twf_ind. clear a bs. intros a bs IH c r H. rewrite twf_unfold in H.
  destruct (wld bs) as [[c1 r1]|] eqn:E; [|discriminate]. apply wld_suffix in E as E'. destruct E' as [p1 ->].
  destruct (_ || _) eqn:L.
  - destruct (IH _ _ eq_refl L _ _ H) as [p2 ->]. exists (p1 ++ p2). rewrite app_assoc; auto.
  - injection H as <- <-. exists p1; auto.
Qed.

(** Panics come from surrogate escapes only. *)
Lemma twf_none : forall a bs, twf a bs = None -> has_surrogate_escape bs.
Proof.
  intros a bs. pattern a, bs. apply twf_ind. clear a bs. intros a bs IH H. rewrite twf_unfold in H.
  pose proof (wld_cases bs) as C. destruct (wld bs) as [[c1 r1]|] eqn:E; [|apply surr_here; auto].
  destruct (_ || _) eqn:L; [|discriminate].
  destruct (wld_suffix _ _ _ E) as [p ->]. apply surr_suffix. eapply IH; eauto.
Qed.

Lemma twf_eof : forall a bs c r, twf a bs = Some (c, r) ->
  (wc c = EndOfFile /\ r = []) \/ (wc c <> EndOfFile /\ (length r < length bs)%nat).
Proof.
  intros a bs. pattern a, bs. apply twf_ind. clear a bs. intros a bs IH c r H. rewrite twf_unfold in H.
  pose proof (wld_cases bs) as C. destruct (wld bs) as [[c1 r1]|] eqn:E; [|discriminate].
  destruct (_ || _) eqn:L.
  - pose proof (tw_skip_shorter _ _ _ _ E L). destruct (IH _ _ eq_refl L _ _ H) as [?|[? ?]]; [left; auto|right; split; auto; lia].
  - injection H as <- <-. destruct C as [(_ & -> & ->)|(_ & C1 & C2)]; [left; auto|right; auto].
Qed.

(** The character was read by [wld] somewhere. *)
Lemma twf_read : forall a bs c r, twf a bs = Some (c, r) -> is_line_continuation (wc c) = false /\ exists bs', wld bs' = Some (c, r).
Proof.
  intros a bs. pattern a, bs. apply twf_ind. clear a bs. intros a bs IH c r H. rewrite twf_unfold in H.
  destruct (wld bs) as [[c1 r1]|] eqn:E; [|discriminate].
  destruct (_ || _) eqn:L; [eapply IH; eauto|]. injection H as <- <-. apply orb_false_iff in L as [L _]. eauto.
Qed.

Lemma names_not_lc : forallb (fun e => negb (is_line_continuation (snd e))) LN_TABLE = true.
Proof. vm_compute. reflexivity. Qed.

Lemma wld_lc : forall bs c r, wld bs = Some (c, r) -> is_line_continuation (wc c) = true ->
  exists b t, bs = 92 :: b :: t /\ (b = 10 \/ b = 13).
Proof.
  intros bs c r H L. assert (M : forall v, 0 <= v -> is_line_continuation (meaning v) = false).
  { intros v Hv. unfold meaning. destruct (v =? 34); [reflexivity|]. destruct (v =? 92); [reflexivity|].
    unfold is_line_continuation, LineContinuation_LineFeed. destruct (Z.leb_spec v (-17)); [lia|reflexivity]. }
  apply wld_inv in H as [(_ & -> & _)|[(Hn & -> & _)|[(t & -> & H)|(_ & ->)]]]; try discriminate.
  - exfalso. cbn [wl wc] in L. revert L. generalize (decode_case bs). generalize (decode bs). intros dd D.
    destruct D as [ |r'|c r' Hc _ _|r'|bs c r' u _ Hc _ _]; try discriminate; cbn [good_ dchar fst].
    + intros L. destruct Hc; unfold is_line_continuation, LineContinuation_LineFeed in L;
      destruct (Z.leb_spec c (-17)); try discriminate; lia.
    + destruct Hc as [-> |[-> | ->]]; discriminate.
  - destruct H as [b p r H|r|r Hr|name p r H|ds r H|ds r H Hs|ds r H Hs|ds r H]; cbn [wc] in L.
    + exists b, r. split; auto. cbn in H. repeat (destruct H as [H|H]; [injection H as <- <-; first [discriminate L|auto]|]). contradiction.
    + eauto.
    + eauto.
    + pose proof (proj1 (forallb_forall _ _) names_not_lc _ H) as G. cbn [snd] in G. rewrite L in G. discriminate.
    + rewrite M in L; [discriminate|]. apply (hex_range 2 ds H).
    + rewrite M in L; [discriminate|]. apply (hex_range 4 ds H).
    + rewrite M in L; [discriminate|]. apply (hex_range 6 ds H).
    + rewrite M in L; [discriminate|]. apply (octal_range 3 ds H).
Qed.

(** A read at the end of the input after line continuations only. *)
Lemma twl_eof_text : forall bs c r, twl bs = Some (c, r) -> wc c = EndOfFile ->
  r = [] /\ (bs = [] \/ exists b t, bs = 92 :: b :: t /\ (b = 10 \/ b = 13)).
Proof.
  intros bs c r H E. split; [destruct (twf_eof _ _ _ _ H) as [[_ ?]|[? _]]; [auto|contradiction]|].
  unfold twl in H. rewrite twf_unfold in H. destruct (wld bs) as [[c1 r1]|] eqn:W; [|discriminate].
  cbn [andb] in H. rewrite orb_false_r in H. destruct (is_line_continuation (wc c1)) eqn:L.
  - right. eapply wld_lc; eauto.
  - left. injection H as <- <-. pose proof (wld_cases bs) as C. rewrite W in C.
    destruct C as [(? & _ & _)|(_ & C & _)]; [auto|contradiction].
Qed.

(** An ASCII character comes from itself or from a backslash escape. *)
Lemma wld_ascii_first : forall bs c r, wld bs = Some (c, r) -> 0 <= wc c < 0x80 ->
  exists b t, bs = b :: t /\ (b = wc c \/ b = 92).
Proof.
  intros bs c r H A. apply wld_inv in H as [(_ & -> & _)|[(Hn & -> & N & ->)|[(t & -> & H)|(-> & ->)]]].
  - cbn in A. unfold EndOfFile in A. lia.
  - cbn [wl wc] in *. revert A N Hn. generalize (decode_case bs). generalize (decode bs). intros dd D.
    destruct D as [ |r'|c r' Hc _ _|r'|bs c r' u _ Hc _ _]; cbn [good_ dchar fst]; intros A N Hn; try (unfold EndOfFile, CRLF, Unsafe3Byte in A; lia).
    + rewrite utf8_1 by lia. exists c, r'. auto.
    + exfalso. destruct Hc as [-> |[-> | ->]]; unfold Unsafe1Byte, Unsafe2Byte, Unsafe3Byte in A; lia.
  - exists 92, t. auto.
  - exists 92, r. auto.
Qed.

Lemma twl_ascii_first : forall bs c r, twl bs = Some (c, r) -> 0 <= wc c < 0x80 ->
  exists b t, bs = b :: t /\ (b = wc c \/ b = 92).
Proof.
  intros bs c r H A. unfold twl in H. rewrite twf_unfold in H. destruct (wld bs) as [[c1 r1]|] eqn:W; [|discriminate].
  destruct (_ || _) eqn:L.
  - cbn [andb] in L. rewrite orb_false_r in L. destruct (wld_lc _ _ _ W L) as (b & t & -> & _). exists 92, (b :: t). auto.
  - injection H as <- <-. eapply wld_ascii_first; eauto.
Qed.

(** ** Tracked locations *)
Section Track.
Context (PE : Prop).
Local Notation wpr := (wpr PE).

Lemma wpr_modlog : forall o s0 f s (Q : unit -> st -> Prop), Inv o s -> R o s0 s ->
  (lstep o (lg s) (f (lg s))) -> l_flag (f (lg s)) = l_flag (lg s) ->
  (forall s', cur s' = cur s -> Inv o s' -> R o s s' -> R o s0 s' -> Q tt s') ->
  wpr o s0 (modlog f) s Q.
Proof.
  intros o s0 f s Q HI HR HL HF HQ. unfold Logic.wpr, modlog.
  assert (R1 : R o s (mkst (cur s) (f (lg s)))).
  { split; [exists []; split; [constructor|discriminate]|]. split; [apply logext_one; exact HL|].
    unfold lflag. cbn. rewrite HF. auto. }
  assert (I1 : Inv o (mkst (cur s) (f (lg s)))) by exact HI.
  pose proof (R_trans _ _ _ _ HR R1). auto.
Qed.

Lemma lstep_track : forall o l a b c d, o_compute_oob o = true ->
  lstep o l (mklogs (l_flag l) (l_fatal l) (l_nonfatal l) (l_simple_lc l ++ a) (l_complex_lc l ++ b)
                    (l_embedded_newlines l ++ c) (l_embedded_tabs l ++ d)).
Proof. intros. apply ls_track; auto. Qed.

Definition track_rule (m : M unit) := forall o s0 s (Q : unit -> st -> Prop), Inv o s -> R o s0 s -> o_compute_oob o = true ->
  (forall s', cur s' = cur s -> Inv o s' -> R o s s' -> R o s0 s' -> Q tt s') -> wpr o s0 m s Q.

Lemma wpr_addSimple : forall l, track_rule (addSimpleLineContinuation l).
Proof.
  intros l o s0 s Q HI HR HC HQ. apply wpr_modlog; auto.
  pose proof (lstep_track o (lg s) [l] [] [] [] HC) as H. rewrite !app_nil_r in H. exact H.
Qed.
Lemma wpr_addComplex : forall l, track_rule (addComplexLineContinuation l).
Proof.
  intros l o s0 s Q HI HR HC HQ. apply wpr_modlog; auto.
  pose proof (lstep_track o (lg s) [] [l] [] [] HC) as H. rewrite !app_nil_r in H. exact H.
Qed.
Lemma wpr_addNewline : forall l, track_rule (addEmbeddedNewline l).
Proof.
  intros l o s0 s Q HI HR HC HQ. apply wpr_modlog; auto.
  pose proof (lstep_track o (lg s) [] [] [l] [] HC) as H. rewrite !app_nil_r in H. exact H.
Qed.
Lemma wpr_addTab : forall l, track_rule (addEmbeddedTab l).
Proof.
  intros l o s0 s Q HI HR HC HQ. apply wpr_modlog; auto.
  pose proof (lstep_track o (lg s) [] [] [] [l] HC) as H. rewrite !app_nil_r in H. exact H.
Qed.
End Track.

(** ** Tokenizer_nextWLCharacter *)
Section NextWL.
Context (PE : Prop).
Local Notation wpr := (wpr PE).

Lemma nwl_wp : forall o pol s, Inv o s -> p_scan pol = false -> (wld (rest (cur s)) = None -> PE) ->
  wpr o s (next_wolfram_char o pol) s (fun c s' => wld (rest (cur s)) = Some (c, rest (cur s'))).
Proof. intros. eapply wpr_mono; [|apply next_wolfram_char_wp; eauto]. auto. Qed.

Lemma pwl_wp : forall o pol s0 s, Inv o s -> R o s0 s -> p_scan pol = false -> (wld (rest (cur s)) = None -> PE) ->
  wpr o s0 (peek_wolfram_char o pol) s (fun c s' => cur s' = cur s /\ R o s s' /\ exists r, wld (rest (cur s)) = Some (c, r)).
Proof.
  intros o pol s0 s HI HR Hp HE. unfold peek_wolfram_char. eapply wpr_peek; auto; [apply nwl_wp; auto|]. cbn beta. eauto 8.
Qed.

Lemma skip_ws_wp : forall o start pol fuel c s0 s, Inv o s -> R o s0 s -> p_scan pol = false ->
  (length (rest (cur s)) < fuel)%nat ->
  (exists r, wld (rest (cur s)) = Some (c, r)) -> (twf true (rest (cur s)) = None -> PE) ->
  is_line_continuation (wc c) = false \/ True ->
  wpr o s0 (skip_ws_loop o fuel start pol c) s (fun c' s' =>
    isWhitespace (wc c') = false /\ (exists r, wld (rest (cur s')) = Some (c', r)) /\
    twf true (rest (cur s)) = twf true (rest (cur s')) /\ R o s s').
Proof.
  intros o start pol fuel. induction fuel as [|k IH]; intros c s0 s HI HR Hp Hf [r Hc] HE _; [lia|].
  cbn [skip_ws_loop]. destruct (isWhitespace (wc c)) eqn:Ew.
  2:{ wret. split; auto. split; eauto. split; auto. apply R_refl. }
  assert (Hu : twf true (rest (cur s)) = twf true r).
  { rewrite twf_unfold, Hc, Ew. cbn [andb]. rewrite orb_true_r. auto. }
  assert (Hlen : (length r < length (rest (cur s)))%nat).
  { apply (tw_skip_shorter _ _ _ true Hc). rewrite Ew. apply orb_true_r. }
  assert (K : forall s1, cur s1 = cur s -> Inv o s1 -> R o s s1 -> R o s0 s1 -> wpr o s0
     (next_wolfram_char o pol ;; c' <- peek_wolfram_char o pol;; skip_ws_loop o k start pol c') s1 (fun c' s' =>
        isWhitespace (wc c') = false /\ (exists r, wld (rest (cur s')) = Some (c', r)) /\
        twf true (rest (cur s)) = twf true (rest (cur s')) /\ R o s s')).
  { intros s1 E1 I1 R1 B1. apply wpr_bind. eapply wpr_call; [exact B1|apply nwl_wp; auto; rewrite E1, Hc; discriminate|].
    cbn beta. rewrite E1. intros a s2 I2 R2 B2 W2. rewrite Hc in W2. injection W2 as <- Hr2.
    assert (HE2 : wld (rest (cur s2)) = None -> PE).
    { intros H. apply HE. rewrite Hu, Hr2, twf_unfold, H. auto. }
    apply wpr_bind. eapply wpr_call; [exact B2|apply pwl_wp; auto; apply R_refl|]. cbn beta.
    intros c3 s3 I3 R3 B3 (E3 & _ & r3 & W3).
    eapply wpr_call; [exact B3|apply (IH c3 s3 s3); auto; [apply R_refl| | | ]|].
    - rewrite E3, <- Hr2. lia.
    - rewrite E3. eauto.
    - rewrite E3, <- Hr2, <- Hu. auto.
    - cbn beta. intros c4 s4 I4 R4 B4 (N4 & W4 & T4 & _). split; auto. split; auto. split.
      + rewrite Hu, Hr2, <- E3. auto.
      + apply (R_trans _ _ _ _ R1), (R_trans _ _ _ _ R2), (R_trans _ _ _ _ R3 R4). }
  apply wpr_bind, wpr_when; auto.
  - rewrite !andb_true_iff. intros [[HC _] _]. apply wpr_addTab; auto.
  - intros _. apply K; auto. apply R_refl.
Qed.

Lemma lc_loop_wp : forall o start pol fuel c s0 s, Inv o s -> R o s0 s -> p_scan pol = false ->
  (S (length (rest (cur s))) < fuel)%nat ->
  (is_line_continuation (wc c) = true -> twf true (rest (cur s)) = None -> PE) ->
  wpr o s0 (lc_loop o fuel start pol c) s (fun c' s' =>
    if is_line_continuation (wc c) then twf true (rest (cur s)) = Some (c', rest (cur s'))
    else c' = c /\ cur s' = cur s).
Proof.
  intros o start pol fuel. induction fuel as [|k IH]; intros c s0 s HI HR Hp Hf HE; [lia|].
  cbn [lc_loop]. destruct (is_line_continuation (wc c)) eqn:El; cbn [negb]; [|wret; auto]. specialize (HE eq_refl).
  assert (HE1 : wld (rest (cur s)) = None -> PE). { intros H. apply HE. rewrite twf_unfold, H; auto. }
  apply wpr_bind. eapply wpr_call; [exact HR|apply pwl_wp; auto; apply R_refl|]. cbn beta.
  intros c1 s1 I1 R1 B1 (E1 & _ & r1 & W1). rewrite <- E1 in W1, HE, Hf |- *.
  apply wpr_bind, wpr_with_fuel. eapply wpr_call; [exact B1|apply (skip_ws_wp o start pol _ c1 s1 s1); auto; [apply R_refl|eauto]|].
  cbn beta. intros c2 s2 I2 R2 B2 (N2 & (r2 & W2) & T2 & _). rewrite T2 in HE |- *.
  assert (Len : (length (rest (cur s2)) <= length (rest (cur s1)))%nat) by (eapply R_length; eauto).
  assert (K : forall s3, cur s3 = cur s2 -> Inv o s3 -> R o s0 s3 -> wpr o s0
     (next_wolfram_char o pol ;; lc_loop o k start pol c2) s3 (fun c' s' => twf true (rest (cur s2)) = Some (c', rest (cur s')))).
  { intros s3 E3 I3 B3. apply wpr_bind. eapply wpr_call; [exact B3|apply nwl_wp; auto; rewrite E3, W2; discriminate|].
    cbn beta. rewrite E3. intros a s4 I4 R4 B4 W4. rewrite W2 in W4. injection W4 as <- Hr4.
    rewrite twf_unfold, W2, N2 in HE |- *. cbn [andb] in HE |- *. rewrite orb_false_r in HE |- *.
    destruct (is_line_continuation (wc c2)) eqn:L2.
    - assert (length r2 < length (rest (cur s2)))%nat by (apply (tw_skip_shorter _ _ _ true W2); rewrite L2; auto).
      subst r2. eapply wpr_conseq; [apply IH; auto; lia|]. cbn beta. rewrite L2. auto.
    - destruct k as [|k]; [lia|].
      cbn [lc_loop]. rewrite L2. cbn [negb]. wret. rewrite Hr4; auto. }
  apply wpr_bind, wpr_when; auto.
  - rewrite andb_true_iff. intros [HC _]. destruct (p_string pol); [apply wpr_addComplex|apply wpr_addSimple]; auto.
Qed.
End NextWL.

Section NextWL2.
Context (PE : Prop).
Local Notation wpr := (wpr PE).

Lemma nextWL_wp : forall o start pol s, Inv o s -> p_scan pol = false -> (twl (rest (cur s)) = None -> PE) ->
  wpr o s (nextWL o start pol) s (fun c s' => twl (rest (cur s)) = Some (c, rest (cur s'))).
Proof.
  intros o start pol s HI Hp HE. unfold nextWL, twl in *. rewrite twf_unfold in HE |- *. cbn [andb] in HE |- *.
  apply wpr_bind. eapply wpr_call; [apply R_refl|apply nwl_wp; auto; intros H; rewrite H in HE; auto|]. cbn beta.
  intros c s1 I1 R1 B1 W1. rewrite W1 in HE |- *. rewrite orb_false_r in HE |- *. apply wpr_with_fuel.
  eapply wpr_conseq; [apply lc_loop_wp; auto; intros L; rewrite L in HE; auto|]. cbn beta.
  intros c' s' _ _ H. destruct (is_line_continuation (wc c)); auto. destruct H as [-> ->]. auto.
Qed.

Lemma currentWL_wp : forall o start pol s0 s, Inv o s -> R o s0 s -> p_scan pol = false -> (twl (rest (cur s)) = None -> PE) ->
  wpr o s0 (currentWL o start pol) s (fun c s' => cur s' = cur s /\ R o s s' /\ exists r, twl (rest (cur s')) = Some (c, r)).
Proof.
  intros o start pol s0 s HI HR Hp HE. unfold currentWL. eapply wpr_peek; auto; [apply nextWL_wp; auto|]. cbn beta.
  intros a s2 s' E _ _ T _ _ R1 _. split; auto. split; auto. rewrite E. eauto.
Qed.
End NextWL2.

(** ** Kinds the tokenizer can produce, other than EndOfFile *)
Definition LEX_KINDS : list Z :=
  [TK_Amp; TK_AmpAmp; TK_At; TK_AtAt; TK_AtAtAt; TK_AtStar; TK_Bang; TK_BangBang; TK_BangEqual; TK_Bar; TK_BarBar; TK_BarGreater;
   TK_BarMinusGreater; TK_Caret; TK_CaretColonEqual; TK_CaretEqual; TK_CloseCurly; TK_CloseParen; TK_CloseSquare; TK_Colon;
   TK_ColonColon; TK_ColonColonOpenSquare; TK_ColonEqual; TK_ColonGreater; TK_Comma; TK_Comment; TK_Dot; TK_DotDot; TK_DotDotDot;
   TK_Equal; TK_EqualBangEqual; TK_EqualEqual; TK_EqualEqualEqual; TK_Error_ExpectedEqual; TK_Error_ExpectedLetterlike;
   TK_Error_Number; TK_Error_UnexpectedCommentCloser; TK_Error_UnhandledCharacter; TK_Error_UnsafeCharacterEncoding;
   TK_Error_UnterminatedComment; TK_Error_UnterminatedFileString; TK_Error_UnterminatedLinearSyntaxBlob;
   TK_Error_UnterminatedString; TK_Greater; TK_GreaterEqual; TK_GreaterGreater; TK_GreaterGreaterGreater; TK_Hash; TK_HashHash;
   TK_Integer; TK_InternalNewline; TK_Less; TK_LessBar; TK_LessEqual; TK_LessGreater; TK_LessLess; TK_LessMinusGreater;
   TK_LinearSyntaxBlob; TK_LinearSyntax_Amp; TK_LinearSyntax_At; TK_LinearSyntax_BackTick; TK_LinearSyntax_Bang;
   TK_LinearSyntax_Caret; TK_LinearSyntax_CloseParen; TK_LinearSyntax_Percent; TK_LinearSyntax_Plus; TK_LinearSyntax_Slash;
   TK_LinearSyntax_Space; TK_LinearSyntax_Star; TK_LinearSyntax_Under; TK_Minus; TK_MinusEqual; TK_MinusGreater; TK_MinusMinus;
   TK_OpenCurly; TK_OpenParen; TK_OpenSquare; TK_Percent; TK_PercentPercent; TK_Plus; TK_PlusEqual; TK_PlusPlus; TK_Question;
   TK_QuestionQuestion; TK_Rational; TK_Real; TK_Semi; TK_SemiSemi; TK_SingleQuote; TK_Slash; TK_SlashAt; TK_SlashColon;
   TK_SlashDot; TK_SlashEqual; TK_SlashSemi; TK_SlashSlash; TK_SlashSlashAt; TK_SlashSlashDot; TK_SlashSlashEqual; TK_SlashStar;
   TK_Star; TK_StarEqual; TK_StarStar; TK_String; TK_Symbol; TK_Tilde; TK_TildeTilde; TK_ToplevelNewline; TK_Under; TK_UnderDot;
   TK_UnderUnder; TK_UnderUnderUnder; TK_Whitespace] ++ map snd GenLongNames.LONGNAME_OPERATOR.
Definition lexable (k : Z) : bool := zin k LEX_KINDS.

Lemma lexable_forall : forall P : Z -> bool, forallb P LEX_KINDS = true -> forall k, lexable k = true -> P k = true.
Proof. intros P H k Hk. apply zin_In in Hk. exact (proj1 (forallb_forall _ _) H _ Hk). Qed.

Lemma lex_facts_b : forallb (fun k => negb (k =? TK_Unknown) && negb (isEmpty k) && negb (k =? TK_EndOfFile)) LEX_KINDS = true.
Proof. vm_compute. reflexivity. Qed.

Lemma lexable_facts : forall k, lexable k = true -> (k =? TK_Unknown) = false /\ isEmpty k = false /\ (k =? TK_EndOfFile) = false.
Proof.
  intros k H. pose proof (lexable_forall _ lex_facts_b k H) as F. cbn beta in F.
  apply andb_true_iff in F as [F F3]. apply andb_true_iff in F as [F1 F2]. rewrite negb_true_iff in *. auto.
Qed.

(** ** The debug assertion of [Token::new2] on columns *)
Lemma decode_low : forall b t, b <= 0x7f ->
  (b = 13 /\ exists r, t = 10 :: r /\ decode (b :: t) = good_ CRLF r) \/
  (dchar (decode (b :: t)) <> 9 -> drest (decode (b :: t)) = t) /\
  (dchar (decode (b :: t)) = b \/ dchar (decode (b :: t)) = Unsafe1Byte) /\ drest (decode (b :: t)) = t.
Proof.
  intros b t H. unfold decode. destruct (between 0 b 12 || between 14 b 0x7f) eqn:E1; [right; cbn; auto|].
  destruct (Z.eqb_spec b 13) as [-> |N].
  - destruct t as [|b2 r2]; [right; cbn; auto|]. destruct (Z.eqb_spec b2 10) as [-> |]; [left; split; auto; eauto|right; cbn; auto].
  - right. unfold between.
    destruct (Z.leb_spec 0xc2 b); [lia|]. destruct (Z.eqb_spec b 0xe0); [lia|]. destruct (Z.leb_spec 0xe1 b); [lia|].
    destruct (Z.eqb_spec b 0xf0); [lia|]. destruct (Z.leb_spec 0xf1 b); [lia|]. destruct (Z.eqb_spec b 0xf4); [lia|]. cbn. auto.
Qed.

Lemma same_line_columns : forall o bs l cs bs' l', moves o bs l cs bs' l' -> 0 < o_tab_width o -> locok o l ->
  forall pre, bs = pre ++ bs' -> containsOnlyASCII pre = true -> containsTab pre = false ->
  forall a b a' b', l = LineCol a b -> l' = LineCol a' b' -> a = a' -> b' - b = zlen pre.
Proof.
  intros o bs l cs bs' l' M. induction M as [bs l|bs l cs bs' l' Hn M IH]; intros Ht Hl pre Hp HA HT a b a' b' El El' Ea.
  - assert (pre = []) by (apply (f_equal (@length Z)) in Hp; rewrite app_length in Hp; destruct pre; [auto|cbn in Hp; lia]).
    subst. injection El'. intros. subst. cbn. lia.
  - destruct pre as [|x pre].
    { exfalso. cbn in Hp. subst bs'. pose proof (moves_length _ _ _ _ _ _ M). pose proof (decode_shorter bs Hn). lia. }
    subst bs. unfold containsOnlyASCII, containsTab in HA, HT; cbn [app forallb existsb] in HA, HT. apply andb_true_iff in HA as [HA1 HA]. apply orb_false_iff in HT as [HT1 HT].
    apply Z.leb_le in HA1. apply Z.eqb_neq in HT1. cbn [app] in M, IH.
    assert (Hl1 : locok o (adv o (dchar (decode (x :: pre ++ bs'))) l)) by (apply adv_locok; auto).
    pose proof (moves_leb _ _ _ _ _ _ Ht M Hl1) as Hle. specialize (IH Ht Hl1).
    destruct (decode_low x (pre ++ bs') HA1) as [(-> & r & Er & Ed)|(_ & Hc & Hr)].
    + exfalso. rewrite Ed in Hle. cbn [dchar good_ fst] in Hle. subst l l' a'. cbn in Hle. injection Hle as Hle.
      apply orb_true_iff in Hle as [Hle|Hle]; [apply Z.ltb_lt in Hle; lia|]. apply andb_true_iff in Hle as [Hle _].
      apply Z.eqb_eq in Hle. lia.
    + rewrite Hr in IH. set (c := dchar (decode (x :: pre ++ bs'))) in *. subst l l' a'.
      assert (Hadv : adv o c (LineCol a b) = LineCol a (b + 1) \/ exists k, adv o c (LineCol a b) = LineCol (a + 1) k).
      { unfold adv. destruct (Z.eqb_spec c EndOfFile) as [E|_]; [exfalso; apply decode_eof in E; discriminate|].
        destruct ((c =? 10) || (c =? 13)); [right; eexists; reflexivity|].
        destruct (Z.eqb_spec c CRLF); [right; eexists; reflexivity|].
        destruct (Z.eqb_spec c 9) as [E|_]; [exfalso; destruct Hc as [Hc|Hc]; rewrite E in Hc; [lia|discriminate]|left; reflexivity]. }
      destruct Hadv as [Ha|(k & Ha)]; rewrite Ha in *.
      * specialize (IH pre eq_refl HA HT a (b + 1) a b' eq_refl eq_refl eq_refl). unfold zlen in *. cbn [length]. lia.
      * exfalso. cbn in Hle. injection Hle as Hle.
        apply orb_true_iff in Hle as [Hle|Hle]; [apply Z.ltb_lt in Hle; lia|]. apply andb_true_iff in Hle as [Hle _].
        apply Z.eqb_eq in Hle. lia.
Qed.

Lemma new2_check_ok : forall o s0 s k, Inv o s0 -> R o s0 s -> (length (rest (cur s)) < length (rest (cur s0)))%nat ->
  lexable k = true ->
  new2_check k (buf_between (rest (cur s0)) (rest (cur s))) (mkspan (ploc (cur s0)) (ploc (cur s))) = true.
Proof.
  intros o s0 s k HI HR HL Hk. destruct (lexable_facts k Hk) as (K1 & K2 & _). unfold new2_check. rewrite K1.
  destruct (_ || _); auto. rewrite K2. destruct (R_suffix _ _ _ HR) as [pre Ep]. rewrite Ep in HL |- *.
  rewrite buf_between_app. rewrite app_length in HL. assert (Hne : zlen pre =? 0 = false) by (apply Z.eqb_neq; unfold zlen; lia).
  rewrite Hne. cbn [negb andb sp_start sp_end]. destruct HI as (Ht & _ & Hl). destruct HR as [[cs [M _]] _].
  destruct (ploc (cur s0)) as [a b|] eqn:E1; auto. destruct (ploc (cur s)) as [a' b'|] eqn:E2; auto.
  destruct (Z.eqb_spec a a') as [Ea|_]; auto. cbn [andb]. destruct (b' - b =? zlen pre) eqn:Eb; auto.
  cbn [negb]. destruct (containsOnlyASCII pre) eqn:EA; auto. destruct (containsTab pre) eqn:ET; auto.
  exfalso. apply Z.eqb_neq in Eb. apply Eb. eapply same_line_columns; eauto.
Qed.
