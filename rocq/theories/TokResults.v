(** The properties of the tokenizer in the form in which PropsTokenizer.v states them. *)
From Coq Require Import ZArith List Bool Lia.
From Verif Require Import Base Source WLChar GenTokenKind ByteDecoder CharDecoder TokenKind Format Tokenizer
  Decode SpecText SpecReader SpecTokenizer Iter TextProofs Logic WlDecode ReaderProofs FormatProofs TokLogic TokenizerProofs TokenLoop TokSim TokAgree TokSpecs.
Import ListNotations.
Local Open Scope Z_scope.

Lemma ask_all_total : forall o qs input, 0 < o_tab_width o -> Forall plain_request qs -> ~ has_surrogate_escape input ->
  exists ts s', ask_all o qs (reader_new o input) = Ok (ts, s').
Proof.
  intros o qs input Ht Hq Hn. pose proof (ask_all_ok o qs _ _ (reader_new_Inv o input Ht) (R_refl o _) Hq) as H. unfold wpr in H.
  destruct (ask_all o qs (reader_new o input)) as [[ts s']| |]; [eauto|contradiction|contradiction].
Qed.

Lemma ask_all_facts : forall o qs input ts s', 0 < o_tab_width o -> Forall plain_request qs -> ask_all o qs (reader_new o input) = Ok (ts, s') ->
  tiled o (reader_new o input) ts s' /\ length ts = length qs /\ Forall2 (fun q t => exists r, kind_ok q t r) qs ts.
Proof.
  intros o qs input ts s' Ht Hq E. pose proof (ask_all_ok o qs _ _ (reader_new_Inv o input Ht) (R_refl o _) Hq) as H. unfold wpr in H.
  rewrite E in H. tauto.
Qed.

Definition empty_kind (k : Z) : Prop := k = TK_EndOfFile \/ missing_kind k.

Lemma ask_all_lossless : forall o qs input ts s', 0 < o_tab_width o -> Forall plain_request qs -> ask_all o qs (reader_new o input) = Ok (ts, s') ->
  input = concat (map t_text ts) ++ rest (cur s') /\ length ts = length qs /\
  Forall (fun t => t_text t = [] -> t_kind t = TK_EndOfFile \/ missing_kind (t_kind t)) ts.
Proof.
  intros o qs input ts s' Ht Hq E. destruct (ask_all_facts _ _ _ _ _ Ht Hq E) as ((gs & _ & E2 & _) & L & F). split; [exact E2|]. split; auto.
  clear - F. induction F as [|q t qs ts [r K] F IH]; constructor; auto. intros Hn. destruct K as [(_ & K & _)|[(g & pol & _ & K & _)|(K & _)]]; auto; contradiction.
Qed.

Lemma start_nil : forall o input, ploc (cur (reader_new o input)) = loc_of_text o [].
Proof. intros. rewrite loc_of_text_nil. reflexivity. Qed.

Lemma ask_all_tiles : forall o qs input ts s', 0 < o_tab_width o -> Forall plain_request qs -> ask_all o qs (reader_new o input) = Ok (ts, s') ->
  exists gs tail, items_of o input (concat gs ++ tail) /\ tiles (o_conv o) (o_tab_width o) [] ts gs.
Proof.
  intros o qs input ts s' Ht Hq E. destruct (ask_all_facts _ _ _ _ _ Ht Hq E) as ((gs & E1 & _ & T) & _ & _).
  exists gs, (chunks (rest (cur s'))). rewrite <- E1. split; [apply items_of_chunks; auto|]. apply T. apply start_nil.
Qed.

(** the position at the end of a text is not before the position at the end of a prefix *)
Lemma adv_leb : forall o c l, 0 < o_tab_width o -> locok o l -> loc_leb l (adv o c l) = Some true.
Proof.
  intros o c l Ht Hl. destruct (Z.eq_dec c EndOfFile) as [-> |N].
  - cbn. apply loc_leb_refl.
  - apply adv_lt; auto.
Qed.

Lemma tiles_follow : forall o ts gs before l, 0 < o_tab_width o ->
  Forall (fun i => fst i <> EndOfFile) (concat gs) -> l = loc_of_text o before -> locok o l ->
  tiles (o_conv o) (o_tab_width o) before ts gs -> follow l ts.
Proof.
  intros o ts. induction ts as [|t ts IH]; intros [|g gs] before l Ht F El Hl T; cbn [tiles follow] in *; auto; try contradiction.
  destruct T as [[_ T1] T2]. cbn [concat] in F. apply Forall_app in F as [F1 F2].
  rewrite !position_of_loc in T1.
  assert (K : forall h b, locok o (loc_of_text o b) -> Forall (fun i : item => fst i <> EndOfFile) h ->
     locok o (loc_of_text o (b ++ chars_of h)) /\ loc_leb (loc_of_text o b) (loc_of_text o (b ++ chars_of h)) = Some true).
  { induction h as [|i h IHh] using rev_ind; intros b Hb Fh.
    - unfold chars_of. cbn. rewrite app_nil_r. split; auto. apply loc_leb_refl.
    - apply Forall_app in Fh as [Fh Fi]. inversion Fi; subst. destruct (IHh b Hb Fh) as [A B].
      unfold chars_of in *. rewrite map_app, app_assoc. cbn [map]. rewrite loc_of_text_snoc by auto. split; [apply adv_locok; auto|].
      eapply loc_leb_trans; [exact B|]. apply adv_leb; auto. }
  destruct (K g before) as [K1 K2]; [congruence|auto|]. subst l. rewrite T1. cbn [sp_start sp_end]. split; auto. split; auto.
  apply (IH gs (before ++ chars_of g)); auto.
Qed.

Lemma chunks_not_eof : forall n bs, (length bs <= n)%nat -> Forall (fun i => fst i <> EndOfFile) (chunks bs).
Proof.
  intros n bs _. assert (H : items_of (mkopts ConvLineColumn 4 true true true (fun _ => false)) bs (chunks bs)) by (apply items_of_chunks; reflexivity).
  destruct H as [s' H]. remember (chunks bs) as l eqn:E. clear E. remember (reader_new _ bs) as s eqn:Es. clear Es bs.
  induction H; constructor; auto.
Qed.

Lemma ask_all_follow : forall o qs input ts s', 0 < o_tab_width o -> Forall plain_request qs -> ask_all o qs (reader_new o input) = Ok (ts, s') ->
  follow (position_of (o_conv o) (o_tab_width o) []) ts.
Proof.
  intros o qs input ts s' Ht Hq E. destruct (ask_all_facts _ _ _ _ _ Ht Hq E) as ((gs & E1 & _ & T) & _ & _).
  pose proof (chunks_not_eof (length input) input (le_n _)) as F. change input with (rest (cur (reader_new o input))) in F. rewrite E1 in F. apply Forall_app in F as [F _].
  rewrite position_of_loc. apply (tiles_follow o ts gs [] _ Ht F eq_refl).
  - rewrite <- (start_nil o input). apply (reader_new_Inv o input Ht).
  - apply T. apply start_nil.
Qed.

(** ** tokenize *)
Lemma tokenize_facts : forall o b input ts s', 0 < o_tab_width o -> tokenize_raw o b input = Ok (ts, s') ->
  exists skipped_ts s1, handle_first_line o b (reader_new o input) = Ok (tt, s1) /\
    tiled o (reader_new o input) skipped_ts s1 /\ tiled o s1 ts s' /\
    Forall plain_token skipped_ts /\ Forall plain_token ts /\ skipped b skipped_ts o s1 /\ at_end o s' /\ Inv o s1 /\ Inv o s' /\
    with_fuel (tokens_loop o) s1 = Ok (ts, s').
Proof.
  intros o b input ts s' Ht E. pose proof (reader_new_Inv o input Ht) as HI. set (s := reader_new o input) in *.
  unfold tokenize_raw, run_tokens, bind in E. fold s in E. pose proof (handle_first_line_ok o b s s HI (R_refl _ _)) as H. unfold wpr in H.
  destruct (handle_first_line o b s) as [[[] s1]| |]; [|discriminate|discriminate]. destruct H as (I1 & R1 & sk & T1 & F1 & K1).
  pose proof (tokens_loop_ok o (S (length (rest (cur s1)))) s s1 I1 R1) as H. unfold wpr in H. unfold with_fuel in *.
  rewrite E in H. destruct H as (I2 & R2 & T2 & F2 & E2); [lia|]. exists sk, s1. repeat split; auto; first [apply I1 | apply I2].
Qed.

Lemma tokenize_total : forall o b input, 0 < o_tab_width o -> ~ has_surrogate_escape input ->
  exists ts s', tokenize_raw o b input = Ok (ts, s').
Proof.
  intros o b input Ht Hn. destruct (tokenize_raw_ok o b input Ht Hn) as (sk & ts & s1 & s' & E & _). eauto.
Qed.

(** the fuel does not matter *)
Lemma tokens_loop_more : forall o n m s r, (n <= m)%nat -> tokens_loop o n s = Ok r -> tokens_loop o m s = Ok r.
Proof.
  intros o n. induction n as [|n IH]; intros m s r Hm H; [discriminate|]. destruct m as [|m]; [lia|].
  cbn [tokens_loop] in *. unfold bind in *. destruct (peek_token o false s) as [[t s1]| |]; auto.
  destruct (t_kind t =? TK_EndOfFile); auto. destruct (skip t s1) as [[[] s2]| |]; auto.
  destruct (tokens_loop o n s2) as [[ts s3]| |] eqn:E; try discriminate. rewrite (IH m s2 _ ltac:(lia) E). auto.
Qed.
Lemma tokens_loop_det : forall o n m s r r', tokens_loop o n s = Ok r -> tokens_loop o m s = Ok r' -> r = r'.
Proof.
  intros o n m s r r' H H'. apply (tokens_loop_more o n (n + m)) in H; [|lia]. apply (tokens_loop_more o m (n + m)) in H'; [|lia]. congruence.
Qed.
Lemma tokens_loop_place : forall o n m s1 s2 ts1 ts2 t1 t2, Inv o s1 -> Inv o s2 -> rest (cur s1) = rest (cur s2) -> ploc (cur s1) = ploc (cur s2) ->
  tokens_loop o n s1 = Ok (ts1, t1) -> tokens_loop o m s2 = Ok (ts2, t2) -> ts1 = ts2.
Proof.
  intros o n m s1 s2 ts1 ts2 t1 t2 I1 I2 E1 E2 H1 H2. apply (tokens_loop_more o n (n + m)) in H1; [|lia]. apply (tokens_loop_more o m (n + m)) in H2; [|lia].
  pose proof (sim_tokens_loop o o eq (adv_same o o eq_refl) (n + m) s1 s2 (rel_self o s1 s2 I1 I2 E1 E2) I) as H. rewrite H1, H2 in H. destruct H as [H _].
  clear - H. induction H; auto. f_equal; auto. apply trel_eq; auto.
Qed.

(** one step of the token loop *)
Lemma tokens_loop_step : forall o n s ts s', tokens_loop o n s = Ok (ts, s') ->
  exists t s1, ask o top_req s = Ok (t, s1) /\
    ((t_kind t = TK_EndOfFile /\ ts = [] /\ s' = s1) \/
     (t_kind t <> TK_EndOfFile /\ exists k ts', ts = t :: ts' /\ tokens_loop o k (mkst (after t) (lg s1)) = Ok (ts', s'))).
Proof.
  intros o [|n] s ts s' H; [discriminate|]. cbn [tokens_loop] in H. rewrite peek_token_ask in H. unfold bind in H.
  destruct (ask o top_req s) as [[t s1]| |]; try discriminate. exists t, s1. split; auto.
  destruct (Z.eqb_spec (t_kind t) TK_EndOfFile) as [Ek|Nk].
  - injection H as <- <-. auto.
  - rewrite skip_eq in H. destruct (tokens_loop o n _) as [[ts' s2]| |] eqn:E; try discriminate. injection H as <- <-. right. split; auto. eauto.
Qed.

Lemma asked_of : forall o q s t s1, Inv o s -> plain_request q -> ask o q s = Ok (t, s1) -> Inv o s1 /\ asked o q s t s1.
Proof.
  intros o q s t s1 HI Hq E. pose proof (ask_ok o q s HI Hq) as H. unfold wpr in H. rewrite E in H. tauto.
Qed.

Lemma skip_line_tokens : forall o n s u s1, Inv o s -> skip_line_loop o n s = Ok (u, s1) ->
  forall m all s2 k ts s3, tokens_loop o m s = Ok (all, s2) -> tokens_loop o k s1 = Ok (ts, s3) -> ts = after_newline all.
Proof.
  intros o n. induction n as [|n IH]; intros s u s1 HI H m all s2 k ts s3 Ha Hts; [discriminate|].
  cbn [skip_line_loop] in H. rewrite peek_token_ask in H. unfold bind in H.
  apply tokens_loop_step in Ha as Hs. destruct Hs as (t & s' & A & C). rewrite A in H.
  destruct (asked_of o top_req s t s' HI eq_refl A) as [I' K]. destruct K as (K1 & K2 & _).
  destruct C as [(Ek & -> & ->)|(Nk & m' & all' & -> & Hl)].
  - rewrite Ek in H. change (TK_EndOfFile =? TK_EndOfFile) with true in H. cbn iota in H. injection H as _ <-. cbn [after_newline].
    apply (tokens_loop_place o k m s' s ts [] s3 s'); auto; rewrite K1; auto.
  - apply Z.eqb_neq in Nk. rewrite Nk in H. cbn [after_newline]. destruct (t_kind t =? TK_ToplevelNewline).
    + rewrite skip_eq in H. injection H as _ <-. exact (f_equal fst (tokens_loop_det _ _ _ _ _ _ Hts Hl)).
    + rewrite skip_eq in H. eapply IH; eauto.
Qed.

Lemma first_line_drops : forall o b input all s1 ts s2, 0 < o_tab_width o ->
  tokenize_raw o NotScript input = Ok (all, s1) -> tokenize_raw o b input = Ok (ts, s2) -> ts = drop_first_line b all.
Proof.
  intros o b input all s1 ts s2 Ht H1 H2. pose proof (reader_new_Inv o input Ht) as HI. unfold tokenize_raw, run_tokens in *. set (s := reader_new o input) in *.
  assert (Ha : with_fuel (tokens_loop o) s = Ok (all, s1)) by exact H1. clear H1. unfold with_fuel in *. 
  assert (K : b <> NotScript -> ts = drop_first_line b all).
  2:{ destruct b; [|apply K; discriminate|apply K; discriminate]. change (tokens_loop o (S (length (rest (cur s)))) s = Ok (ts, s2)) in H2. cbn [drop_first_line]. rewrite H2 in Ha. congruence. }
  intros Hb.
  assert (H3 : (t <- peek_token o false ;;
      if negb (t_kind t =? TK_Hash) then with_fuel (tokens_loop o)
      else skip t ;; t2 <- peek_token o false ;;
        if negb (t_kind t2 =? TK_Bang) then with_fuel (tokens_loop o) else skip t2 ;; with_fuel (skip_line_loop o) ;; with_fuel (tokens_loop o)) s = Ok (ts, s2)).
  { rewrite <- H2. destruct b; [congruence| |]; cbn [handle_first_line]; unfold bind, with_fuel, ret;
    (destruct (peek_token o false s) as [[t s']| |]; auto; destruct (negb _); auto; destruct (skip t s') as [[[] s'']| |]; auto;
     destruct (peek_token o false s'') as [[t2 s3]| |]; auto; destruct (negb _); auto; destruct (skip t2 s3) as [[[] s4]| |]; auto). }
  clear H2. rewrite !peek_token_ask in H3. unfold bind, with_fuel in H3.
  apply tokens_loop_step in Ha as (t & s' & A & C). rewrite A in H3. destruct (asked_of o top_req s t s' HI eq_refl A) as [I' Kt].
  pose proof Kt as (K1 & K2 & _).
  assert (E0 : forall l, drop_first_line b l = match l with
     | h :: r => if t_kind h =? TK_Hash then match r with e :: r' => if t_kind e =? TK_Bang then after_newline r' else r | [] => [] end else l | [] => [] end)
    by (intros l; destruct b; [congruence|reflexivity|reflexivity]).
  rewrite E0. clear E0.
  destruct C as [(Ek & -> & ->)|(Nk & m' & all' & -> & Hl)].
  { rewrite Ek in H3. change (negb (TK_EndOfFile =? TK_Hash)) with true in H3. cbn iota in H3.
    assert (H4 : tokens_loop o 1 s = Ok ([], s')). { cbn [tokens_loop]. rewrite peek_token_ask. unfold bind. rewrite A, Ek. reflexivity. }
    exact (tokens_loop_place o _ _ s' s ts [] _ _ I' HI (f_equal rest K1) (f_equal ploc K1) H3 H4). }
  destruct (t_kind t =? TK_Hash); cbn [negb] in H3.
  2:{ assert (H4 : exists k, tokens_loop o k s = Ok (t :: all', s1)).
      { exists (S m'). cbn [tokens_loop]. rewrite peek_token_ask. unfold bind. rewrite A. apply Z.eqb_neq in Nk. rewrite Nk, skip_eq, Hl. reflexivity. }
      destruct H4 as [k H4]. exact (tokens_loop_place o _ k s' s ts _ _ _ I' HI (f_equal rest K1) (f_equal ploc K1) H3 H4). }
  rewrite skip_eq in H3. apply tokens_loop_step in Hl as Hl2. destruct Hl2 as (t2 & s3 & A2 & C2). rewrite A2 in H3.
  destruct (asked_of o top_req _ t2 s3 K2 eq_refl A2) as [I3 (J1 & J2 & _)].
  destruct (t_kind t2 =? TK_Bang) eqn:Eb; cbn [negb] in H3.
  2:{ assert (ts = all') as ->. { exact (tokens_loop_place o _ m' s3 (mkst (after t) (lg s')) ts _ _ _ I3 K2 (f_equal rest J1) (f_equal ploc J1) H3 Hl). }
      destruct C2 as [(_ & -> & _)|(_ & k & all2 & -> & _)]; auto. rewrite Eb. auto. }
  destruct C2 as [(Ek & _)|(Nk2 & k & all2 & -> & Hl3)]; [rewrite Ek in Eb; discriminate|]. rewrite Eb.
  rewrite skip_eq in H3. match type of H3 with context [skip_line_loop o ?n ?x] => destruct (skip_line_loop o n x) as [[u s4]| |] eqn:El end; try discriminate.
  eapply skip_line_tokens; [|exact El|exact Hl3|exact H3]. exact J2.
Qed.

Lemma tokenize_lossless : forall o b input ts s', 0 < o_tab_width o -> tokenize_raw o b input = Ok (ts, s') ->
  exists pre eof s0,
    (b = NotScript -> pre = []) /\ peek_token o false s0 = Ok (eof, s') /\ t_kind eof = TK_EndOfFile /\ starts_continuation (t_text eof) /\
    input = concat (map t_text pre) ++ concat (map t_text ts) ++ t_text eof /\
    Forall (fun t => t_text t <> [] /\ t_kind t <> TK_EndOfFile) ts.
Proof.
  intros o b input ts s' Ht E. destruct (tokenize_facts o b input ts s' Ht E) as (sk & s1 & H1 & T1 & T2 & F1 & F2 & K & (s0 & eof & Z1 & Z2 & Z3 & Z4 & Z5 & Z6) & _).
  exists sk, eof, s0. destruct T1 as (g1 & _ & X1 & _). destruct T2 as (g2 & _ & X2 & _).
  split; [intros ->; destruct K as [K|[K _]]; [auto|congruence]|]. split; [exact Z3|]. split; auto. rewrite Z5. split; auto.
  split; [change input with (rest (cur (reader_new o input))); rewrite X1, X2; reflexivity|].
  eapply Forall_impl; [|exact F2]. intros t [A B]. split; auto. intros C. rewrite C in A. discriminate.
Qed.

Lemma tokenize_tiles : forall o b input ts s', 0 < o_tab_width o -> tokenize_raw o b input = Ok (ts, s') ->
  exists before gs tail, items_of o input (before ++ concat gs ++ tail) /\ (b = NotScript -> before = []) /\
    tiles (o_conv o) (o_tab_width o) (chars_of before) ts gs.
Proof.
  intros o b input ts s' Ht E. destruct (tokenize_facts o b input ts s' Ht E) as (sk & s1 & H1 & T1 & T2 & F1 & F2 & K & _).
  destruct T1 as (g1 & X1 & _ & X1'). destruct T2 as (g2 & X2 & _ & X2'). exists (concat g1), g2, (chunks (rest (cur s'))).
  split; [rewrite <- X2; change (items_of o input (concat g1 ++ chunks (rest (cur s1)))); rewrite <- X1; apply items_of_chunks; auto|].
  destruct (X1' [] (start_nil o input)) as [Y1 Y2]. split.
  - intros ->. destruct K as [->|[K _]]; [|congruence]. destruct g1; [reflexivity|contradiction].
  - apply X2'. rewrite Y2. reflexivity.
Qed.

(** ** Repeatable *)
Lemma peek_again : forall o input s q t s1, 0 < o_tab_width o -> reached o input s -> plain_request q -> ask o q s = Ok (t, s1) ->
  cur s1 = cur s /\
  (forall u s2, ask o q s1 = Ok (u, s2) -> u = t) /\
  (~ has_surrogate_escape input -> exists s2, ask o q s1 = Ok (t, s2)) /\
  exists s2, skip t s1 = Ok (tt, s2) /\ rest (cur s) = t_text t ++ rest (cur s2) /\
    t_src t = mkspan (ploc (cur s)) (ploc (cur s2)).
Proof.
  intros o input s q t s1 Ht Hr Hq E. destruct (reached_Inv _ _ _ Ht Hr) as [HI HR]. destruct (asked_of _ _ _ _ _ HI Hq E) as [I1 A].
  pose proof A as (A1 & A2 & A3 & A4 & A5 & A6 & A7). split; auto.
  assert (U : forall u s2, ask o q s1 = Ok (u, s2) -> u = t).
  { intros u s2 E2. symmetry. apply (ask_same o q s s1 t u s1 s2); auto; rewrite A1; auto. }
  split; [exact U|]. split.
  - intros Hn. destruct (ask_total o q s1 I1 Hq) as (u & s2 & E2 & _).
    + rewrite A1. eapply SE_reached; eauto.
    + exists s2. rewrite <- (U u s2 E2). auto.
  - exists (mkst (after t) (lg s1)). split; [apply skip_eq|]. split; auto.
Qed.

(** ** Particular tokens *)
Lemma ask_po : forall o g pol s t s1 (P : token -> Prop), ask o (AsToken g pol) s = Ok (t, s1) -> 
  (forall pol', p_scan pol' = p_scan pol -> po (nextToken o pol') s (fun t _ => P t)) -> P t.
Proof.
  intros o g pol s t s1 P E H. cbn [ask] in E. unfold peek_token_with in E. set (pol' := if g then without_toplevel pol else pol) in *.
  specialize (H pol' ltac:(unfold pol'; destruct g; reflexivity)). unfold peek, bind, mark, seek, ret, po in *.
  destruct (nextToken o pol' s) as [[u s2]| |]; try discriminate. injection E as <- _. exact H.
Qed.

Lemma comment_token : forall o input s g pol t s1 r, 0 < o_tab_width o -> reached o input s -> p_scan pol = false ->
  rest (cur s) = 40 :: 42 :: r -> ask o (AsToken g pol) s = Ok (t, s1) ->
  match after_comment 1 r with
  | Some r' => t_kind t = TK_Comment /\ rest (cur s) = t_text t ++ r'
  | None => t_kind t = TK_Error_UnterminatedComment /\ rest (cur s) = t_text t
  end.
Proof.
  intros o input s g pol t s1 r Ht Hr Hp Er E. destruct (reached_Inv _ _ _ Ht Hr) as [HI _].
  assert (H : comment_post r 1 (cur s) t s1).
  { revert E. intros E. apply (ask_po _ _ _ _ _ _ (fun t => comment_post r 1 (cur s) t s1) E). intros pol' Hp'.
    eapply po_conseq; [apply nextToken_comment; eauto; congruence|]. intros a s2 H. exact H. }
  unfold comment_post in H. destruct (after_comment 1 r) as [r'|] eqn:Ea.
  - destruct H as [H1 H2]. split; auto. apply after_comment_suffix with (n := length r) in Ea as [p Ep]; auto. rewrite H2, Er, Ep.
    change (40 :: 42 :: p ++ r') with ((40 :: 42 :: p) ++ r'). rewrite buf_between_app. reflexivity.
  - destruct H as [H1 H2]. auto.
Qed.

Lemma string_token : forall o input s g pol t s1 r, 0 < o_tab_width o -> reached o input s -> p_scan pol = false ->
  rest (cur s) = 34 :: r -> ask o (AsToken g pol) s = Ok (t, s1) ->
  match after_string r with
  | Some r' => t_kind t = TK_String /\ rest (cur s) = t_text t ++ r'
  | None => t_kind t = TK_Error_UnterminatedString /\ rest (cur s) = t_text t
  end.
Proof.
  intros o input s g pol t s1 r Ht Hr Hp Er E. destruct (reached_Inv _ _ _ Ht Hr) as [HI _].
  assert (H : string_post r (cur s) t s1).
  { apply (ask_po _ _ _ _ _ _ (fun t => string_post r (cur s) t s1) E). intros pol' Hp'.
    eapply po_conseq; [apply nextToken_string; eauto; congruence|]. intros a s2 H. exact H. }
  unfold string_post in H. destruct (after_string r) as [r'|] eqn:Ea.
  - destruct H as [H1 H2]. split; auto. apply after_string_suffix with (n := length r) in Ea as [p Ep]; auto. rewrite H2, Er, Ep.
    change (34 :: p ++ r') with ((34 :: p) ++ r'). rewrite buf_between_app. reflexivity.
  - destruct H as [H1 H2]. auto.
Qed.

Lemma integer_token : forall o input s g pol t s1 ds e, 0 < o_tab_width o -> reached o input s -> p_scan pol = false ->
  ds <> [] -> Forall digit_byte ds -> ends_number e ->
  rest (cur s) = ds ++ e -> ask o (AsToken g pol) s = Ok (t, s1) -> t_kind t = TK_Integer /\ t_text t = ds.
Proof.
  intros o input s g pol t s1 ds e Ht Hr Hp Hn F He Er E. destruct (reached_Inv _ _ _ Ht Hr) as [HI _].
  apply (ask_po _ _ _ _ _ _ (fun t => t_kind t = TK_Integer /\ t_text t = ds) E). intros pol' Hp'.
  eapply nextToken_integer; eauto.
Qed.

(** ** Independence of the options *)
Lemma rel_new_eq : forall o1 o2 input, 0 < o_tab_width o1 -> same_places o1 o2 -> rel o1 o2 eq (reader_new o1 input) (reader_new o2 input).
Proof.
  intros o1 o2 input Ht [E1 E2]. assert (Ht2 : 0 < o_tab_width o2) by lia.
  split; [split; cbn; congruence|]. split; [apply (reader_new_Inv o1 input Ht)|apply (reader_new_Inv o2 input Ht2)].
Qed.
Lemma rel_new_any : forall o1 o2 input, 0 < o_tab_width o1 -> 0 < o_tab_width o2 -> rel o1 o2 (fun _ _ => True) (reader_new o1 input) (reader_new o2 input).
Proof.
  intros o1 o2 input Ht Ht2. split; [split; cbn; auto|]. split; [apply (reader_new_Inv o1 input Ht)|apply (reader_new_Inv o2 input Ht2)].
Qed.
Lemma trel_all_eq : forall ts us, Forall2 (trel eq) ts us -> ts = us.
Proof. induction 1; auto. f_equal; auto. apply trel_eq; auto. Qed.
Lemma trel_all_lexeme : forall ts us, Forall2 (trel (fun _ _ => True)) ts us -> Forall2 same_lexeme ts us.
Proof. induction 1 as [|t u ts us H]; constructor; auto. destruct H as (H1 & _ & H2 & _). split; auto. Qed.

Lemma tokens_same_places : forall o1 o2 b input ts1 ts2 s1 s2, 0 < o_tab_width o1 -> same_places o1 o2 ->
  tokenize_raw o1 b input = Ok (ts1, s1) -> tokenize_raw o2 b input = Ok (ts2, s2) -> ts1 = ts2.
Proof.
  intros o1 o2 b input ts1 ts2 s1 s2 Ht Hp E1 E2.
  pose proof (sim_run_tokens o1 o2 eq (adv_same o1 o2 (proj2 Hp)) b _ _ (rel_new_eq o1 o2 input Ht Hp) I) as H.
  unfold tokenize_raw in *. rewrite E1, E2 in H. apply trel_all_eq. apply H.
Qed.
Lemma tokens_same_lexemes : forall o1 o2 b input ts1 ts2 s1 s2, 0 < o_tab_width o1 -> 0 < o_tab_width o2 ->
  tokenize_raw o1 b input = Ok (ts1, s1) -> tokenize_raw o2 b input = Ok (ts2, s2) -> Forall2 same_lexeme ts1 ts2.
Proof.
  intros o1 o2 b input ts1 ts2 s1 s2 Ht Ht2 E1 E2.
  pose proof (sim_run_tokens o1 o2 (fun _ _ => True) (fun _ _ _ _ => I) b _ _ (rel_new_any o1 o2 input Ht Ht2) I) as H.
  unfold tokenize_raw in *. rewrite E1, E2 in H. apply trel_all_lexeme. apply H.
Qed.
Lemma asks_same_places : forall o1 o2 qs input ts1 ts2 s1 s2, 0 < o_tab_width o1 -> same_places o1 o2 -> Forall plain_request qs ->
  ask_all o1 qs (reader_new o1 input) = Ok (ts1, s1) -> ask_all o2 qs (reader_new o2 input) = Ok (ts2, s2) -> ts1 = ts2.
Proof.
  intros o1 o2 qs input ts1 ts2 s1 s2 Ht Hp Hq E1 E2.
  pose proof (sim_ask_all o1 o2 eq (adv_same o1 o2 (proj2 Hp)) qs Hq _ _ (rel_new_eq o1 o2 input Ht Hp) I) as H.
  rewrite E1, E2 in H. apply trel_all_eq. apply H.
Qed.
Lemma asks_same_lexemes : forall o1 o2 qs input ts1 ts2 s1 s2, 0 < o_tab_width o1 -> 0 < o_tab_width o2 -> Forall plain_request qs ->
  ask_all o1 qs (reader_new o1 input) = Ok (ts1, s1) -> ask_all o2 qs (reader_new o2 input) = Ok (ts2, s2) -> Forall2 same_lexeme ts1 ts2.
Proof.
  intros o1 o2 qs input ts1 ts2 s1 s2 Ht Ht2 Hq E1 E2.
  pose proof (sim_ask_all o1 o2 (fun _ _ => True) (fun _ _ _ _ => I) qs Hq _ _ (rel_new_any o1 o2 input Ht Ht2) I) as H.
  rewrite E1, E2 in H. apply trel_all_lexeme. apply H.
Qed.

(** A state reached on an input continues as on the remaining input alone. *)
Lemma suffix_same_lexemes : forall o input s qs ts1 ts2 s1 s2, 0 < o_tab_width o -> reached o input s -> Forall plain_request qs ->
  ask_all o qs s = Ok (ts1, s1) -> ask_all o qs (reader_new o (rest (cur s))) = Ok (ts2, s2) -> Forall2 same_lexeme ts1 ts2.
Proof.
  intros o input s qs ts1 ts2 s1 s2 Ht Hr Hq E1 E2. destruct (reached_Inv _ _ _ Ht Hr) as [HI _].
  assert (Rl : rel o o (fun _ _ => True) s (reader_new o (rest (cur s)))).
  { split; [split; cbn; auto|]. split; [exact HI|apply (reader_new_Inv o _ Ht)]. }
  pose proof (sim_ask_all o o (fun _ _ => True) (fun _ _ _ _ => I) qs Hq _ _ Rl I) as H.
  rewrite E1, E2 in H. apply trel_all_lexeme. apply H.
Qed.

Lemma iterator_same : forall o input ts s', 0 < o_tab_width o -> ~ has_surrogate_escape input ->
  tokenize_raw o NotScript input = Ok (ts, s') -> exists s2, with_fuel (next_tokens_loop o) (reader_new o input) = Ok (ts, s2).
Proof.
  intros o input ts s' Ht Hn H. pose proof (reader_new_Inv o input Ht) as HI.
  change (with_fuel (tokens_loop o) (reader_new o input) = Ok (ts, s')) in H. unfold with_fuel in *. 
  destruct (next_loop_same o _ _ (reader_new o input) HI HI eq_refl eq_refl Hn ts s' H) as [t2 E]. exists t2. exact E.
Qed.
