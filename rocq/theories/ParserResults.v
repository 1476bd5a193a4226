(** The parser as a whole. *)
From Coq Require Import ZArith List Bool Lia.
From Verif Require Import Base Source WLChar LongNames ByteDecoder CharDecoder Decode SpecText Iter
  TextProofs Logic LongNamesProofs WlDecode SpecReader ReaderProofs GenTokenKind TokenKind Format FormatProofs Tokenizer TokLogic
  TokenizerProofs SpecTokenizer TokenLoop TokSim TokAgree TokResults GenPrec GenOps GenParselets Parselets Cst SpecCst CstProofs Parser SpecParser SpecParse
  ParserLogic ParserRules ParserProofs.
Import ListNotations.
Local Open Scope Z_scope.

Lemma rank_pos : forall c, (1 <= rank c)%nat.
Proof. intros [t|t| | | | | | |]; cbn; try lia; [destruct (prefix_of (t_kind t)); lia|destruct (t_kind t =? TK_Fake_ImplicitTimes); lia]. Qed.

Section Whole.
Variable o : opts.
Variable dbg : bool.
Variable repair : Z -> list cst -> res (list cst).
Variable base : st.
Variable E : Prop.
Hypothesis HE : SE base -> E.
Hypothesis Hrep : forall op ch, unclosed_group op ch -> Forall (shaped repair) ch -> placed o repair base ch -> (repair op ch = Panic -> E) /\ repair op ch <> OutOfFuel.
Hypothesis Hcomma : dbg = true -> forall z g t, R o base z -> reads o (AsToken g TOPLEVEL) (here z) t -> t_kind t = TK_LongName_InvisibleComma -> E.

Local Notation good := (good o base).
Local Notation PW := (PW E).

Lemma run_ok : forall start, within o base start -> forall k c S C G s, pre o repair base start c S C G s -> (measure c s <= k)%nat ->
  PW (run o dbg repair k c) s (post o repair base start c S C G s).
Proof.
  intros start Hstart. induction k as [|k IH]; intros c S C G s Hp Hm.
  - exfalso. pose proof (rank_pos c). unfold measure in Hm. lia.
  - cbn [run]. exact (answer_ok o dbg repair base E HE Hrep Hcomma start Hstart k IH c S C G s Hp Hm).
Qed.

Lemma good_within : forall z, good z -> within o base (here z).
Proof. intros z (_ & [(cs & M & _) _] & _). exists cs. exact M. Qed.

Definition loop_result (z : st) (l : list cst) (s' : pst) : Prop :=
  exists z', s' = mkp z' [] [] [] /\ good z' /\ Forall (shaped repair) l /\ Forall (fun n => trivia_leaf n = true \/ operand n = true) l /\
    settled (parts l) /\ (exists g, Forall2 (mended repair) g l /\ row o (here z) (leaves g) (here z')) /\
    (exists t, reads o (qtop []) (here z') t /\ t_kind t = TK_EndOfFile) /\ (forall D, stops o [] D (here z) -> parts l = []).

Lemma stops_trivia : forall G D z t z', stops o G D (here z) -> reads o (qtop G) (here z) t -> isTrivia (t_kind t) = true -> here z' = past t -> stops o G D (here z').
Proof. intros G D z t z' H Hr Ht Hz l u p Hs. apply (H (t :: l) u p). apply strip_cons; auto. rewrite <- Hz. exact Hs. Qed.

Lemma parse_loop_ok : forall fuel z, good z -> (len z < fuel)%nat -> PW (parse_loop o dbg repair fuel) (mkp z [] [] []) (loop_result z).
Proof.
  induction fuel as [|k IH]; intros z Hg Hf; [lia|]. cbn [parse_loop]. apply PW_bind, (PW_peek o base E HE); auto.
  intros t z1 G1 H1 _ HL R1. pose proof (len_here _ _ H1) as Ln1. pose proof (looks_reads _ _ _ _ HL) as Hr.
  destruct (Z.eqb_spec (t_kind t) TK_EndOfFile) as [Ee|Ne].
  { apply PW_ret. exists z1. split; auto. split; auto. split; auto. split; auto. split; [apply settled_nil|]. split; [exists []; rewrite H1; split; constructor|]. split; [exists t; auto|auto]. }
  destruct (isTrivia (t_kind t)) eqn:Et.
  { destruct (reads_trivia o (qtop []) _ t eq_refl Hr Et) as [T1 _].
    apply PW_bind. apply (PW_skip o base E (qtop []) z1 t); auto; [reflexivity|]. intros z2 G2 H2 R2 L2 S2. specialize (S2 T1). apply PW_bind.
    eapply PW_conseq; [apply IH; auto; lia|]. intros l s' (z' & -> & G' & F1 & F2 & F3 & F4 & F5 & F6). apply PW_ret. exists z'. split; auto. split; auto.
    split; [constructor; auto; apply shaped_tok|]. split; [constructor; auto|]. assert (P : parts (Tok t :: l) = parts l) by (unfold parts; cbn; rewrite Et; reflexivity). rewrite P.
    split; auto. split; [|split; auto].
    - destruct F4 as (g & Hm & Hg4). exists (Tok t :: g). split; [constructor; auto; constructor|]. change (leaves (Tok t :: g)) with (t :: leaves g). constructor; [right; exists (qtop []), t; rewrite <- H1; split; [reflexivity|split; auto; split; auto; left; auto]|].
      rewrite <- H2. auto.
    - intros D Hs. apply (F6 D). eapply (stops_trivia [] D z t); eauto. rewrite <- H1. exact Hr. }
  assert (Hs : solidk (t_kind t) = true) by (eapply reads_solid; eauto).
  assert (K : forall l z2 n s', good z2 -> (exists g, Forall2 (mended repair) g [n] /\ row o (here z1) (leaves g) (here z2)) -> ok_node o repair [] [] z2 n -> loop_result z2 l s' -> loop_result z (n :: l) s').
  { intros l z2 n s' G2 Hrow (On & Sn & Bn & Stn & _) (z' & -> & G' & F1 & F2 & F3 & F4 & F5 & F6). exists z'. split; auto. split; auto. split; auto. split; auto.
    rewrite parts_one by (apply operand_solid; auto). split; [|split; [|split; auto]].
    - unfold settled in *. cbn [removelast]. destruct (parts l) as [|m r] eqn:Ep; [constructor|]. constructor; auto.
      destruct (open_ended n) eqn:Eo; auto. specialize (F6 _ (Stn eq_refl)). discriminate.
    - destruct F4 as (g & Hm & Hg4), Hrow as (gn & Hmn & Hgn). exists (gn ++ g). change (n :: l) with ([n] ++ l). split; [apply Forall2_app; auto|].
      rewrite leaves_app. rewrite <- H1. eapply row_cat; eauto.
    - intros D St. exfalso. assert (Hstop : stop_kind [] D (t_kind t)) by (apply (St [] t (here z)); constructor; auto; rewrite <- H1; exact Hr).
      destruct Hstop as [X|(_ & X & _)]; [contradiction|destruct X]. }
  apply PW_bind. destruct (isCloser (t_kind t)) eqn:Ec.
  - unfold prefix_toplevel_closer. apply PW_bind, PW_assert; auto. apply PW_bind. apply PW_push_leaf; [reflexivity|]. cbn [app].
    apply (PW_skip o base E (qtop []) z1 t); auto; [reflexivity|]. intros z2 G2 H2 R2 L2 S2. specialize (S2 (reads_text _ _ _ _ Hr Ne)).
    apply PW_bind. apply (PW_pop_node E _ _ []). apply PW_bind. change (assert_quiescent (mkp z2 [] [] [])) with (Ok (tt, mkp z2 [] [] [])).
    unfold ParserRules.PW at 1. cbn [assert_quiescent ctxs groups]. apply PW_bind. eapply PW_conseq; [apply IH; auto; lia|]. intros l s' Hl. apply PW_ret. eapply K; eauto.
    + exists [Tok (tok_at TK_Error_UnexpectedCloser t)]. split; [repeat constructor|]. assert (Rl : relabelled t (tok_at TK_Error_UnexpectedCloser t)) by (right; left; auto).
      rewrite H2, <- (past_relabelled _ _ Rl Ne). apply (row_snoc o _ [] (here z1)); [constructor|]. right. exists (qtop []), t. split; [reflexivity|]. auto.
    + apply leaf_ok. reflexivity.
  - unfold ParserRules.PW. change (PW (run o dbg repair (depth_bound (mkp z1 [] [] [])) (CPrefix t)) (mkp z1 [] [] []) (fun (_ : unit) (s' : pst) =>
      PW (n <- pop_node ;; assert_quiescent ;; l <- parse_loop o dbg repair k ;; pret (n :: l))%parser s' (loop_result z))).
    eapply PW_conseq; [apply (run_ok (here z1) (good_within _ G1) _ (CPrefix t) [] [] [])|].
    + exists z1. split; auto. split; auto. split; [exists []; split; constructor|]. split; auto. split; auto. reflexivity.
    + unfold measure, depth_bound. cbn [tz]. pose proof (rank_prefix t). fold (len z1). lia.
    + intros [] s' (z2 & n & -> & G2 & A2 & [O2 _] & L2 & X2). cbn [tz extra app] in *. assert (S2 : (len z2 < len z1)%nat) by (apply X2; right; auto).
      apply PW_bind. apply (PW_pop_node E _ _ []). apply PW_bind. unfold ParserRules.PW at 1. cbn [assert_quiescent ctxs groups].
      apply PW_bind. eapply PW_conseq; [apply IH; auto; lia|]. intros l s' Hl. apply PW_ret. eapply K; eauto.
Qed.

End Whole.

(** ** The first line *)
Lemma weof_after : forall t, t_kind t <> TK_EndOfFile -> weof (after t) = false.
Proof. intros t H. unfold after. cbn. apply Z.eqb_neq. exact H. Qed.
Lemma skip_line_weof : forall o n s s', weof (cur s) = false -> skip_line_loop o n s = Ok (tt, s') -> weof (cur s') = false.
Proof.
  intros o. induction n as [|n IH]; intros s s' Hw H; [discriminate|]. cbn [skip_line_loop] in H. unfold bind in H.
  destruct (peek_token o false s) as [[t s1]| |] eqn:E; try discriminate. pose proof (inert_peek _ _ _ _ _ E) as Hc.
  destruct (Z.eqb_spec (t_kind t) TK_EndOfFile) as [|N]; [injection H as <-; congruence|].
  destruct (t_kind t =? TK_ToplevelNewline); rewrite skip_eq in H.
  - injection H as <-. apply weof_after; auto.
  - eapply IH; [|exact H]. apply weof_after; auto.
Qed.
Lemma first_line_weof : forall o b s s', weof (cur s) = false -> handle_first_line o b s = Ok (tt, s') -> weof (cur s') = false.
Proof.
  intros o b s s' Hw H. assert (K : (t <- peek_token o false ;;
      if negb (t_kind t =? TK_Hash) then ret tt
      else skip t ;; t2 <- peek_token o false ;;
        if negb (t_kind t2 =? TK_Bang) then ret tt else skip t2 ;; with_fuel (skip_line_loop o))%monad s = Ok (tt, s') -> weof (cur s') = false).
  { clear H. unfold bind. intros H. destruct (peek_token o false s) as [[t s1]| |] eqn:E; try discriminate. pose proof (inert_peek _ _ _ _ _ E) as Hc.
    destruct (Z.eqb_spec (t_kind t) TK_Hash) as [Et|]; cbn [negb] in H; [|injection H as <-; congruence].
    rewrite skip_eq in H. destruct (peek_token o false (mkst (after t) (lg s1))) as [[u s2]| |] eqn:E2; try discriminate. pose proof (inert_peek _ _ _ _ _ E2) as Hc2.
    destruct (Z.eqb_spec (t_kind u) TK_Bang) as [Eu|]; cbn [negb] in H.
    - rewrite skip_eq in H. eapply skip_line_weof; [|exact H]. apply weof_after. rewrite Eu. discriminate.
    - injection H as <-. rewrite Hc2. apply weof_after. rewrite Et. discriminate. }
  destruct b; cbn [handle_first_line] in H; auto. injection H as <-. auto.
Qed.

(** ** A parse *)
Section Parse.
Variable o : opts.
Variable dbg : bool.
Variable repair : Z -> list cst -> res (list cst).
Variable input : list Z.
Variable E : Prop.
Hypothesis Ht : 0 < o_tab_width o.
Hypothesis HE : has_surrogate_escape input -> E.
Hypothesis Hrep : forall op ch, unclosed_group op ch -> Forall (shaped repair) ch -> placed o repair (reader_new o input) ch -> (repair op ch = Panic -> E) /\ repair op ch <> OutOfFuel.
Hypothesis Hcomma : dbg = true -> never_lexed o input TK_LongName_InvisibleComma \/ E.

Lemma comma_place : forall z g t, dbg = true -> R o (reader_new o input) z -> reads o (AsToken g TOPLEVEL) (here z) t ->
  t_kind t = TK_LongName_InvisibleComma -> E.
Proof.
  intros z g t Hd HR Hr Hk. destruct (Hcomma Hd) as [Hn|He]; auto.
  destruct Hr as (z0 & z1 & I0 & E0 & A0). destruct (R_suffix _ _ _ HR) as [a Ea]. cbn in Ea.
  assert (E0' : rest (cur z0) = rest (cur z)) by (unfold here in E0; congruence).
  assert (I1 : Inv o (reader_new o (rest (cur z)))) by (apply reader_new_Inv; auto).
  pose proof (ask_ok o (AsToken g TOPLEVEL) _ I1 eq_refl) as W. unfold wpr in W.
  destruct (ask o (AsToken g TOPLEVEL) (reader_new o (rest (cur z)))) as [[u s1]| |] eqn:A1; [exfalso| |contradiction].
  - assert (Rl : rel o o (fun _ _ => True) z0 (reader_new o (rest (cur z)))) by (split; [split; cbn; auto|split; auto]).
    pose proof (sim_ask o o (fun _ _ => True) (fun _ _ _ _ => I) (AsToken g TOPLEVEL) eq_refl _ _ Rl I) as H. rewrite A0, A1 in H.
    destruct H as [(K1 & _) _]. apply (Hn a (rest (cur z)) g u s1 Ea); [exact A1|]. congruence.
  - apply HE. apply (R_surr o (reader_new o input) z HR). exact W.
Qed.

Definition parse_result (b : first_line) (l : list cst) (s' : pst) : Prop :=
  exists s0 ts z', handle_first_line o b (reader_new o input) = Ok (tt, s0) /\ tiled o (reader_new o input) ts s0 /\ (b = NotScript -> ts = []) /\ Inv o s0 /\
    R o (reader_new o input) s0 /\ s' = mkp z' [] [] [] /\ Inv o z' /\ R o (reader_new o input) z' /\ Forall (shaped repair) l /\ Forall (fun n => trivia_leaf n = true \/ operand n = true) l /\
    settled (parts l) /\ (exists g, Forall2 (mended repair) g l /\ row o (here s0) (leaves g) (here z')) /\
    (exists t, reads o (qtop []) (here z') t /\ t_kind t = TK_EndOfFile).

Lemma parse_ok : forall b, match parse_cst_raw o dbg repair b input with
  | Ok (l, s') => parse_result b l s' | Panic => E | OutOfFuel => False end.
Proof.
  intros b. unfold parse_cst_raw, do_parse, session_new, pbind, tk. cbn [tz stack ctxs groups].
  pose proof (reader_new_Inv o input Ht) as HI. pose proof (handle_first_line_ok o b _ _ HI (R_refl _ _)) as H. unfold wpr in H.
  destruct (handle_first_line o b (reader_new o input)) as [[[] s0]| |] eqn:Ef; [|apply HE; exact H|contradiction].
  destruct H as (I0 & R0 & ts & T & _ & Sk). pose proof (first_line_weof o b (reader_new o input) s0 eq_refl Ef) as Hw.
  unfold pwith_fuel. cbn [tz].
  assert (G0 : good o (reader_new o input) s0) by (split; auto).
  pose proof (parse_loop_ok o dbg repair (reader_new o input) E HE Hrep (fun Hd z g t HR Hr Hk => comma_place z g t Hd HR Hr Hk) (S (length (rest (cur s0)))) s0 G0) as W.
  unfold PW in W. destruct (parse_loop o dbg repair _ _) as [[l s']| |]; [|apply W; unfold len; lia|apply W; unfold len; lia].
  specialize (W (Nat.lt_succ_diag_r _)).
  destruct W as (z' & -> & (G1 & G2 & G3) & F1 & F2 & F3 & F4 & F5 & _). cbn [stack length Nat.eqb negb]. rewrite andb_false_r.
  exists s0, ts, z'. do 2 (split; [auto|]). split; [|repeat (split; [auto|]); auto].
  intros ->. destruct Sk as [Sk|[Sk _]]; [auto|contradiction].
Qed.
End Parse.
