(** When a parse reports an unsafe encoding. *)
From Coq Require Import ZArith List Bool Lia.
From Verif Require Import Base Source WLChar LongNames ByteDecoder CharDecoder Decode SpecText Iter
  TextProofs Logic SpecReader ReaderProofs GenTokenKind TokenKind Tokenizer TokLogic TokenizerProofs SpecTokenizer TokenLoop TokSim TokResults
  Cst Parser SpecParse ParserLogic ParserResults ParserTheorems ErrorReparse SpecRepair RepairProofs.
Import ListNotations.
Local Open Scope Z_scope.

(** the last thing the loop does is to look at the end *)
Lemma parse_loop_end : forall o dbg repair fuel s l s', parse_loop o dbg repair fuel s = Ok (l, s') ->
  exists s1 t, ppeek o s1 = Ok (t, s') /\ t_kind t = TK_EndOfFile.
Proof.
  intros o dbg repair. induction fuel as [|k IH]; intros s l s' H; [discriminate|]. cbn [parse_loop] in H.
  unfold pbind at 1 in H. destruct (ppeek o s) as [[t s1]| |] eqn:Ep; try discriminate.
  destruct (Z.eqb_spec (t_kind t) TK_EndOfFile) as [Ee|Ne].
  { injection H as <- <-. exists s, t. auto. }
  destruct (isTrivia (t_kind t)).
  - unfold pbind at 1 in H. destruct (pskip t s1) as [[[] s2]| |]; try discriminate. unfold pbind at 1 in H.
    destruct (parse_loop o dbg repair k s2) as [[l2 s3]| |] eqn:El; try discriminate. injection H as <- <-. eauto.
  - unfold pbind at 1 in H. match type of H with match ?x with _ => _ end = _ => destruct x as [[[] s2]| |]; try discriminate end.
    unfold pbind at 1 in H. destruct (pop_node s2) as [[n s3]| |]; try discriminate.
    unfold pbind at 1 in H. destruct (assert_quiescent s3) as [[[] s4]| |]; try discriminate.
    unfold pbind at 1 in H. destruct (parse_loop o dbg repair k s4) as [[l2 s5]| |] eqn:El; try discriminate. injection H as <- <-. eauto.
Qed.

Lemma clean_reading : forall o input s', 0 < o_tab_width o -> R o (reader_new o input) s' -> well_formed_no_bom input -> l_flag (lg s') = None.
Proof.
  intros o input s' Ht HR W. set (s := reader_new o input) in *. destruct (l_flag (lg s')) eqn:Ef; auto. exfalso. destruct HR as (_ & _ & D).
  destruct D as [D|D]; [unfold lflag; congruence|apply D; reflexivity|].
  destruct (moves_to_end o (rest (cur s)) (ploc (cur s))) as (cs & l' & M). pose proof (proj2 (clean_iff _ _ _ _ _ M) W) as F.
  destruct D as (o2 & l2 & ds2 & bs2 & l2' & M3 & U3). destruct (moves_chars_indep _ o _ _ _ _ _ M3 (ploc (cur s))) as [l3 M4].
  destruct (moves_det _ _ _ _ _ _ M4 _ _ M) as [es [E1 _]]. rewrite E1, existsb_app, U3 in F. discriminate.
Qed.

Lemma parse_flag : forall o dbg b input l s', 0 < o_tab_width o -> parse_cst_raw o dbg keep b input = Ok (l, s') ->
  (l_flag (lg (tz s')) = None <-> well_formed_no_bom input).
Proof.
  intros o dbg b input l s' Ht E. destruct (parse_facts o dbg keep b input l s' Ht keep_ok E) as (s0 & ts & z' & F1 & F2 & F3 & F4 & F5 & -> & F7 & F8 & _). cbn [tz].
  split; [|apply (clean_reading o input); auto]. intros Ef.
  assert (X : exists s1 t, ppeek o s1 = Ok (t, mkp z' [] [] []) /\ t_kind t = TK_EndOfFile).
  { unfold parse_cst_raw in E. destruct (do_parse o dbg keep b (session_new o input)) as [[l0 s1]| |] eqn:Ed; try discriminate.
    destruct (_ && _); [discriminate|]. injection E as -> ->. unfold do_parse in Ed. unfold pbind at 1 in Ed.
    destruct (tk (handle_first_line o b) (session_new o input)) as [[[] s2]| |]; try discriminate. unfold pwith_fuel in Ed. eapply parse_loop_end; eauto. }
  destruct X as ([z1 st1 c1 g1] & t & P & Ek). unfold ppeek, ppeek_with, tk in P. cbn [tz stack ctxs groups] in P.
  match type of P with match ?x with _ => _ end = _ => destruct x as [[u z2]| |] eqn:Ea; try discriminate end. injection P as -> -> -> -> ->.
  change (ask o (AsToken (inside_group (mkp z1 [] [] [])) TOPLEVEL) z1 = Ok (t, z')) in Ea.
  pose proof (inert_peek _ _ _ _ _ Ea) as Hc.
  assert (I1 : Inv o z1) by (destruct F7 as (J1 & J2 & J3); rewrite Hc in *; split; auto).
  destruct (asked_of o (AsToken (inside_group (mkp z1 [] [] [])) TOPLEVEL) z1 t z' I1 eq_refl Ea) as [_ (_ & _ & A3 & _ & _ & _ & A7)].
  assert (Er : rest (after t) = []) by (eapply eof_kind; [exact A7|]; rewrite Ek; reflexivity).
  destruct F8 as ((cs & M & U) & _). destruct A3 as ((ds & M2 & U2) & _). cbn [cur] in M2. rewrite Er in M2. unfold lflag in *.
  rewrite <- Hc in M2. pose proof (moves_trans _ _ _ _ _ _ _ _ _ M M2) as MM. apply clean_iff in MM. apply MM. cbn [lg] in U2.
  rewrite existsb_app. apply orb_false_iff. split; [destruct (existsb unsafe_char cs); auto; exfalso; apply U; auto|destruct (existsb unsafe_char ds); auto; exfalso; apply U2; auto].
Qed.

Lemma public_flag : forall o dbg b input l s', 0 < o_tab_width o -> parse_cst_seq o dbg b input = Ok (l, s') ->
  (l_flag (lg (tz s')) = None <-> well_formed_no_bom input).
Proof. intros o dbg b input l s' Ht E. destruct (public_patched _ _ _ _ _ _ Ht E) as (l0 & E0 & _). exact (parse_flag _ _ _ _ _ _ Ht E0). Qed.
