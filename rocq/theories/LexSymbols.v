(** Names, as specified in SpecLex.v. *)
From Coq Require Import String ZArith List Bool Lia.
From Verif Require Import Base Source WLChar GenTokenKind LongNames ByteDecoder CharDecoder TokenKind Format Tokenizer SpecText SpecReader SpecTokenizer SpecLex
  LongNamesProofs Decode Iter TextProofs Logic WlDecode FormatProofs TokLogic TokenizerProofs TokenLoop TokSim TokSpecs TokResults ReparseProofs LexProofs LexChars.
Import ListNotations.
Local Open Scope Z_scope.

Lemma letter_like : forall b, letter b -> letterlike b = true /\ 0 <= b < 0x80 /\ b <> 13 /\ b <> 92 /\ b <> 96.
Proof.
  intros b H. split; [|unfold letter in H; lia]. unfold letterlike, isLetterlike. destruct H as [H|[H|H]].
  - destruct (between_spec 65 b 90); [reflexivity|contradiction].
  - destruct (between_spec 97 b 122); [rewrite orb_true_r; reflexivity|contradiction].
  - subst b. reflexivity.
Qed.
Lemma dispatch_name : forall o p b pol, letter b \/ b = 96 -> dispatch o p (wl b) pol = handleSymbol o p (wl b) pol.
Proof.
  intros o p b pol H. unfold dispatch, nextToken_uncommon. cbv zeta. cbn [wl wc]. destruct H as [H| ->]; [|repeat decide_if; reflexivity].
  unfold letter in H. destruct (between_spec 0 b 127); [|lia]. cbn [negb].
  destruct (Z.eqb_spec b 10); [lia|]. destruct (Z.eqb_spec b 32); [lia|]. destruct (Z.eqb_spec b 34); [lia|].
  destruct (Z.eqb_spec b 36); [reflexivity|]. destruct (between_spec 65 b 90); [reflexivity|]. destruct (between_spec 97 b 122); [reflexivity|lia].
Qed.

(** However it is written, a letter is read as one character, and starts a name. *)
Lemma letter_read : forall x r, letter_text x -> exists c, twl (x ++ r) = Some (c, r) /\ letterlike (wc c) = true /\ isDigit (wc c) = false /\
  forall o s p pol Q, po (handleSymbol o p c pol) s Q -> po (dispatch o p c pol) s Q.
Proof.
  intros x r H. destruct H as [b Hb|p w Hp Hw].
  - destruct (letter_like b Hb) as (L & A1 & A2 & A3 & A4). exists (wl b). cbn [app wl wc]. split; [apply twl_ascii; auto|]. split; auto. split.
    + unfold isDigit. destruct (between_spec 48 b 57); auto. unfold letter in Hb. lia.
    + intros o s q pol Q H. rewrite dispatch_name by auto. exact H.
  - pose proof (wide_letterlike p Hp) as L. destruct Hp as (S & G & B & Nb & _). destruct (twl_spelling p w r S G B Hw) as [e E]. exists (mkwl p e). cbn [wc]. split; auto.
    split; [unfold letterlike; rewrite L, orb_true_r; reflexivity|]. split; [unfold isDigit; destruct (between_spec 48 p 57); auto; lia|].
    intros o s q pol Q H. rewrite dispatch_wide; cbn [wc]; auto; [|intros b Hb ->; contradiction]. apply po_assert. auto.
Qed.

Lemma no_letter_char : forall e c r, no_letter e -> twl e = Some (c, r) -> letterlike (wc c) = false /\ (starts_with (eq (wc c)) e \/ wc c < 48 \/ 128 <= wc c).
Proof.
  intros e c r [->|[(b & t & -> & Hb & N & N')|(p & w & t & -> & Hp & Hw)]] H.
  - change (twl []) with (Some (wl EndOfFile, @nil Z)) in H. injection H as <- <-. cbn [wl wc]. split; auto. right. left. reflexivity.
  - destruct (Z.eq_dec b 13) as [->|N13].
    + assert (C : c = wl 13 \/ c = wl CRLF).
      { destruct t as [|x t]; [|destruct (Z.eq_dec x 10) as [->|Nx]].
        - rewrite (twl_break [13] 13 [13] []) in H; [injection H as <-; auto| |reflexivity]. apply (cs_char 13 []); [unfold scalar; lia|cbn; lia].
        - rewrite (twl_break _ CRLF [13; 10] t) in H; [injection H as <-; auto| |reflexivity]. apply cs_crlf.
        - rewrite (twl_break _ 13 [13] (x :: t)) in H; [injection H as <-; auto| |reflexivity]. apply (cs_char 13 (x :: t)); [unfold scalar; lia|cbn; lia]. }
      destruct C as [-> | ->]; (split; [reflexivity|right; left; reflexivity]).
    + rewrite twl_ascii in H by lia. injection H as <- <-. cbn [wl wc]. split; [|left; exists b, t; auto].
      unfold letterlike, isLetterlike. unfold letter in N.
      destruct (between_spec 65 b 90); [lia|]. destruct (between_spec 97 b 122); [lia|]. destruct (Z.eqb_spec b 36); [lia|].
      destruct (between_spec 0 b 6); [lia|]. destruct (Z.eqb_spec b 8); [lia|]. destruct (between_spec 0x0e b 0x1f); [lia|].
      unfold isMBLetterlike, is_ascii. destruct (between_spec 0 b 127); [reflexivity|lia].
  - destruct (alone_case p Hp) as (S & G & B & L). destruct (twl_spelling p w t S G B Hw) as [x E]. rewrite E in H. injection H as <- <-. cbn [wc]. auto.
Qed.
Lemma ends_name_char : forall e c r, ends_name e -> twl e = Some (c, r) -> letterlike (wc c) = false /\ isDigit (wc c) = false /\ (wc c =? 96) = false.
Proof.
  intros e c r [He Ns] H. destruct (no_letter_char _ _ _ He H) as [L C]. split; auto.
  assert (N : ~ (digit_byte (wc c) \/ wc c = 96)).
  { intros D. destruct C as [(b & t & -> & E)|C]; [apply Ns; exists b, t; split; auto; rewrite <- E; auto|unfold digit_byte in D; lia]. }
  unfold isDigit, digit_byte in *. destruct (between_spec 48 (wc c) 57); [tauto|]. split; auto. apply Z.eqb_neq. tauto.
Qed.
Lemma ends_not_quote : forall f, ~ ends_name (96 :: f).
Proof. intros f [_ N]. apply N. exists 96, f. auto. Qed.

Section Symbols.
Context (o : opts).

(** The end of one segment: either the text stops there, or a backquote has been read. *)
Definition seg_end (e : list Z) (c : wlchar) (s' : st) : Prop :=
  Inv o s' /\ ((ends_name e /\ rest (cur s') = e /\ exists r, twl e = Some (c, r)) \/ (exists e', e = 96 :: e' /\ rest (cur s') = e' /\ wc c = 96)).

Lemma segment_issues_inert : forall c l pol f, inert (segment_issues o c l pol f).
Proof. intros. inert. Qed.

Lemma segment_loop_po : forall n p pol w e l c r s, Inv o s -> p_scan pol = false -> name_part w -> (ends_name e \/ exists e', e = 96 :: e') ->
  rest (cur s) = w ++ e -> twl (w ++ e) = Some (c, r) -> po (segment_loop o n p pol l c) s (seg_end e).
Proof.
  induction n as [|n IH]; intros p pol w e l c r s HI Hp Hw He R T; cbn [segment_loop]; [apply po_out|].
  assert (Next : forall w l' s', name_part w -> Inv o s' -> rest (cur s') = w ++ e -> po (bind (currentWL o p pol) (fun c1 => segment_loop o n p pol l' c1)) s' (seg_end e)).
  { intros w' l' s' Hw' I' R'. apply (po_currentWL o); auto. intros c1 s1 r1 I1 C1 T1. rewrite R' in T1. eapply (IH _ _ w' e); eauto. rewrite C1. auto. }
  destruct Hw as [|x w Hx Hw|d w Hd Hw].
  - cbn [app] in *. destruct He as [He|[e' ->]].
    + destruct (ends_name_char _ _ _ He T) as (L & D & N). rewrite D, L, N. apply po_ret. split; auto. left. eauto.
    + rewrite twl_ascii in T by lia. injection T as <- <-. cbn [wl wc]. change (isDigit 96) with false. change (letterlike 96) with false. change (96 =? 96) with true.
      cbv iota. apply (po_nextWL o); auto. intros c1 s1 I1 E1. rewrite R, twl_ascii in E1 by lia. injection E1 as <- E1. apply po_ret. split; auto.
      right. exists e'. auto.
  - rewrite <- app_assoc in *. destruct (letter_read x (w ++ e) Hx) as (c0 & E0 & L0 & D0 & _). rewrite E0 in T. injection T as <- <-. rewrite D0, L0.
    apply (po_nextWL o); auto. intros c1 s1 I1 E1. rewrite R, E0 in E1. injection E1 as <- E1.
    apply (po_inert o); [apply segment_issues_inert|auto|]. intros _ s2 I2 C2. apply po_get_loc. apply (Next w); auto. rewrite C2. auto.
  - cbn [app] in *. pose proof Hd as Hd'. unfold digit_byte in Hd'. rewrite twl_ascii in T by lia. injection T as <- <-. cbn [wl wc]. rewrite (digit_isDigit d Hd).
    apply (po_nextWL o); auto. intros c1 s1 I1 E1. rewrite R, twl_ascii in E1 by lia. injection E1 as <- E1. apply po_get_loc. apply (Next w); auto.
Qed.
Lemma segment_po : forall p pol c0 w e l s, Inv o s -> p_scan pol = false -> name_part w -> (ends_name e \/ exists e', e = 96 :: e') ->
  rest (cur s) = w ++ e -> po (handleSymbolSegment o p l c0 pol) s (seg_end e).
Proof.
  intros p pol b w e l s HI Hp Hw He R. unfold handleSymbolSegment. apply po_assert. intros _.
  apply (po_inert o); [apply segment_issues_inert|auto|]. intros _ s1 I1 C1. apply po_get_loc. apply (po_currentWL o); auto. intros c s2 r I2 C2 T.
  apply po_fuel. rewrite C1, R in T. eapply (segment_loop_po _ _ _ w e); eauto. rewrite C2, C1. auto.
Qed.

(** What follows a symbol, or a backquote in front of something else. *)
Inductive sym_tail : list Z -> Z -> list Z -> Prop :=
| st_end : forall e, ends_name e -> sym_tail e TK_Symbol e
| st_bad : forall e, no_letter e -> sym_tail (96 :: e) TK_Error_ExpectedLetterlike e.
Definition slot_kind (pol : policy) (k : Z) : Z := if (k =? TK_Symbol) && has_slot pol then TK_String else k.

Lemma text_cases : forall w, symbol_text w -> exists x u v, w = x ++ u ++ v /\ letter_text x /\ name_part u /\ (v = [] \/ exists r, v = 96 :: r /\ symbol_text r).
Proof.
  intros w [w0 (x & u & -> & Hx & Hu)|w0 r0 (x & u & -> & Hx & Hu) H1].
  - exists x, u, []. rewrite app_nil_r. auto.
  - exists x, u, (96 :: r0). rewrite <- app_assoc. split; auto. split; auto. split; auto. right. eauto.
Qed.

(** after a segment *)
Lemma symbol_loop_po : forall n p pol w e k e', p_scan pol = false -> sym_tail e k e' ->
  (w = [] \/ exists r, w = 96 :: r /\ symbol_text r) -> forall c s, seg_end (w ++ e) c s ->
  po (symbol_loop o n p pol c) s (fun t _ => t_kind t = slot_kind pol k /\ t_text t = buf_between (rest p) e').
Proof.
  induction n as [|n IH]; intros p pol w e k e' Hp Ht Hw c s Hs; cbn [symbol_loop]; [apply po_out|].
  destruct Hs as (HI & [(He & R & r & T)|(f & E & R & C)]).
  - destruct (ends_name_char _ _ _ He T) as (_ & _ & N). rewrite N. cbn [negb].
    destruct Hw as [->|(r' & -> & _)]; [|exfalso; eapply ends_not_quote; exact He].
    cbn [app] in *. destruct Ht as [e He'|e He']; [|exfalso; eapply ends_not_quote; exact He].
    apply po_mk_token. intros t T1 T2 _. rewrite T2, R. split; auto.
  - rewrite C. change (96 =? 96) with true. cbn [negb].
    apply (po_inert o); [solve [inert]|auto|]. intros _ s1 I1 C1. apply (po_currentWL o); auto. intros c1 s2 r2 I2 C2 T2. rewrite C1, R in T2.
    assert (R2 : rest (cur s2) = f) by (rewrite C2, C1; auto).
    destruct Hw as [->|(w' & -> & Hw)].
    + cbn [app] in E. destruct Ht as [e He'|e He']; [exfalso; rewrite E in He'; eapply ends_not_quote; exact He'|].
      injection E as <-. destruct (no_letter_char _ _ _ He' T2) as [-> _]. apply po_mk_token. intros t T3 T4 _. rewrite T4, R2. split; auto.
    + cbn [app] in E. injection E as <-. destruct (text_cases _ Hw) as (x & u & v & -> & Hx & Hu & Hv). rewrite <- !app_assoc in *.
      destruct (letter_read x (u ++ v ++ e) Hx) as (c0 & E0 & L0 & _ & _). rewrite E0 in T2. injection T2 as <- <-. rewrite L0.
      apply po_get_loc. apply (po_nextWL o); auto. intros c3 s3 I3 E3. rewrite R2, E0 in E3. injection E3 as <- E3.
      apply po_bind. eapply po_conseq; [apply (segment_po _ _ c0 u (v ++ e)); auto|].
      * destruct Hv as [->|(r & -> & _)]; [|right; cbn [app]; eauto]. cbn [app]. destruct Ht; [left; auto|right; eauto].
      * intros c4 s4 S4. eapply IH; eauto.
Qed.

Lemma nextToken_symbol : forall pol s w e k e', Inv o s -> p_scan pol = false -> symbol w -> sym_tail e k e' -> rest (cur s) = w ++ e ->
  po (nextToken o pol) s (fun t _ => t_kind t = slot_kind pol k /\ t_text t = buf_between (w ++ e) e').
Proof.
  intros pol s w e k e' HI Hp Hw Ht R. unfold nextToken. apply po_mark.
  assert (Tail : forall v, v = [] \/ (exists r, v = 96 :: r /\ symbol_text r) -> ends_name (v ++ e) \/ exists f, v ++ e = 96 :: f).
  { intros v [->|(r & -> & _)]; [cbn [app]; destruct Ht; [left; auto|right; eauto]|right; cbn [app]; eauto]. }
  destruct Hw as [Hw|(w' & -> & Hw)].
  - destruct (text_cases _ Hw) as (x & u & v & -> & Hx & Hu & Hv). rewrite <- !app_assoc in *. destruct (letter_read x (u ++ v ++ e) Hx) as (c0 & E0 & L0 & _ & D0).
    apply (po_nextWL o); auto. intros c s1 I1 E1. rewrite R, E0 in E1. injection E1 as <- E1. apply D0.
    unfold handleSymbol. apply po_assert. intros _. rewrite L0. apply po_bind. eapply po_conseq; [apply (segment_po _ _ c0 u (v ++ e)); auto|].
    intros c2 s2 S2. apply po_fuel. rewrite <- R. eapply symbol_loop_po; eauto.
  - cbn [app] in *. apply (po_nextWL o); auto. intros c s1 I1 E1. rewrite R, twl_ascii in E1 by lia. injection E1 as <- E1. rewrite dispatch_name by auto.
    unfold handleSymbol. apply po_assert. intros _. cbn [wl wc]. change (letterlike 96) with false. cbv iota. apply po_bind, po_ret. apply po_fuel.
    rewrite <- R. eapply (symbol_loop_po _ _ _ (96 :: w') e); eauto. split; auto. right. exists (w' ++ e). auto.
Qed.

(** a backquote in front of something that is no letter *)
Lemma nextToken_backquote : forall pol s e, Inv o s -> p_scan pol = false -> no_letter e -> rest (cur s) = 96 :: e ->
  po (nextToken o pol) s (fun t _ => t_kind t = TK_Error_ExpectedLetterlike /\ t_text t = [96]).
Proof.
  intros pol s e HI Hp He R. unfold nextToken. apply po_mark. apply (po_nextWL o); auto. intros c s1 I1 E1. rewrite R, twl_ascii in E1 by lia. injection E1 as <- E1. rewrite dispatch_name by auto.
  unfold handleSymbol. apply po_assert. intros _. cbn [wl wc]. change (letterlike 96) with false. cbv iota. apply po_bind, po_ret. apply po_fuel.
  eapply po_conseq; [eapply (symbol_loop_po _ _ _ [] (96 :: e)); eauto; [apply st_bad; exact He|]; split; auto; right; exists e; auto|].
  intros t s2 (T1 & T2). split; auto. rewrite T2, R. apply (buf_between_app [96] e).
Qed.
End Symbols.
