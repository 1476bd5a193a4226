(** A backslash about which nothing is said: what is recorded does not change. *)
From Coq Require Import String ZArith List Bool Lia Arith.
From Verif Require Import Base Source WLChar LongNames GenLongNames ByteDecoder CharDecoder Format Decode SpecText SpecReader Iter TextProofs Logic LongNamesProofs WlDecode
  ReaderProofs TokSpecs Link Spelling SpecSpelling.
Import ListNotations.
Local Open Scope string_scope.
Local Open Scope list_scope.
Local Open Scope Z_scope.

Section Quiet.
Context (o : opts) (pol : policy).

Lemma ascii_step : forall s b r, rest (cur s) = b :: r -> 32 <= b <= 126 ->
  exists s', next_source_char o pol s = Ok (b, s') /\ rest (cur s') = r /\ lg s' = lg s.
Proof.
  intros s b r E Hb. unfold next_source_char, bind, currentByte. rewrite E. assert (B : between 32 b 126 = true) by (apply between_iff; lia). rewrite B.
  unfold nextByte. rewrite E. eexists. split; [reflexivity|]. split; reflexivity.
Qed.
Lemma end_step : forall s, rest (cur s) = [] -> exists s', next_source_char o pol s = Ok (EndOfFile, s') /\ lg s' = lg s.
Proof.
  intros s E. unfold next_source_char, bind, currentByte. rewrite E. change (between 32 255 126) with false. change (255 =? 10) with false. cbv iota.
  unfold nextSourceCharacter_uncommon, bind, nextByte. rewrite E. eexists. split; reflexivity.
Qed.
Lemma peek_quiet : forall s c, (exists s', next_source_char o pol s = Ok (c, s') /\ lg s' = lg s) -> peek_source_char o pol s = Ok (c, s).
Proof.
  intros [cu l] c (s' & E & L). unfold peek_source_char, peek, bind, mark. cbn [cur]. rewrite E. unfold seek, ret. cbn [lg] in L. rewrite L. reflexivity.
Qed.
Lemma ascii_peek : forall s b r, rest (cur s) = b :: r -> 32 <= b <= 126 -> peek_source_char o pol s = Ok (b, s).
Proof. intros s b r E Hb. apply peek_quiet. destruct (ascii_step s b r E Hb) as (s' & A & _ & B). eauto. Qed.

Lemma digits_quiet : forall n ds r s, hex_string n ds -> rest (cur s) = ds ++ r -> exists s', read_digits o n src_isHex pol s = Ok (true, s') /\ lg s' = lg s.
Proof.
  induction n as [|n IH]; intros ds r s [L F] E; [eexists; split; reflexivity|]. destruct ds as [|d ds]; [discriminate|]. inversion F as [|? ? Fd Fs]; subst.
  assert (Hx : src_isHex d = true) by exact Fd. assert (Hd : 32 <= d <= 126) by (unfold src_isHex in Hx; rewrite !orb_true_iff, !between_iff in Hx; lia).
  cbn [app] in E. destruct (ascii_step s d _ E Hd) as (s1 & E1 & R1 & L1). destruct (IH ds r s1) as (s2 & E2 & L2); [split; [cbn [length] in L; congruence|exact Fs]|exact R1|].
  exists s2. split; [|congruence]. cbn [read_digits]. unfold bind. rewrite (ascii_peek _ _ _ E Hd), Hx, E1. exact E2.
Qed.

Lemma end_quiet : forall s, (exists l, loc_previous (ploc (cur s)) = Ok l) -> rest (cur s) = [] -> exists s', handleUncommon o (cur s) pol s = Ok (wl 92, s') /\ lg s' = lg s.
Proof.
  intros s [l El] E. destruct (end_step s E) as (s1 & E1 & L1). pose proof (peek_quiet s EndOfFile (ex_intro _ s1 (conj E1 L1))) as P.
  unfold handleUncommon, bind. rewrite P. change (exists s', handleUnhandledEscape o (cur s) pol s = Ok (wl 92, s') /\ lg s' = lg s). unfold handleUnhandledEscape, bind. rewrite P, E1.
  unfold when_. destruct (issues_on o pol); [unfold lift; rewrite El|]; eexists; (split; [reflexivity|exact L1]).
Qed.

Lemma number_quiet : forall s ds r, hex_string 6 ds -> 0x10ffff < SpecText.number 16 ds -> rest (cur s) = 124 :: ds ++ r ->
  exists s', handleUncommon o (cur s) pol s = Ok (wl 92, s') /\ lg s' = lg s.
Proof.
  intros s ds r Hd Hn E. pose proof (ascii_peek s 124 _ E ltac:(lia)) as P. destruct (ascii_step s 124 _ E ltac:(lia)) as (s1 & E1 & R1 & L1).
  destruct (digits_quiet 6 ds r s1 Hd R1) as (s2 & E2 & L2).
  assert (Hh : digits_here 6 is_hex_digit (rest (cur s1)) = Some (ds, r)) by (rewrite R1; apply digits_here_app; apply Hd).
  destruct (digits_number 4 16 is_hex_digit 6 _ _ _ ltac:(lia) eq_refl toDigit_hex Hh) as [Ev _].
  unfold handleUncommon, bind. rewrite P. change (exists s', bind (next_source_char o pol) (fun _ => handle6Hex o (cur s) pol) s = Ok (wl 92, s') /\ lg s' = lg s). unfold bind. rewrite E1.
  unfold handle6Hex, bind. rewrite E. cbn [Z.eqb Pos.eqb assert_ ret]. unfold get_rest. rewrite E2. cbn [negb]. rewrite Ev.
  destruct (Z.ltb_spec 0x10ffff (SpecText.number 16 ds)); [|lia]. eexists. split; [reflexivity|]. cbn [lg]. congruence.
Qed.
End Quiet.

Lemma silent_said : forall o pol input s r, 0 < o_tab_width o -> reachable o input s -> rest (cur s) = 92 :: r ->
  (r = [] \/ exists ds r', r = 124 :: ds ++ r' /\ hex_string 6 ds /\ 0x10ffff < SpecText.number 16 ds) ->
  exists s', next_wolfram_char o pol s = Ok (wl 92, s') /\ lg s' = lg s.
Proof.
  intros o pol input s r Ht R E H. destruct (ascii_step o pol s 92 r E ltac:(lia)) as (s1 & E1 & R1 & L1).
  pose proof (wp_next_src False o pol s (reachable_Inv o input s Ht R)) as W. unfold wpr in W. rewrite E1 in W. assert (El : ploc (cur s1) = loc_next (ploc (cur s))) by (apply W).
  assert (Hl : exists l, loc_previous (ploc (cur s1)) = Ok l) by (exists (ploc (cur s)); rewrite El; eapply loc_previous_next; apply (reachable_Inv o input s Ht R)).
  unfold next_wolfram_char, bind. rewrite E1. change (negb (92 =? 92)) with false. cbv iota. unfold mark.
  destruct H as [->|(ds & r' & -> & Hd & Hn)].
  - destruct (end_step o pol s1 R1) as (s2 & E2 & L2). rewrite (peek_quiet o pol s1 EndOfFile (ex_intro _ s2 (conj E2 L2))). destruct (end_quiet o pol s1 Hl R1) as (s3 & E3 & L3).
    exists s3. split; [exact E3|congruence].
  - rewrite (ascii_peek o pol s1 124 _ R1 ltac:(lia)). destruct (number_quiet o pol s1 ds r' Hd Hn R1) as (s3 & E3 & L3). exists s3. split; [exact E3|congruence].
Qed.
