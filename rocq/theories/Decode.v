(** Pure characterisation of reading one source character, and the proof that
    [next_source_char] realises it whatever the policy and the issue log. *)
From Coq Require Import ZArith List Bool Lia.
From Verif Require Import Base Source WLChar ByteDecoder.
Import ListNotations.
Local Open Scope Z_scope.

Definition cont (b : Z) : bool := between 0x80 b 0xbf.

Definition dres := (Z * list Z * option unsafe_encoding)%type.
Definition bad (c : Z) (r : list Z) : dres := (c, r, Some IncompleteUTF8Sequence).
Definition good_ (c : Z) (r : list Z) : dres := (c, r, None).

Definition decode2 (b : Z) (r : list Z) : dres :=
  match r with
  | b2 :: r2 =>
      if cont b2 then good_ (Z.lor (Z.shiftl (Z.land b 0x1f) 6) (Z.land b2 0x3f)) r2
      else bad Unsafe1Byte r
  | [] => bad Unsafe1Byte r
  end.

Definition decode3 (b lo : Z) (checks : bool) (r : list Z) : dres :=
  match r with
  | b2 :: r2 =>
      if between lo b2 0xbf then
        match r2 with
        | b3 :: r3 =>
            if cont b3 then
              let d := Z.lor (Z.lor (Z.shiftl (Z.land b 0x0f) 12) (Z.shiftl (Z.land b2 0x3f) 6))
                             (Z.land b3 0x3f) in
              if checks && isStraySurrogate d then (Unsafe3Byte, r3, Some StraySurrogate)
              else if checks && (d =? CODEPOINT_BOM) then (Unsafe3Byte, r3, Some BOM)
              else good_ d r3
            else bad Unsafe2Byte r2
        | [] => bad Unsafe2Byte r2
        end
      else bad Unsafe1Byte r
  | [] => bad Unsafe1Byte r
  end.

Definition decode4 (b lo hi : Z) (r : list Z) : dres :=
  match r with
  | b2 :: r2 =>
      if between lo b2 hi then
        match r2 with
        | b3 :: r3 =>
            if cont b3 then
              match r3 with
              | b4 :: r4 =>
                  if cont b4 then
                    good_ (Z.lor (Z.lor (Z.lor (Z.shiftl (Z.land b 0x07) 18) (Z.shiftl (Z.land b2 0x3f) 12))
                                        (Z.shiftl (Z.land b3 0x3f) 6))
                                 (Z.land b4 0x3f)) r4
                  else bad Unsafe3Byte r3
              | [] => bad Unsafe3Byte r3
              end
            else bad Unsafe2Byte r2
        | [] => bad Unsafe2Byte r2
        end
      else bad Unsafe1Byte r
  | [] => bad Unsafe1Byte r
  end.

Definition decode (bs : list Z) : dres :=
  match bs with
  | [] => good_ EndOfFile []
  | b :: r =>
      if between 0 b 12 || between 14 b 0x7f then good_ b r
      else if b =? 13 then
        match r with
        | b2 :: r2 => if b2 =? 10 then good_ CRLF r2 else good_ 13 r
        | [] => good_ 13 r
        end
      else if between 0xc2 b 0xdf then decode2 b r
      else if b =? 0xe0 then decode3 b 0xa0 false r
      else if between 0xe1 b 0xef then decode3 b 0x80 true r
      else if b =? 0xf0 then decode4 b 0x90 0xbf r
      else if between 0xf1 b 0xf3 then decode4 b 0x80 0xbf r
      else if b =? 0xf4 then decode4 b 0x80 0x8f r
      else bad Unsafe1Byte r
  end.

Definition dchar (d : dres) : Z := fst (fst d).
Definition drest (d : dres) : list Z := snd (fst d).
Definition dflag (d : dres) : option unsafe_encoding := snd d.

(** Position after a source character. *)
Definition adv (o : opts) (c : Z) (l : loc) : loc :=
  if c =? EndOfFile then l
  else if (c =? 10) || (c =? 13) then loc_newline l
  else if c =? CRLF then loc_windowsNewline l
  else if c =? 9 then
    match l with
    | LineCol a b => LineCol a (o_tab_width o * ((b - 1) / o_tab_width o) + 1 + o_tab_width o)
    | CharIdx i => CharIdx (i + 1)
    end
  else loc_next l.

(** Invariant of reader positions. *)
Definition wfp (p : pos) : Prop := weof p = true -> rest p = [].
Definition locok (o : opts) (l : loc) : Prop :=
  match l with
  | LineCol a b => o_conv o = ConvLineColumn /\ 1 <= a /\ 1 <= b
  | CharIdx i => o_conv o = ConvCharacterIndex /\ 1 <= i
  end.
Definition Inv (o : opts) (s : st) : Prop :=
  0 < o_tab_width o /\ wfp (cur s) /\ locok o (ploc (cur s)).

(** Evolution of the log. *)
Inductive lstep (o : opts) : logs -> logs -> Prop :=
| ls_issue : forall i l, o_check_issues o = true ->
    loc_leb (sp_start (i_src i)) (sp_end (i_src i)) = Some true ->
    lstep o l (addIssue_log i l)
| ls_flag : forall u l, lstep o l (set_flag_log u l)
| ls_track : forall a b c d l, o_compute_oob o = true ->
    lstep o l (mklogs (l_flag l) (l_fatal l) (l_nonfatal l)
                    (l_simple_lc l ++ a) (l_complex_lc l ++ b)
                    (l_embedded_newlines l ++ c) (l_embedded_tabs l ++ d)).

Inductive logext (o : opts) : logs -> logs -> Prop :=
| le_refl : forall l, logext o l l
| le_step : forall l1 l2 l3, logext o l1 l2 -> lstep o l2 l3 -> logext o l1 l3.

Lemma logext_trans : forall o l1 l2 l3, logext o l1 l2 -> logext o l2 l3 -> logext o l1 l3.
Proof. intros o l1 l2 l3 H1 H2; induction H2; [exact H1 | eapply le_step; [apply IHlogext, H1 | exact H]]. Qed.

Lemma logext_one : forall o l1 l2, lstep o l1 l2 -> logext o l1 l2.
Proof. intros; eapply le_step; [apply le_refl | auto]. Qed.

Lemma addIssue_flag : forall i l, l_flag (addIssue_log i l) = l_flag l.
Proof.
  intros; unfold addIssue_log; destruct (i_sev i); repeat (destruct (issue_mem _ _); auto);
  destruct (10 <=? _); auto; destruct (issue_mem _ _); auto.
Qed.

Lemma lstep_flag : forall o l1 l2, lstep o l1 l2 -> l_flag l1 <> None -> l_flag l2 <> None.
Proof. intros o l1 l2 H; destruct H; intros; cbn; try rewrite addIssue_flag; auto; discriminate. Qed.

Lemma logext_flag : forall o l1 l2, logext o l1 l2 -> l_flag l1 <> None -> l_flag l2 <> None.
Proof. intros o l1 l2 H; induction H; auto. intros; eapply lstep_flag; eauto. Qed.

Definition newflag (l : logs) (f : option unsafe_encoding) : option unsafe_encoding :=
  match f with Some u => Some u | None => l_flag l end.

(** What reading one source character does to the log. *)
Definition logread (o : opts) (l l' : logs) (f : option unsafe_encoding) : Prop :=
  logext o l l' /\ l_flag l' = newflag l f.

Lemma loc_leb_refl : forall l, loc_leb l l = Some true.
Proof. destruct l; cbn; f_equal; [| apply Z.leb_refl]. rewrite Z.eqb_refl, Z.leb_refl. apply orb_true_r. Qed.

Lemma loc_leb_next : forall l, loc_leb l (loc_next l) = Some true.
Proof.
  destruct l; cbn; f_equal; [|apply Z.leb_le; lia].
  rewrite Z.eqb_refl. replace (z0 <=? z0 + 1) with true by (symmetry; apply Z.leb_le; lia). apply orb_true_r.
Qed.

Lemma loc_previous_next : forall o l, locok o l -> loc_previous (loc_next l) = Ok l.
Proof.
  destruct l; cbn; intros H.
  - replace (z0 + 1 - 1) with z0 by lia. destruct (z0 =? 0) eqn:E; auto. apply Z.eqb_eq in E; lia.
  - replace (1 <=? z + 1) with true by (symmetry; apply Z.leb_le; lia). f_equal; f_equal; lia.
Qed.

(** [strangeWarning] and [nonASCIIWarning] only append to the log. *)
Lemma report_ok : forall o t sv a b s, loc_leb a b = Some true -> o_check_issues o = true ->
  exists lg', report t sv a b s = Ok (tt, mkst (cur s) lg') /\ logread o (lg s) lg' None.
Proof.
  intros. unfold report, bind, lift, Span_new, addIssue, modlog. rewrite H.
  eexists; split; [reflexivity|]. split.
  - apply logext_one, ls_issue; auto.
  - cbn. apply addIssue_flag.
Qed.

Lemma logread_refl : forall o l, logread o l l None.
Proof. intros; split; [apply le_refl | reflexivity]. Qed.

Lemma strangeWarning_ok : forall o c a pol s, loc_leb a (ploc (cur s)) = Some true ->
  o_check_issues o = true ->
  exists lg', strangeWarning c a pol s = Ok (tt, mkst (cur s) lg') /\ logread o (lg s) lg' None.
Proof.
  intros. unfold strangeWarning, get_loc. unfold bind at 1.
  destruct (p_string pol); [apply report_ok; auto|].
  destruct (_ || _); [|apply report_ok; auto].
  unfold bind, lift, Span_new. rewrite H. exists (lg s). split; [destruct s; reflexivity | apply logread_refl].
Qed.

Lemma validStrange_ok : forall o c pol s, locok o (ploc (cur s)) ->
  exists lg', validStrange o c pol s =
    Ok (c, mkst (mkpos (rest (cur s)) (weof (cur s)) (loc_next (ploc (cur s)))) lg')
    /\ logread o (lg s) lg' None.
Proof.
  intros o c pol [[r w l] g] H. unfold validStrange, src_increment, get_loc, set_loc, when_. unfold bind at 1 2.
  cbn [cur rest weof ploc lg] in *. unfold loc_increment.
  destruct (o_check_issues o) eqn:E.
  - unfold bind, lift; cbn [cur rest weof ploc lg]. rewrite (loc_previous_next o) by auto.
    destruct (strangeWarning_ok o c l pol (mkst (mkpos r w (loc_next l)) g)) as [lg' [H1 H2]];
      [apply loc_leb_next | auto |]. rewrite H1. exists lg'; split; auto.
  - unfold bind, ret. exists g; split; auto. apply logread_refl.
Qed.

Lemma validMB_ok : forall o c pol s, locok o (ploc (cur s)) ->
  exists lg', validMB o c pol s =
    Ok (c, mkst (mkpos (rest (cur s)) (weof (cur s)) (loc_next (ploc (cur s)))) lg')
    /\ logread o (lg s) lg' None.
Proof.
  intros o c pol [[r w l] g] H. unfold validMB, src_increment, get_loc, set_loc, when_. unfold bind at 1 2.
  cbn [cur rest weof ploc lg] in *. unfold loc_increment.
  destruct (o_check_issues o) eqn:E.
  - unfold bind, lift; cbn [cur rest weof ploc lg]. rewrite (loc_previous_next o) by auto.
    destruct (isMBStrange c).
    + destruct (strangeWarning_ok o c l pol (mkst (mkpos r w (loc_next l)) g)) as [lg' [H1 H2]];
        [apply loc_leb_next | auto |]. rewrite H1. exists lg'; split; auto.
    + destruct (o_normal o).
      * unfold nonASCIIWarning, bind, get_loc.
        destruct (report_ok o NonASCIICharacter Remark l (loc_next l) (mkst (mkpos r w (loc_next l)) g)) as [lg' [H1 H2]];
          [apply loc_leb_next | auto |]. cbn [cur ploc]. rewrite H1. exists lg'; split; auto.
      * unfold ret. exists g; split; auto. apply logread_refl.
  - unfold bind, ret. exists g; split; auto. apply logread_refl.
Qed.

Lemma unsafe_ok : forall o e t u c s,
  exists lg', unsafeSequence o e t u c s =
    Ok (c, mkst (mkpos (rest (cur s)) (weof (cur s)) (loc_next (ploc (cur s)))) lg')
    /\ logread o (lg s) lg' (Some u).
Proof.
  intros o e t u c [[r w l] g]. unfold unsafeSequence, src_increment, get_loc, set_loc, when_. unfold bind at 1 2.
  cbn [cur rest weof ploc lg] in *. unfold loc_increment.
  destruct (o_check_issues o) eqn:E.
  - unfold bind at 1.
    destruct (report_ok o t Fatal e (loc_next e) (mkst (mkpos r w (loc_next l)) g)) as [lg' [H1 H2]];
      [apply loc_leb_next | auto |]. rewrite H1. cbn. eexists; split; [reflexivity|].
    destruct H2. split; [|reflexivity]. eapply le_step; [eassumption | apply ls_flag].
  - cbn. eexists; split; [reflexivity|]. split; [|reflexivity]. apply logext_one, ls_flag.
Qed.

Ltac bdestr :=
  match goal with
  | H : context [between ?a ?x ?b] |- _ => unfold between in H
  | |- _ => idtac
  end.

(** Result shape shared by all source-character reads. *)
Definition sread (o : opts) (s : st) (m : res (Z * st)) (d : dres) : Prop :=
  exists s', m = Ok (dchar d, s') /\ rest (cur s') = drest d
    /\ ploc (cur s') = adv o (dchar d) (ploc (cur s))
    /\ wfp (cur s') /\ (weof (cur s') = true -> (dchar d <? 0) = true) /\ logread o (lg s) (lg s') (dflag d).

Lemma adv_inc : forall o c l, c <> EndOfFile -> c <> 9 -> c <> 10 -> c <> 13 -> c <> CRLF ->
  adv o c l = loc_next l.
Proof.
  intros. unfold adv.
  repeat match goal with |- context [?a =? ?b] => destruct (Z.eqb_spec a b); [congruence|] end.
  reflexivity.
Qed.

(** bit tricks: the decoded values are big enough *)
Lemma lor_shift_add : forall a b n, 0 <= n -> 0 <= b < 2 ^ n -> Z.lor (Z.shiftl a n) b = a * 2 ^ n + b.
Proof.
  intros. rewrite Z.shiftl_mul_pow2 by lia.
  assert (E : Z.land (a * 2 ^ n) b = 0).
  { apply Z.bits_inj'. intros k Hk. rewrite Z.land_spec, Z.bits_0.
    destruct (Z.ltb_spec k n).
    - rewrite Z.mul_pow2_bits_low by lia. auto.
    - replace (Z.testbit b k) with false; [apply andb_false_r|].
      symmetry. destruct (Z.eq_dec b 0) as [->|]; [apply Z.bits_0|].
      apply Z.bits_above_log2; [lia|]. apply Z.log2_lt_pow2; [lia|].
      apply Z.lt_le_trans with (2 ^ n); [lia|]. apply Z.pow_le_mono_r; lia. }
  rewrite Z.add_nocarry_lxor by auto. symmetry; apply Z.lxor_lor; auto.
Qed.

Lemma land_low : forall b n, 0 <= n -> Z.land b (Z.ones n) = b mod 2 ^ n.
Proof. intros; apply Z.land_ones; auto. Qed.

Lemma land63 : forall b, Z.land b 0x3f = b mod 64.
Proof. intros. change 0x3f with (Z.ones 6). apply Z.land_ones; lia. Qed.
Lemma land31 : forall b, Z.land b 0x1f = b mod 32.
Proof. intros. change 0x1f with (Z.ones 5). apply Z.land_ones; lia. Qed.
Lemma land15 : forall b, Z.land b 0x0f = b mod 16.
Proof. intros. change 0x0f with (Z.ones 4). apply Z.land_ones; lia. Qed.
Lemma land7 : forall b, Z.land b 0x07 = b mod 8.
Proof. intros. change 0x07 with (Z.ones 3). apply Z.land_ones; lia. Qed.

Lemma val2 : forall b b2,
  Z.lor (Z.shiftl (Z.land b 0x1f) 6) (Z.land b2 0x3f) = (b mod 32) * 64 + b2 mod 64.
Proof.
  intros. rewrite land63, land31. rewrite lor_shift_add; [reflexivity | lia |].
  apply Z.mod_pos_bound; lia.
Qed.

Lemma lor_assoc_shift : forall a b, Z.lor (Z.shiftl a 12) (Z.shiftl b 6) = Z.shiftl (Z.lor (Z.shiftl a 6) b) 6.
Proof. intros. rewrite Z.shiftl_lor, Z.shiftl_shiftl by lia. reflexivity. Qed.

Lemma val3 : forall b b2 b3,
  Z.lor (Z.lor (Z.shiftl (Z.land b 0x0f) 12) (Z.shiftl (Z.land b2 0x3f) 6)) (Z.land b3 0x3f)
  = (b mod 16) * 4096 + (b2 mod 64) * 64 + b3 mod 64.
Proof.
  intros. rewrite !land63, land15, lor_assoc_shift.
  pose proof (Z.mod_pos_bound b2 64 ltac:(lia)). pose proof (Z.mod_pos_bound b3 64 ltac:(lia)).
  rewrite (lor_shift_add (Z.lor _ _)) by (lia || (change (2^6) with 64; lia)).
  rewrite lor_shift_add by (lia || (change (2^6) with 64; lia)). change (2^6) with 64. lia.
Qed.

Lemma val4 : forall b b2 b3 b4,
  Z.lor (Z.lor (Z.lor (Z.shiftl (Z.land b 0x07) 18) (Z.shiftl (Z.land b2 0x3f) 12))
               (Z.shiftl (Z.land b3 0x3f) 6)) (Z.land b4 0x3f)
  = (b mod 8) * 262144 + (b2 mod 64) * 4096 + (b3 mod 64) * 64 + b4 mod 64.
Proof.
  intros. rewrite !land63, land7.
  pose proof (Z.mod_pos_bound b2 64 ltac:(lia)). pose proof (Z.mod_pos_bound b3 64 ltac:(lia)).
  pose proof (Z.mod_pos_bound b4 64 ltac:(lia)).
  replace (Z.lor (Z.lor (Z.shiftl (b mod 8) 18) (Z.shiftl (b2 mod 64) 12)) (Z.shiftl (b3 mod 64) 6))
    with (Z.shiftl (Z.lor (Z.shiftl (Z.lor (Z.shiftl (b mod 8) 6) (b2 mod 64)) 6) (b3 mod 64)) 6).
  2:{ rewrite !Z.shiftl_lor, !Z.shiftl_shiftl by lia. reflexivity. }
  rewrite (lor_shift_add (Z.lor _ _)) by (lia || (change (2^6) with 64; lia)).
  rewrite (lor_shift_add (Z.lor _ _)) by (lia || (change (2^6) with 64; lia)).
  rewrite lor_shift_add by (lia || (change (2^6) with 64; lia)). change (2^6) with 64. lia.
Qed.

Lemma from_u32_ok : forall v, 0 <= v <= 0x10ffff -> ~ (0xd800 <= v <= 0xdfff) -> from_u32 v = Some v.
Proof.
  intros. unfold from_u32, between.
  destruct (Z.leb_spec 0xd800 v), (Z.leb_spec v 0xdfff), (Z.ltb_spec 0x10ffff v); cbn; try reflexivity; lia.
Qed.

Lemma between_spec : forall a x b, Bool.reflect (a <= x <= b) (between a x b).
Proof. intros; apply iff_reflect; symmetry; apply between_iff. Qed.

Lemma mod_range : forall b lo k, 0 < k -> lo * k <= b < (lo + 1) * k -> b mod k = b - lo * k.
Proof. intros. symmetry; apply Z.mod_unique with lo; lia. Qed.

(** turn [b mod k] into a linear term when the range of [b] is known *)
Ltac modlin :=
  repeat match goal with
  | |- context [?b mod ?k] =>
      pose proof (Z.mod_pos_bound b k ltac:(lia));
      pose proof (Z.div_mod b k ltac:(lia));
      let q := fresh "q" in let r := fresh "r" in
      set (r := b mod k) in *; set (q := b / k) in *; clearbody q r
  | H : context [?b mod ?k] |- _ =>
      pose proof (Z.mod_pos_bound b k ltac:(lia));
      pose proof (Z.div_mod b k ltac:(lia));
      let q := fresh "q" in let r := fresh "r" in
      set (r := b mod k) in *; set (q := b / k) in *; clearbody q r
  end.

Ltac inc_finish s0 :=
  match goal with
  | |- context [unsafeSequence ?o ?e ?t ?u ?c ?s] =>
      let lg' := fresh "lg'" in let H1 := fresh in let H2 := fresh in
      destruct (unsafe_ok o e t u c s) as [lg' [H1 H2]]; rewrite H1;
      eexists; split; [reflexivity|]; cbn [cur rest weof ploc lg dchar drest dflag bad fst snd];
      repeat split; auto; try (apply H2); try (intro; discriminate); try (intros _; reflexivity)
  | |- context [validMB ?o ?c ?p ?s] =>
      let lg' := fresh "lg'" in let H1 := fresh in let H2 := fresh in
      destruct (validMB_ok o c p s) as [lg' [H1 H2]]; [auto | rewrite H1];
      eexists; split; [reflexivity|]; cbn [cur rest weof ploc lg dchar drest dflag good_ fst snd];
      repeat split; auto; try (apply H2); try (intro; discriminate); try (intros _; reflexivity)
  end.

Ltac adv_side := symmetry; apply adv_inc; unfold EndOfFile, CRLF, Unsafe1Byte, Unsafe2Byte, Unsafe3Byte; try lia.

Lemma two_byte_ok : forall o b r l g pol, locok o l -> 0xc2 <= b <= 0xdf ->
  sread o (mkst (mkpos (b :: r) false l) g) (two_byte o b pol (mkst (mkpos r false l) g)) (decode2 b r).
Proof.
  intros o b r l g pol Hl Hb. unfold two_byte, decode2, sread, mark, nextByte, get_weof, seek, incomplete1.
  destruct r as [|b2 r2]; cbn -[unsafeSequence validMB between from_u32 Z.lor Z.shiftl Z.land].
  - inc_finish s; adv_side.
  - change (cont b2) with (between 128 b2 191).
    destruct (between_spec 128 b2 191) as [H|H]; cbn -[unsafeSequence validMB between from_u32 Z.lor Z.shiftl Z.land].
    + rewrite val2. unfold unwrap_u32. rewrite from_u32_ok by (modlin; lia).
      unfold bind, ret. cbn beta iota. unfold good_; inc_finish s; adv_side; modlin; lia.
    + inc_finish s; adv_side.
Qed.

Lemma three_byte_ok : forall o b lo checks r l g pol, locok o l ->
  (b = 0xe0 /\ lo = 0xa0 /\ checks = false) \/ (0xe1 <= b <= 0xef /\ lo = 0x80 /\ checks = true) ->
  sread o (mkst (mkpos (b :: r) false l) g) (three_byte o b lo checks pol (mkst (mkpos r false l) g))
        (decode3 b lo checks r).
Proof.
  intros o b lo checks r l g pol Hl Hb.
  unfold three_byte, decode3, sread, mark, nextByte, get_weof, seek, incomplete1, incomplete2, straySurrogate, bom.
  destruct r as [|b2 r2]; cbn -[unsafeSequence validMB between from_u32 Z.lor Z.shiftl Z.land isStraySurrogate].
  { inc_finish s; adv_side. }
  destruct (between_spec lo b2 191) as [H|H]; cbn -[unsafeSequence validMB between from_u32 Z.lor Z.shiftl Z.land isStraySurrogate].
  2:{ inc_finish s; adv_side. }
  destruct r2 as [|b3 r3]; cbn -[unsafeSequence validMB between from_u32 Z.lor Z.shiftl Z.land isStraySurrogate].
  { inc_finish s; adv_side. }
  change (cont b3) with (between 128 b3 191).
  destruct (between_spec 128 b3 191) as [H3|H3]; cbn -[unsafeSequence validMB between from_u32 Z.lor Z.shiftl Z.land isStraySurrogate].
  2:{ inc_finish s; adv_side. }
  rewrite val3. set (d := b mod 16 * 4096 + b2 mod 64 * 64 + b3 mod 64).
  assert (Hd : 2048 <= d <= 0xffff) by (subst d; destruct Hb as [[-> [-> _]]|[Hb [-> _]]]; modlin; lia).
  destruct (checks && isStraySurrogate d) eqn:E1.
  { inc_finish s; adv_side. }
  assert (Hs : ~ (0xd800 <= d <= 0xdfff)).
  { destruct Hb as [[-> [-> ->]]|[Hb [-> ->]]].
    - subst d. modlin; lia.
    - cbn [andb] in E1. unfold isStraySurrogate in E1. destruct (between_spec 0xd800 d 0xdfff); congruence. }
  unfold unwrap_u32. rewrite from_u32_ok by lia. unfold bind, ret; cbn beta iota.
  destruct (checks && (d =? CODEPOINT_BOM)) eqn:E2.
  { inc_finish s; adv_side. }
  unfold good_; inc_finish s; adv_side.
Qed.

Lemma four_byte_ok : forall o b lo hi r l g pol, locok o l ->
  (b = 0xf0 /\ lo = 0x90 /\ hi = 0xbf) \/ (0xf1 <= b <= 0xf3 /\ lo = 0x80 /\ hi = 0xbf) \/
  (b = 0xf4 /\ lo = 0x80 /\ hi = 0x8f) ->
  sread o (mkst (mkpos (b :: r) false l) g) (four_byte o b lo hi pol (mkst (mkpos r false l) g))
        (decode4 b lo hi r).
Proof.
  intros o b lo hi r l g pol Hl Hb.
  unfold four_byte, decode4, sread, mark, nextByte, get_weof, seek, incomplete1, incomplete2, incomplete3.
  destruct r as [|b2 r2]; cbn -[unsafeSequence validMB between from_u32 Z.lor Z.shiftl Z.land].
  { inc_finish s; adv_side. }
  destruct (between_spec lo b2 hi) as [H|H]; cbn -[unsafeSequence validMB between from_u32 Z.lor Z.shiftl Z.land].
  2:{ inc_finish s; adv_side. }
  destruct r2 as [|b3 r3]; cbn -[unsafeSequence validMB between from_u32 Z.lor Z.shiftl Z.land].
  { inc_finish s; adv_side. }
  change (cont b3) with (between 128 b3 191).
  destruct (between_spec 128 b3 191) as [H3|H3]; cbn -[unsafeSequence validMB between from_u32 Z.lor Z.shiftl Z.land].
  2:{ inc_finish s; adv_side. }
  destruct r3 as [|b4 r4]; cbn -[unsafeSequence validMB between from_u32 Z.lor Z.shiftl Z.land].
  { inc_finish s; adv_side. }
  change (cont b4) with (between 128 b4 191).
  destruct (between_spec 128 b4 191) as [H4|H4]; cbn -[unsafeSequence validMB between from_u32 Z.lor Z.shiftl Z.land].
  2:{ inc_finish s; adv_side. }
  rewrite val4. set (d := b mod 8 * 262144 + b2 mod 64 * 4096 + b3 mod 64 * 64 + b4 mod 64).
  assert (Hd : 0x10000 <= d <= 0x10ffff)
    by (subst d; destruct Hb as [[-> [-> ->]]|[[Hb [-> ->]]|[-> [-> ->]]]]; modlin; lia).
  unfold unwrap_u32. rewrite from_u32_ok by lia. unfold bind, ret; cbn beta iota.
  unfold good_; inc_finish s; adv_side.
Qed.

Theorem next_source_char_ok : forall o pol s, Inv o s ->
  sread o s (next_source_char o pol s) (decode (rest (cur s))).
Proof.
  intros o pol [[bs w l] g] [Htw [Hw Hl]]. cbn [cur rest weof ploc] in *. unfold wfp in Hw; cbn in Hw.
  unfold next_source_char, currentByte. unfold bind at 1. cbn [cur rest].
  destruct bs as [|b r].
  { cbn. eexists; split; [reflexivity|]. cbn. repeat split; auto. constructor. }
  assert (w = false) by (destruct w; [discriminate (Hw eq_refl) | reflexivity]). subst w. clear Hw.
  unfold nextByte. destruct (between_spec 0x20 b 0x7e) as [H|H].
  { cbn -[between adv]. destruct (between_spec 0 b 12); [lia|]. destruct (between_spec 14 b 127); [|lia].
    cbn -[adv]. eexists; split; [reflexivity|]. cbn -[adv]. repeat split; auto; try (intro; discriminate); try constructor. adv_side. }
  destruct (Z.eqb_spec b 10) as [->|Hn].
  { cbn -[adv]. eexists; split; [reflexivity|]. cbn. repeat split; auto; try (intro; discriminate); try constructor. }
  unfold nextSourceCharacter_uncommon, nextByte. unfold bind at 1. cbn [cur rest weof ploc lg].
  destruct (Z.eqb_spec b 9) as [->|H9].
  { unfold src_tab, get_loc, set_loc, lift, bind, loc_tab. cbn -[adv Z.add Z.sub Z.div Z.mul].
    destruct l as [a c|i]; cbn -[Z.add Z.sub Z.div Z.mul] in *.
    - destruct (Z.eqb_spec (o_tab_width o) 0); [lia|]. cbn -[Z.add Z.sub Z.div Z.mul].
      eexists; split; [reflexivity|]. cbn -[Z.add Z.sub Z.div Z.mul]. repeat split; auto; try (intro; discriminate); try constructor.
    - eexists; split; [reflexivity|]. cbn -[Z.add Z.sub Z.div Z.mul]. repeat split; auto; try (intro; discriminate); try constructor. }
  destruct (Z.eqb_spec b 13) as [->|H13].
  { assert (Hcr : forall d, d = good_ 13 r ->
      sread o (mkst (mkpos (13 :: r) false l) g)
        ((src_newline ;;
          when_ (o_check_issues o && p_issues pol)
            (l <- get_loc ;; report UnexpectedCarriageReturn Warning l l) ;;
          ret 13) (mkst (mkpos r false l) g)) d).
    { intros d ->. unfold src_newline, get_loc, set_loc, when_.
      destruct (o_check_issues o && p_issues pol) eqn:E.
      - apply andb_true_iff in E as [E _]. unfold bind; cbn [cur rest weof ploc lg].
        match goal with |- context [report ?t ?sv ?a ?b' ?s] =>
          destruct (report_ok o t sv a b' s) as [lg' [H1 H2]]; [apply loc_leb_refl | auto | rewrite H1] end.
        eexists; split; [reflexivity|]; cbn. repeat split; auto; try (apply H2); try (intro; discriminate); try (intros _; reflexivity).
      - unfold bind, ret; cbn. eexists; split; [reflexivity|]; cbn.
        repeat split; auto; try (intro; discriminate); try constructor. }
    unfold currentByte. unfold bind at 1. cbn [cur rest].
    destruct r as [|b2 r2]; [apply Hcr; reflexivity |].
    destruct (Z.eqb_spec b2 10) as [->|Hb2].
    - cbn. eexists; split; [reflexivity|]. cbn. repeat split; auto; try (intro; discriminate); try constructor.
    - apply Hcr. cbn. destruct (Z.eqb_spec b2 10); [congruence|]. reflexivity. }
  unfold decode.
  destruct (_ || (b =? 127)) eqn:Ec.
  { assert (Hr : (between 0 b 12 || between 14 b 127) = true).
    { unfold between in *. rewrite !orb_true_iff, !andb_true_iff, !Z.eqb_eq, !Z.leb_le in *. lia. }
    rewrite Hr. destruct (validStrange_ok o b pol (mkst (mkpos r false l) g)) as [lg' [H1 H2]]; auto.
    rewrite H1. eexists; split; [reflexivity|]. cbn [cur rest weof ploc lg dchar drest dflag good_ fst snd].
    repeat split; auto; try apply H2; try (intro; discriminate).
    assert (0 <= b). { unfold between in *. rewrite !orb_true_iff, !andb_true_iff, !Z.eqb_eq, !Z.leb_le in *. lia. }
    adv_side. }
  assert (Hr : (between 0 b 12 || between 14 b 127) = false).
  { unfold between in *. rewrite !orb_false_iff, !andb_false_iff, !Z.eqb_neq, !Z.leb_gt in *. lia. }
  rewrite Hr. destruct (Z.eqb_spec b 13); [congruence|].
  destruct (between_spec 0xc2 b 0xdf); [apply two_byte_ok; auto|].
  destruct (Z.eqb_spec b 0xe0); [subst; apply three_byte_ok; auto|].
  destruct (between_spec 0xe1 b 0xef); [apply three_byte_ok; auto|].
  destruct (Z.eqb_spec b 0xf0); [subst; apply four_byte_ok; auto|].
  destruct (between_spec 0xf1 b 0xf3); [apply four_byte_ok; auto|].
  destruct (Z.eqb_spec b 0xf4); [subst; apply four_byte_ok; auto|].
  assert (Hd : forall e, sread o (mkst (mkpos (b :: r) false l) g)
                 (incomplete1 o e (mkst (mkpos r false l) g)) (bad Unsafe1Byte r)).
  { intro e. unfold sread, incomplete1. inc_finish s; adv_side. }
  destruct (Z.eqb_spec b 0xff); unfold get_weof, get_loc, bind; cbn -[incomplete1 bad sread]; apply Hd.
Qed.
