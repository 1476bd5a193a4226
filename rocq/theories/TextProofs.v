(** Facts about [decode]: suffixes, UTF-8 round trip, positions. *)
From Coq Require Import ZArith List Bool Lia.
From Verif Require Import Base Source WLChar ByteDecoder Decode SpecText Iter.
Import ListNotations.
Local Open Scope Z_scope.

Ltac dall :=
  repeat match goal with
  | |- context [between ?a ?x ?b] => destruct (between_spec a x b)
  | |- context [?a =? ?b] => destruct (Z.eqb_spec a b)
  | |- context [match ?l with [] => _ | _ => _ end] => is_var l; destruct l
  end.

(** Every read of a non-empty input removes a non-empty prefix. *)
Lemma decode_suffix : forall bs, bs <> [] ->
  exists pre, pre <> [] /\ bs = pre ++ drest (decode bs).
Proof.
  intros [|b r] H; [congruence|]. clear H.
  assert (D2 : exists pre, pre <> [] /\ b :: r = pre ++ drest (decode2 b r)).
  { unfold decode2, cont. destruct r as [|b2 r2]; [exists [b]; split; [discriminate|reflexivity]|].
    destruct (between _ _ _); [exists [b;b2] | exists [b]]; (split; [discriminate|reflexivity]). }
  assert (D3 : forall lo ck, exists pre, pre <> [] /\ b :: r = pre ++ drest (decode3 b lo ck r)).
  { intros. unfold decode3, cont. destruct r as [|b2 r2]; [exists [b]; split; [discriminate|reflexivity]|].
    destruct (between _ _ _); [|exists [b]; (split; [discriminate|reflexivity])].
    destruct r2 as [|b3 r3]; [exists [b; b2]; split; [discriminate|reflexivity]|].
    destruct (between _ b3 _); [|exists [b;b2]; (split; [discriminate|reflexivity])].
    exists [b;b2;b3]. split; [discriminate|].
    destruct (ck && isStraySurrogate _); [reflexivity|]. destruct (_ && _); reflexivity. }
  assert (D4 : forall lo hi, exists pre, pre <> [] /\ b :: r = pre ++ drest (decode4 b lo hi r)).
  { intros. unfold decode4, cont. destruct r as [|b2 r2]; [exists [b]; split; [discriminate|reflexivity]|].
    destruct (between _ _ _); [|exists [b]; (split; [discriminate|reflexivity])].
    destruct r2 as [|b3 r3]; [exists [b; b2]; split; [discriminate|reflexivity]|].
    destruct (between _ b3 _); [|exists [b;b2]; (split; [discriminate|reflexivity])].
    destruct r3 as [|b4 r4]; [exists [b; b2; b3]; split; [discriminate|reflexivity]|].
    destruct (between _ b4 _); [exists [b;b2;b3;b4]|exists [b;b2;b3]]; (split; [discriminate|reflexivity]). }
  unfold decode.
  destruct (_ || _); [exists [b]; split; [discriminate|reflexivity]|].
  destruct (b =? 13).
  { destruct r as [|b2 r2]; [exists [b]; split; [discriminate|reflexivity]|].
    destruct (b2 =? 10); [exists [b;b2]|exists [b]]; (split; [discriminate|reflexivity]). }
  repeat match goal with |- context [if ?c then _ else _] => destruct c; auto end.
  exists [b]; split; [discriminate|reflexivity].
Qed.

Lemma decode_shorter : forall bs, bs <> [] -> (length (drest (decode bs)) < length bs)%nat.
Proof.
  intros bs H. destruct (decode_suffix bs H) as [pre [Hp E]]. rewrite E at 2.
  rewrite app_length. destruct pre; [congruence|]. cbn. lia.
Qed.

(** Classification of what [decode] returns. *)
Definition unsafe_char (c : Z) : bool := isMBUnsafeUTF8Sequence c.

Inductive dcase : list Z -> dres -> Prop :=
| dc_eof : dcase [] (good_ EndOfFile [])
| dc_crlf : forall r, dcase (13 :: 10 :: r) (good_ CRLF r)
| dc_scalar : forall c r, scalar c -> c <> BOM_CHAR -> (c = 13 -> hd 0 r <> 10) ->
    dcase (utf8 c ++ r) (good_ c r)
| dc_bom : forall r, dcase (utf8 BOM_CHAR ++ r) (Unsafe3Byte, r, Some BOM)
| dc_bad : forall bs c r u, u <> BOM ->
    (c = Unsafe1Byte \/ c = Unsafe2Byte \/ c = Unsafe3Byte) ->
    (forall d t, scalar d -> bs <> utf8 d ++ t) -> bs <> [] ->
    dcase bs (c, r, Some u).

Lemma utf8_1 : forall c, 0 <= c < 0x80 -> utf8 c = [c].
Proof. intros. unfold utf8. destruct (Z.ltb_spec c 0x80); [reflexivity | lia]. Qed.

(** decompose a scalar's encoding *)
Lemma utf8_cases : forall d, scalar d ->
  (0 <= d < 0x80 /\ utf8 d = [d]) \/
  (exists b b2, utf8 d = [b; b2] /\ 0xc2 <= b <= 0xdf /\ 0x80 <= b2 <= 0xbf /\
     d = (b - 0xc0) * 64 + (b2 - 0x80)) \/
  (exists b b2 b3, utf8 d = [b; b2; b3] /\ 0xe0 <= b <= 0xef /\ 0x80 <= b2 <= 0xbf /\ 0x80 <= b3 <= 0xbf /\
     (b = 0xe0 -> 0xa0 <= b2) /\ (b = 0xed -> b2 <= 0x9f) /\
     d = (b - 0xe0) * 4096 + (b2 - 0x80) * 64 + (b3 - 0x80)) \/
  (exists b b2 b3 b4, utf8 d = [b; b2; b3; b4] /\ 0xf0 <= b <= 0xf4 /\ 0x80 <= b2 <= 0xbf /\
     0x80 <= b3 <= 0xbf /\ 0x80 <= b4 <= 0xbf /\
     (b = 0xf0 -> 0x90 <= b2) /\ (b = 0xf4 -> b2 <= 0x8f) /\
     d = (b - 0xf0) * 262144 + (b2 - 0x80) * 4096 + (b3 - 0x80) * 64 + (b4 - 0x80)).
Proof.
  intros d Hd. unfold scalar in Hd. unfold utf8.
  destruct (Z.ltb_spec d 0x80). { left. split; [lia|reflexivity]. }
  right. pose proof (Z.div_mod d 64 ltac:(lia)). pose proof (Z.mod_pos_bound d 64 ltac:(lia)).
  destruct (Z.ltb_spec d 0x800).
  { left. do 2 eexists. split; [reflexivity|]. lia. }
  right.
  assert (E2 : d / 64 / 64 = d / 4096) by (rewrite Z.div_div by lia; reflexivity).
  pose proof (Z.div_mod (d / 64) 64 ltac:(lia)). pose proof (Z.mod_pos_bound (d / 64) 64 ltac:(lia)).
  rewrite E2 in *.
  destruct (Z.ltb_spec d 0x10000).
  { left. do 3 eexists. split; [reflexivity|]. lia. }
  right.
  assert (E3 : d / 4096 / 64 = d / 262144) by (rewrite Z.div_div by lia; reflexivity).
  pose proof (Z.div_mod (d / 4096) 64 ltac:(lia)). pose proof (Z.mod_pos_bound (d / 4096) 64 ltac:(lia)).
  rewrite E3 in *. do 4 eexists. split; [reflexivity|]. lia.
Qed.

(** ... and the converse: byte tuples in range are encodings *)
Lemma utf8_2_of : forall b b2, 0xc2 <= b <= 0xdf -> 0x80 <= b2 <= 0xbf ->
  let d := (b - 0xc0) * 64 + (b2 - 0x80) in scalar d /\ utf8 d = [b; b2].
Proof.
  intros b b2 H1 H2 d. assert (0x80 <= d < 0x800) by (subst d; lia).
  split; [unfold scalar; lia|]. unfold utf8.
  destruct (Z.ltb_spec d 0x80); [lia|]. destruct (Z.ltb_spec d 0x800); [|lia].
  assert (d / 64 = b - 0xc0) by (symmetry; apply Z.div_unique with (b2 - 0x80); subst d; lia).
  assert (d mod 64 = b2 - 0x80) by (symmetry; apply Z.mod_unique with (b - 0xc0); subst d; lia).
  f_equal; [lia|f_equal; lia].
Qed.

Lemma utf8_3_of : forall b b2 b3, 0xe0 <= b <= 0xef -> 0x80 <= b2 <= 0xbf -> 0x80 <= b3 <= 0xbf ->
  (b = 0xe0 -> 0xa0 <= b2) -> (b = 0xed -> b2 <= 0x9f) ->
  let d := (b - 0xe0) * 4096 + (b2 - 0x80) * 64 + (b3 - 0x80) in scalar d /\ utf8 d = [b; b2; b3].
Proof.
  intros b b2 b3 H1 H2 H3 H4 H5 d.
  assert (0x800 <= d < 0x10000) by (subst d; lia).
  split; [unfold scalar; subst d; lia|]. unfold utf8.
  destruct (Z.ltb_spec d 0x80); [lia|]. destruct (Z.ltb_spec d 0x800); [lia|].
  destruct (Z.ltb_spec d 0x10000); [|lia].
  assert (E1 : d / 64 = (b - 0xe0) * 64 + (b2 - 0x80)) by (symmetry; apply Z.div_unique with (b3 - 0x80); subst d; lia).
  assert (E2 : d / 4096 = b - 0xe0) by (symmetry; apply Z.div_unique with ((b2 - 0x80) * 64 + (b3 - 0x80)); subst d; lia).
  assert (E3 : d mod 64 = b3 - 0x80) by (symmetry; apply Z.mod_unique with ((b - 0xe0) * 64 + (b2 - 0x80)); subst d; lia).
  assert (E4 : (d / 64) mod 64 = b2 - 0x80) by (rewrite E1; symmetry; apply Z.mod_unique with (b - 0xe0); lia).
  rewrite E2, E3, E4. f_equal; [lia|]. f_equal; [lia|]. f_equal; lia.
Qed.

Lemma utf8_4_of : forall b b2 b3 b4, 0xf0 <= b <= 0xf4 -> 0x80 <= b2 <= 0xbf -> 0x80 <= b3 <= 0xbf ->
  0x80 <= b4 <= 0xbf ->
  (b = 0xf0 -> 0x90 <= b2) -> (b = 0xf4 -> b2 <= 0x8f) ->
  let d := (b - 0xf0) * 262144 + (b2 - 0x80) * 4096 + (b3 - 0x80) * 64 + (b4 - 0x80) in
  scalar d /\ utf8 d = [b; b2; b3; b4].
Proof.
  intros b b2 b3 b4 H1 H2 H3 H3' H4 H5 d.
  assert (0x10000 <= d <= 0x10ffff) by (subst d; lia).
  split; [unfold scalar; subst d; lia|]. unfold utf8.
  destruct (Z.ltb_spec d 0x80); [lia|]. destruct (Z.ltb_spec d 0x800); [lia|].
  destruct (Z.ltb_spec d 0x10000); [lia|].
  assert (E1 : d / 64 = (b - 0xf0) * 4096 + (b2 - 0x80) * 64 + (b3 - 0x80)) by (symmetry; apply Z.div_unique with (b4 - 0x80); subst d; lia).
  assert (E2 : d / 4096 = (b - 0xf0) * 64 + (b2 - 0x80)) by (symmetry; apply Z.div_unique with ((b3 - 0x80) * 64 + (b4 - 0x80)); subst d; lia).
  assert (E2' : d / 262144 = b - 0xf0) by (symmetry; apply Z.div_unique with ((b2 - 0x80) * 4096 + (b3 - 0x80) * 64 + (b4 - 0x80)); subst d; lia).
  assert (E3 : d mod 64 = b4 - 0x80) by (symmetry; apply Z.mod_unique with ((b - 0xf0) * 4096 + (b2 - 0x80) * 64 + (b3 - 0x80)); subst d; lia).
  assert (E4 : (d / 64) mod 64 = b3 - 0x80) by (rewrite E1; symmetry; apply Z.mod_unique with ((b - 0xf0) * 64 + (b2 - 0x80)); lia).
  assert (E5 : (d / 4096) mod 64 = b2 - 0x80) by (rewrite E2; symmetry; apply Z.mod_unique with (b - 0xf0); lia).
  rewrite E2', E3, E4, E5. f_equal; [lia|]. f_equal; [lia|]. f_equal; [lia|]. f_equal; lia.
Qed.

(** An input none of whose prefixes is an encoded scalar. *)
Ltac notutf :=
  let d := fresh "d" in let t := fresh "t" in let Hd := fresh "Hd" in let E := fresh "E" in
  intros d t Hd E;
  destruct (utf8_cases d Hd) as [[? U]|[(? & ? & U & ?)|[(? & ? & ? & U & ?)|(? & ? & ? & ? & U & ?)]]];
  rewrite U in E; cbn [app] in E; try discriminate E; injection E as ?; subst; lia.

Lemma app_cons2 : forall (a b : Z) l, a :: b :: l = [a; b] ++ l. Proof. reflexivity. Qed.
Lemma app_cons3 : forall (a b c : Z) l, a :: b :: c :: l = [a; b; c] ++ l. Proof. reflexivity. Qed.
Lemma app_cons4 : forall (a b c d : Z) l, a :: b :: c :: d :: l = [a; b; c; d] ++ l. Proof. reflexivity. Qed.

Lemma decode_case : forall bs, dcase bs (decode bs).
Proof.
  intros [|b r]; [apply dc_eof|]. unfold decode.
  destruct (_ || _) eqn:Ea.
  { assert (H : 0 <= b < 0x80 /\ b <> 13).
    { unfold between in Ea. rewrite orb_true_iff, !andb_true_iff, !Z.leb_le in Ea. lia. }
    destruct H. change (b :: r) with ([b] ++ r). rewrite <- (utf8_1 b) by lia.
    apply dc_scalar; [unfold scalar; lia | unfold BOM_CHAR; lia | lia]. }
  assert (Hb : b = 13 \/ b < 0 \/ 0x80 <= b).
  { unfold between in Ea. rewrite orb_false_iff, !andb_false_iff, !Z.leb_gt in Ea. lia. }
  clear Ea.
  destruct (Z.eqb_spec b 13) as [->|H13].
  { destruct r as [|b2 r2].
    - change [13] with (utf8 13 ++ []). apply dc_scalar; [unfold scalar; lia | unfold BOM_CHAR; lia | cbn; lia].
    - destruct (Z.eqb_spec b2 10) as [->|]; [apply dc_crlf|].
      change (13 :: b2 :: r2) with (utf8 13 ++ b2 :: r2).
      apply dc_scalar; [unfold scalar; lia | unfold BOM_CHAR; lia | cbn; auto]. }
  assert (U1 : Unsafe1Byte = Unsafe1Byte \/ Unsafe1Byte = Unsafe2Byte \/ Unsafe1Byte = Unsafe3Byte) by auto.
  assert (U2 : Unsafe2Byte = Unsafe1Byte \/ Unsafe2Byte = Unsafe2Byte \/ Unsafe2Byte = Unsafe3Byte) by auto.
  assert (U3 : Unsafe3Byte = Unsafe1Byte \/ Unsafe3Byte = Unsafe2Byte \/ Unsafe3Byte = Unsafe3Byte) by auto.
  destruct (between_spec 0xc2 b 0xdf).
  { unfold decode2, bad, good_. destruct r as [|b2 r2]; [apply dc_bad; [discriminate | auto | notutf | discriminate]|].
    unfold cont. destruct (between_spec 0x80 b2 0xbf); [|apply dc_bad; [discriminate | auto | notutf | discriminate]].
    rewrite val2, (mod_range b 6 32), (mod_range b2 2 64) by lia.
    destruct (utf8_2_of b b2) as [S E]; [lia..|].
    rewrite app_cons2, <- E. replace ((b - 6 * 32) * 64 + (b2 - 2 * 64)) with ((b - 192) * 64 + (b2 - 128)) by lia.
    apply dc_scalar; auto; [unfold BOM_CHAR; lia | lia]. }
  assert (D3 : forall lo ck, (b = 0xe0 /\ lo = 0xa0 /\ ck = false) \/ (0xe1 <= b <= 0xef /\ lo = 0x80 /\ ck = true) ->
     dcase (b :: r) (decode3 b lo ck r)).
  { intros lo ck Hk. unfold decode3, bad, good_.
    destruct r as [|b2 r2]; [apply dc_bad; [discriminate | auto | notutf | discriminate]|].
    destruct (between_spec lo b2 0xbf); [|apply dc_bad; [discriminate | auto | | discriminate]].
    2:{ destruct Hk as [[? [? ?]]|[? [? ?]]]; subst; notutf. }
    destruct r2 as [|b3 r3]; [apply dc_bad; [discriminate | auto | notutf | discriminate]|].
    unfold cont. destruct (between_spec 0x80 b3 0xbf); [|apply dc_bad; [discriminate | auto | notutf | discriminate]].
    assert (0x80 <= b2) by lia.
    rewrite val3, (mod_range b 14 16), (mod_range b2 2 64), (mod_range b3 2 64) by lia.
    replace ((b - 14 * 16) * 4096 + (b2 - 2 * 64) * 64 + (b3 - 2 * 64))
      with ((b - 224) * 4096 + (b2 - 128) * 64 + (b3 - 128)) by lia.
    set (d := (b - 224) * 4096 + (b2 - 128) * 64 + (b3 - 128)).
    destruct (ck && isStraySurrogate d) eqn:Es.
    { apply andb_true_iff in Es as [-> Es]. unfold isStraySurrogate in Es. apply between_iff in Es.
      assert (b = 0xed /\ 0xa0 <= b2) by (subst d; lia).
      apply dc_bad; [discriminate | auto | notutf | discriminate]. }
    assert (Hed : b = 0xed -> b2 <= 0x9f).
    { intros ->. destruct Hk as [[? ?]|[_ [_ ->]]]; [lia|]. cbn [andb] in Es. unfold isStraySurrogate in Es.
      destruct (between_spec 0xd800 d 0xdfff); [discriminate|]. subst d; lia. }
    destruct (utf8_3_of b b2 b3) as [S E]; [lia..|]. fold d in S, E.
    destruct (Z.eqb_spec d CODEPOINT_BOM) as [Ed|Ed]; cbn [andb].
    { rewrite app_cons3, <- E, Ed. destruct Hk as [[-> [-> ->]]|[_ [_ ->]]]; cbn [andb].
      - exfalso. unfold CODEPOINT_BOM in Ed. subst d; lia.
      - apply dc_bom. }
    rewrite andb_false_r. rewrite app_cons3, <- E. apply dc_scalar; auto. subst d; lia. }
  destruct (Z.eqb_spec b 0xe0); [apply D3; auto|].
  destruct (between_spec 0xe1 b 0xef); [apply D3; auto|]. clear D3.
  assert (D4 : forall lo hi, (b = 0xf0 /\ lo = 0x90 /\ hi = 0xbf) \/ (0xf1 <= b <= 0xf3 /\ lo = 0x80 /\ hi = 0xbf) \/
     (b = 0xf4 /\ lo = 0x80 /\ hi = 0x8f) -> dcase (b :: r) (decode4 b lo hi r)).
  { intros lo hi Hk. unfold decode4, bad, good_.
    destruct r as [|b2 r2]; [apply dc_bad; [discriminate | auto | notutf | discriminate]|].
    destruct (between_spec lo b2 hi); [|apply dc_bad; [discriminate | auto | | discriminate]].
    2:{ destruct Hk as [[? [? ?]]|[[? [? ?]]|[? [? ?]]]]; subst; notutf. }
    destruct r2 as [|b3 r3]; [apply dc_bad; [discriminate | auto | notutf | discriminate]|].
    unfold cont. destruct (between_spec 0x80 b3 0xbf); [|apply dc_bad; [discriminate | auto | notutf | discriminate]].
    destruct r3 as [|b4 r4]; [apply dc_bad; [discriminate | auto | notutf | discriminate]|].
    destruct (between_spec 0x80 b4 0xbf); [|apply dc_bad; [discriminate | auto | notutf | discriminate]].
    assert (0x80 <= b2 <= 0xbf) by lia.
    rewrite val4, (mod_range b 30 8), (mod_range b2 2 64), (mod_range b3 2 64), (mod_range b4 2 64) by lia.
    destruct (utf8_4_of b b2 b3 b4) as [S E]; [lia..|].
    replace ((b - 30 * 8) * 262144 + (b2 - 2 * 64) * 4096 + (b3 - 2 * 64) * 64 + (b4 - 2 * 64))
      with ((b - 240) * 262144 + (b2 - 128) * 4096 + (b3 - 128) * 64 + (b4 - 128)) by lia.
    rewrite app_cons4, <- E. apply dc_scalar; auto; [unfold BOM_CHAR; lia|lia]. }
  destruct (Z.eqb_spec b 0xf0); [apply D4; auto|].
  destruct (between_spec 0xf1 b 0xf3); [apply D4; auto|].
  destruct (Z.eqb_spec b 0xf4); [apply D4; auto|].
  unfold bad. apply dc_bad; [discriminate | auto | notutf | discriminate].
Qed.

(** ** UTF-8 is a prefix code *)
Lemma utf8_inj : forall c d r t, scalar c -> scalar d -> utf8 c ++ r = utf8 d ++ t -> c = d /\ r = t.
Proof.
  intros c d r t Hc Hd E.
  destruct (utf8_cases c Hc) as [[? U]|[(? & ? & U & ?)|[(? & ? & ? & U & ?)|(? & ? & ? & ? & U & ?)]]];
  destruct (utf8_cases d Hd) as [[? V]|[(? & ? & V & ?)|[(? & ? & ? & V & ?)|(? & ? & ? & ? & V & ?)]]];
  rewrite U, V in E; cbn [app] in E; injection E; intros; subst; split; auto; lia.
Qed.

Lemma utf8_nonempty : forall c, utf8 c <> [].
Proof. intros c; unfold utf8; repeat destruct (_ <? _); discriminate. Qed.

Lemma decode_scalar : forall c r, scalar c -> c <> BOM_CHAR -> (c = 13 -> hd 0 r <> 10) ->
  decode (utf8 c ++ r) = good_ c r.
Proof.
  intros c r Hc Hb Hn. pose proof (decode_case (utf8 c ++ r)) as D. inversion D as [E|r0 E|c0 r0 Hc0 Hb0 Hn0 E|r0 E|bs c0 r0 u ? ? Hno ? E].
  - symmetry in E. apply app_eq_nil in E as [E _]. exfalso; eapply utf8_nonempty; eauto.
  - change (13 :: 10 :: r0) with (utf8 13 ++ 10 :: r0) in E.
    apply utf8_inj in E; auto; [|unfold scalar; lia]. destruct E as [<- <-]. cbn in Hn. exfalso; apply Hn; auto.
  - apply utf8_inj in E; auto. destruct E as [<- <-]. reflexivity.
  - change (utf8 BOM_CHAR ++ r0 = utf8 c ++ r) in E. apply utf8_inj in E; auto; [|unfold scalar, BOM_CHAR; lia]. destruct E as [<- <-]. congruence.
  - exfalso. eapply Hno; [exact Hc | reflexivity].
Qed.

Lemma decode_ascii : forall c r, 0 <= c < 0x80 -> c <> 13 -> decode (c :: r) = good_ c r.
Proof.
  intros. change (c :: r) with ([c] ++ r). rewrite <- (utf8_1 c) by lia.
  apply decode_scalar; [unfold scalar; lia | unfold BOM_CHAR; lia | lia].
Qed.

Lemma decode_crlf : forall r, decode (13 :: 10 :: r) = good_ CRLF r.
Proof. reflexivity. Qed.

Lemma decode_bom : forall r, decode (utf8 BOM_CHAR ++ r) = (Unsafe3Byte, r, Some BOM).
Proof. reflexivity. Qed.

(** ** [utf8_valid] decides well-formedness *)

Lemma well_formed_nil : well_formed [].
Proof. exists []; split; [constructor|reflexivity]. Qed.
Lemma well_formed_cons : forall c r, scalar c -> well_formed r -> well_formed (utf8 c ++ r).
Proof. intros c r Hc [cs [H ->]]. exists (c :: cs). split; [constructor; auto|reflexivity]. Qed.
Lemma well_formed_inv : forall c r, scalar c -> well_formed (utf8 c ++ r) -> well_formed r.
Proof.
  intros c r Hc [cs [H E]]. destruct cs as [|d cs].
  - cbn in E. apply app_eq_nil in E as [E _]. exfalso; eapply utf8_nonempty; eauto.
  - inversion H; subst. unfold encode in E. cbn [map concat] in E. apply utf8_inj in E; auto. destruct E as [_ ->].
    exists cs; split; auto.
Qed.
Lemma well_formed_first : forall bs, bs <> [] -> well_formed bs -> exists c r, scalar c /\ bs = utf8 c ++ r.
Proof.
  intros bs Hn [cs [H ->]]. destruct cs as [|c cs]; [cbn in Hn; congruence|].
  inversion H; subst. exists c, (encode cs). split; auto.
Qed.

(** one step of [utf8_valid] *)
Lemma utf8_valid_step : forall bs, bs <> [] ->
  (exists c r, scalar c /\ bs = utf8 c ++ r /\ utf8_valid bs = utf8_valid r) \/
  (utf8_valid bs = false /\ forall d t, scalar d -> bs <> utf8 d ++ t).
Proof.
  intros [|b r] H; [congruence|]. clear H. cbn [utf8_valid].
  destruct (between_spec 0 b 0x7f).
  { left. exists b, r. rewrite utf8_1 by lia. repeat split; auto. unfold scalar; lia. }
  destruct r as [|b2 r2]; [right; split; [reflexivity|notutf]|].
  destruct (between_spec 0xc2 b 0xdf).
  { destruct (between_spec 0x80 b2 0xbf); cbn [andb]; [|right; split; [reflexivity|notutf]].
    left. destruct (utf8_2_of b b2) as [S E]; [lia..|]. eexists _, r2. split; [exact S|]. rewrite E. auto. }
  destruct r2 as [|b3 r3]; [right; split; [reflexivity|notutf]|].
  destruct (((b =? 0xe0) && between 0xa0 b2 0xbf) || _ || _ || _) eqn:E3.
  { unfold between in E3. rewrite !orb_true_iff, !andb_true_iff, !Z.leb_le, !Z.eqb_eq in E3.
    destruct (between_spec 0x80 b3 0xbf); cbn [andb]; [|right; split; [reflexivity|notutf]].
    left. destruct (utf8_3_of b b2 b3) as [S E]; [lia..|]. eexists _, r3. split; [exact S|]. rewrite E. auto. }
  unfold between in E3. rewrite !orb_false_iff, !andb_false_iff, !Z.leb_gt, !Z.eqb_neq in E3.
  destruct r3 as [|b4 r4]; [right; split; [reflexivity|notutf]|].
  destruct (((b =? 0xf0) && between 0x90 b2 0xbf) || _ || _) eqn:E4; cbn [andb].
  2:{ unfold between in E4. rewrite !orb_false_iff, !andb_false_iff, !Z.leb_gt, !Z.eqb_neq in E4.
      right; split; [reflexivity|notutf]. }
  unfold between in E4. rewrite !orb_true_iff, !andb_true_iff, !Z.leb_le, !Z.eqb_eq in E4.
  destruct (between_spec 0x80 b3 0xbf); cbn [andb]; [|right; split; [reflexivity|notutf]].
  destruct (between_spec 0x80 b4 0xbf); cbn [andb]; [|right; split; [reflexivity|notutf]].
  left. destruct (utf8_4_of b b2 b3 b4) as [S E]; [lia..|]. eexists _, r4. split; [exact S|]. rewrite E. auto.
Qed.

Lemma utf8_valid_iff : forall bs, utf8_valid bs = true <-> well_formed bs.
Proof.
  intros bs. remember (length bs) as n eqn:Hn. revert bs Hn.
  induction n as [n IH] using lt_wf_ind; intros bs ->.
  destruct bs as [|b r].
  { split; [intros _; apply well_formed_nil|reflexivity]. }
  destruct (utf8_valid_step (b :: r)) as [(c & t & Hc & E & V)|[V N]]; [discriminate| |].
  - rewrite V. assert (L : (length t < length (b :: r))%nat).
    { rewrite E, app_length. pose proof (utf8_nonempty c). destruct (utf8 c); [congruence|cbn; lia]. }
    rewrite (IH (length t) L t eq_refl). rewrite E.
    split; [apply well_formed_cons; auto | apply well_formed_inv; auto].
  - rewrite V. split; [discriminate|]. intros W. destruct (well_formed_first (b :: r)) as (c & t & Hc & E); auto; [discriminate|].
    exfalso; eapply N; eauto.
Qed.

(** ** Moving along source characters *)

(** [moves o bs l cs bs' l']: starting before [bs] at [l], reading the characters
    [cs] ends before [bs'] at [l']. *)
Inductive moves (o : opts) : list Z -> loc -> list Z -> list Z -> loc -> Prop :=
| mv_nil : forall bs l, moves o bs l [] bs l
| mv_cons : forall bs l cs bs' l', bs <> [] ->
    moves o (drest (decode bs)) (adv o (dchar (decode bs)) l) cs bs' l' ->
    moves o bs l (dchar (decode bs) :: cs) bs' l'.

Lemma moves_trans : forall o bs l cs bs' l' ds bs'' l'',
  moves o bs l cs bs' l' -> moves o bs' l' ds bs'' l'' -> moves o bs l (cs ++ ds) bs'' l''.
Proof. intros o bs l cs bs' l' ds bs'' l'' H; induction H; intros; cbn; auto. constructor; auto. Qed.

Lemma moves_one : forall o bs l, bs <> [] ->
  moves o bs l [dchar (decode bs)] (drest (decode bs)) (adv o (dchar (decode bs)) l).
Proof. intros; constructor; auto; constructor. Qed.

Lemma moves_suffix : forall o bs l cs bs' l', moves o bs l cs bs' l' -> exists pre, bs = pre ++ bs'.
Proof.
  intros o bs l cs bs' l' H; induction H as [|bs l cs bs' l' Hn Hm [pre IH]]; [exists []; reflexivity|].
  destruct (decode_suffix bs Hn) as [p [_ E]]. exists (p ++ pre). rewrite E at 1. rewrite IH at 1. apply app_assoc.
Qed.

Lemma moves_length : forall o bs l cs bs' l', moves o bs l cs bs' l' ->
  (length bs' + length cs <= length bs)%nat.
Proof.
  intros o bs l cs bs' l' H; induction H as [|bs l cs bs' l' Hn Hm IH]; cbn; [lia|].
  pose proof (decode_shorter bs Hn). lia.
Qed.

(** Reading to the end is always possible. *)
Lemma moves_to_end : forall o bs l, exists cs l', moves o bs l cs [] l'.
Proof.
  intros o bs. remember (length bs) as n eqn:Hn. revert bs Hn.
  induction n as [n IH] using lt_wf_ind; intros bs -> l.
  destruct bs as [|b r]; [exists [], l; constructor|].
  destruct (IH _ (decode_shorter (b :: r) ltac:(discriminate)) _ eq_refl (adv o (dchar (decode (b :: r))) l))
    as [cs [l' H]].
  exists (dchar (decode (b :: r)) :: cs), l'. constructor; [discriminate|auto].
Qed.

(** Runs from the same place are prefixes of one another. *)
Lemma moves_det : forall o bs l cs bs' l', moves o bs l cs bs' l' ->
  forall ds l'', moves o bs l ds [] l'' -> exists es, ds = cs ++ es /\ moves o bs' l' es [] l''.
Proof.
  intros o bs l cs bs' l' H; induction H as [|bs l cs bs' l' Hn Hm IH]; intros ds l'' D.
  - exists ds; auto.
  - inversion D; subst; [congruence|]. destruct (IH _ _ H0) as [es [-> M]]. exists es; auto.
Qed.

(** ** The pure character list of an input *)
Lemma moves_chars_indep : forall o1 o2 bs l1 cs bs' l1', moves o1 bs l1 cs bs' l1' ->
  forall l2, exists l2', moves o2 bs l2 cs bs' l2'.
Proof.
  intros o1 o2 bs l1 cs bs' l1' H; induction H as [|bs l cs bs' l' Hn Hm IH]; intros l2.
  - exists l2; constructor.
  - destruct (IH (adv o2 (dchar (decode bs)) l2)) as [l2' H2]. exists l2'. constructor; auto.
Qed.

Definition dirty (bs : list Z) : Prop :=
  exists o l cs bs' l', moves o bs l cs bs' l' /\ existsb unsafe_char cs = true.

Lemma dirty_moves : forall o bs l cs bs' l', moves o bs l cs bs' l' -> dirty bs' -> dirty bs.
Proof.
  intros o bs l cs bs' l' H (o2 & l2 & ds & bs2 & l2' & M & U).
  destruct (moves_chars_indep _ o _ _ _ _ _ M l') as [l3 M3].
  exists o, l, (cs ++ ds), bs2, l3. split; [eapply moves_trans; eauto|]. rewrite existsb_app, U. apply orb_true_r.
Qed.

Lemma decode_flag_unsafe : forall bs, dflag (decode bs) <> None <-> unsafe_char (dchar (decode bs)) = true.
Proof.
  intros bs. generalize (decode_case bs). generalize (decode bs). intros dd D. destruct D as [|r0|c0 r0 Hc0 Hb0 Hn0|r0|bs0 c0 r0 u ? Hc Hno ?];
  unfold good_; cbn [dflag dchar fst snd].
  - split; [congruence|discriminate].
  - split; [congruence|discriminate].
  - split; [congruence|]. intros U. unfold unsafe_char, isMBUnsafeUTF8Sequence in U.
    apply zin_In in U. unfold scalar in Hc0. cbn in U. unfold Unsafe1Byte, Unsafe2Byte, Unsafe3Byte in U. lia.
  - split; [reflexivity|discriminate].
  - split; [|discriminate]. intros _. unfold unsafe_char, isMBUnsafeUTF8Sequence. apply zin_In. cbn.
    intuition congruence.
Qed.

Lemma decode_eof : forall bs, dchar (decode bs) = EndOfFile <-> bs = [].
Proof.
  intros bs. split; [|intros ->; reflexivity].
  generalize (decode_case bs). generalize (decode bs). intros dd D. destruct D as [|r0|c0 r0 Hc0 Hb0 Hn0|r0|bs0 c0 r0 u ? Hc Hno ?];
  unfold good_; cbn [dchar fst snd]; auto; try discriminate.
  - unfold scalar in Hc0. unfold EndOfFile. lia.
  - unfold EndOfFile, Unsafe1Byte, Unsafe2Byte, Unsafe3Byte in *. lia.
Qed.

(** No unsafe character anywhere <-> the bytes are well-formed and BOM free. *)
Lemma clean_iff : forall o bs l cs l', moves o bs l cs [] l' ->
  (existsb unsafe_char cs = false <-> well_formed_no_bom bs).
Proof.
  intros o bs l cs l' H. remember [] as e eqn:He. induction H as [|bs l cs bs' l' Hn Hm IH]; subst.
  - split; [|reflexivity]. intros _. exists []. split; [constructor|split; [intros []|reflexivity]].
  - specialize (IH eq_refl). cbn [existsb]. rewrite orb_false_iff. rewrite IH. clear IH Hm.
    assert (Hs : forall c r, scalar c -> well_formed_no_bom (utf8 c ++ r) <-> c <> BOM_CHAR /\ well_formed_no_bom r).
    { intros c r Hc. split.
      - intros [ds [F [N E]]]. destruct ds as [|d ds].
        + cbn in E. apply app_eq_nil in E as [E _]. exfalso; eapply utf8_nonempty; eauto.
        + inversion F; subst. unfold encode in E; cbn [map concat] in E. apply utf8_inj in E; auto. destruct E as [<- ->].
          split; [intros ->; apply N; left; reflexivity|]. exists ds. split; [auto|split; [|reflexivity]].
          intros I; apply N; right; auto.
      - intros [Hb [ds [F [N ->]]]]. exists (c :: ds). split; [constructor; auto|]. split; [|reflexivity].
        intros [I|I]; auto. }
    revert Hn; generalize (decode_case bs). generalize (decode bs). intros dd D. destruct D as [|r0|c0 r0 Hc0 Hb0 Hn0|r0|bs0 c0 r0 u ? Hc Hno ?]; intros Hn.
    + congruence.
    + unfold good_; cbn [dchar drest fst snd].
      change (13 :: 10 :: r0) with (utf8 13 ++ utf8 10 ++ r0).
      rewrite !Hs by (unfold scalar; lia). unfold BOM_CHAR. split; [|intros [_ [_ ?]]; split; [reflexivity|auto]].
      intros [_ ?]; repeat split; auto; lia.
    + unfold good_; cbn [dchar drest fst snd]. rewrite Hs by auto.
      split; [intros [_ ?]; auto|]. intros [_ ?]; split; auto.
      destruct (unsafe_char c0) eqn:U; auto. unfold unsafe_char, isMBUnsafeUTF8Sequence in U.
      apply zin_In in U. unfold scalar in Hc0. cbn in U. unfold Unsafe1Byte, Unsafe2Byte, Unsafe3Byte in U. lia.
    + cbn [dchar drest fst snd]. rewrite Hs by (unfold scalar, BOM_CHAR; lia).
      split; [intros [? _]; discriminate|]. intros [? _]; congruence.
    + cbn [dchar drest fst snd]. split.
      * intros [U _]. exfalso. unfold unsafe_char, isMBUnsafeUTF8Sequence in U.
        destruct Hc as [->|[->| ->]]; discriminate.
      * intros [ds [F [N E]]]. destruct ds as [|d ds]; [cbn in E; congruence|].
        inversion F; subst. exfalso. eapply (Hno d); [eassumption | reflexivity].
Qed.

(** Reading an encoded text gives back its scalars. *)
Lemma moves_encode : forall o cs l, Forall scalar cs -> ~ In BOM_CHAR cs ->
  exists l', moves o (encode cs) l (fold_crlf cs) [] l'.
Proof.
  intros o cs. remember (length cs) as n eqn:Hn. revert cs Hn.
  induction n as [n IH] using lt_wf_ind; intros cs -> l F N.
  destruct cs as [|c r]; [exists l; constructor|].
  inversion F as [|? ? Hc Fr]; subst.
  assert (Hb : c <> BOM_CHAR) by (intros ->; apply N; left; reflexivity).
  assert (Nr : ~ In BOM_CHAR r) by (intros I; apply N; right; auto).
  assert (Go : forall d t rr, decode (encode (c :: r)) = good_ d (encode t) -> (length t < length (c :: r))%nat ->
     Forall scalar t -> ~ In BOM_CHAR t -> rr = fold_crlf t -> exists l', moves o (encode (c :: r)) l (d :: rr) [] l').
  { intros d t rr E L Ft Nt ->. destruct (IH _ L t eq_refl (adv o d l) Ft Nt) as [l' M].
    exists l'. assert (Hd : dchar (decode (encode (c :: r))) = d) by (rewrite E; reflexivity).
    rewrite <- Hd. constructor; [|rewrite Hd; rewrite E; exact M].
    unfold encode; cbn. intros Q. apply app_eq_nil in Q as [Q _]. eapply utf8_nonempty; eauto. }
  cbn [fold_crlf]. destruct (Z.eqb_spec c 13) as [->|H13].
  - destruct r as [|d r'].
    + apply (Go 13 []); auto.
    + destruct (Z.eqb_spec d 10) as [->|H10].
      * inversion Fr; subst. apply (Go CRLF_CHAR r'); auto; [cbn; lia|]. intros I; apply Nr; right; auto.
      * apply (Go 13 (d :: r')); auto.
        unfold encode at 1. cbn [map concat]. apply decode_scalar; auto. intros _.
        inversion Fr; subst. unfold encode; cbn [map concat].
        destruct (utf8_cases d) as [[? U]|[(? & ? & U & ?)|[(? & ? & ? & U & ?)|(? & ? & ? & ? & U & ?)]]]; auto;
        rewrite U; cbn; lia.
  - apply (Go c r); auto. unfold encode at 1. cbn [map concat]. apply decode_scalar; auto; intros; congruence.
Qed.

(** ** Positions *)

Lemma adv_locok : forall o c l, 0 < o_tab_width o -> locok o l -> locok o (adv o c l).
Proof.
  intros o c l Ht Hl. unfold adv.
  destruct (c =? EndOfFile); auto. destruct (_ || _).
  { destruct l; cbn in *; intuition lia. }
  destruct (c =? CRLF). { destruct l; cbn in *; intuition lia. }
  destruct (c =? 9).
  { destruct l; cbn -[Z.mul Z.add Z.sub Z.div] in *; intuition try lia.
    pose proof (Z.div_pos (z0 - 1) (o_tab_width o) ltac:(lia) ltac:(lia)). nia. }
  destruct l; cbn in *; intuition lia.
Qed.

Definition loc_lt (a b : loc) : Prop := loc_leb a b = Some true /\ a <> b.

Lemma adv_lt : forall o c l, 0 < o_tab_width o -> locok o l -> c <> EndOfFile -> loc_lt l (adv o c l).
Proof.
  intros o c l Ht Hl Hc. unfold adv, loc_lt.
  destruct (Z.eqb_spec c EndOfFile); [congruence|].
  destruct (_ || _).
  { destruct l as [a b|i]; cbn -[Z.add].
    - replace (a <? a + 1) with true by (symmetry; apply Z.ltb_lt; lia). split; [reflexivity|].
      intros E; injection E; lia.
    - replace (i <=? i + 1) with true by (symmetry; apply Z.leb_le; lia). split; [reflexivity|].
      intros E; injection E; lia. }
  destruct (c =? CRLF).
  { destruct l as [a b|i]; cbn -[Z.add].
    - replace (a <? a + 1) with true by (symmetry; apply Z.ltb_lt; lia). split; [reflexivity|].
      intros E; injection E; lia.
    - replace (i <=? i + 2) with true by (symmetry; apply Z.leb_le; lia). split; [reflexivity|].
      intros E; injection E; lia. }
  assert (G : forall a b b', b < b' -> loc_leb (LineCol a b) (LineCol a b') = Some true /\ LineCol a b <> LineCol a b').
  { intros. cbn. rewrite Z.eqb_refl. replace (b <=? b') with true by (symmetry; apply Z.leb_le; lia).
    cbn. rewrite orb_true_r. split; [reflexivity|]. intros E; injection E; lia. }
  destruct (c =? 9).
  { destruct l as [a b|i]; cbn -[Z.add Z.mul Z.sub Z.div loc_leb] in *.
    - apply G. pose proof (Z.div_mod (b - 1) (o_tab_width o) ltac:(lia)).
      pose proof (Z.mod_pos_bound (b - 1) (o_tab_width o) ltac:(lia)). nia.
    - cbn. replace (i <=? i + 1) with true by (symmetry; apply Z.leb_le; lia). split; [reflexivity|].
      intros E; injection E; lia. }
  destruct l as [a b|i]; cbn -[Z.add loc_leb].
  - apply G; lia.
  - cbn. replace (i <=? i + 1) with true by (symmetry; apply Z.leb_le; lia). split; [reflexivity|].
    intros E; injection E; lia.
Qed.

Lemma loc_leb_trans : forall a b c, loc_leb a b = Some true -> loc_leb b c = Some true -> loc_leb a c = Some true.
Proof.
  intros [a1 a2|a] [b1 b2|b] [c1 c2|c]; cbn; intros H1 H2; try discriminate; f_equal; injection H1; injection H2; intros.
  - rewrite orb_true_iff, andb_true_iff, Z.ltb_lt, Z.eqb_eq, Z.leb_le in *. lia.
  - apply Z.leb_le in H, H0. apply Z.leb_le. lia.
Qed.

Lemma moves_locok : forall o bs l cs bs' l', 0 < o_tab_width o -> moves o bs l cs bs' l' ->
  locok o l -> locok o l'.
Proof. intros o bs l cs bs' l' Ht H; induction H; intros; auto. apply IHmoves, adv_locok; auto. Qed.

Lemma moves_leb : forall o bs l cs bs' l', 0 < o_tab_width o -> moves o bs l cs bs' l' ->
  locok o l -> loc_leb l l' = Some true.
Proof.
  intros o bs l cs bs' l' Ht H; induction H as [|bs l cs bs' l' Hn Hm IH]; intros; [apply loc_leb_refl|].
  eapply loc_leb_trans; [|apply IH, adv_locok; auto].
  apply adv_lt; auto. intros E. apply decode_eof in E. congruence.
Qed.

(** The position is the one computed from the characters. *)
Lemma walk_app : forall tw a b col, walk tw col (a ++ b) = walk tw (walk tw col a) b.
Proof. induction a; intros; cbn; auto. Qed.

Lemma last_line_snoc : forall cs c, last_line (cs ++ [c]) = if is_line_end c then [] else last_line cs ++ [c].
Proof.
  induction cs as [|d cs IH]; intros c; cbn [app last_line existsb].
  - destruct (is_line_end c); reflexivity.
  - rewrite existsb_app. cbn [existsb]. rewrite orb_false_r.
    destruct (is_line_end c) eqn:Ec.
    + rewrite orb_true_r. rewrite IH, Ec. reflexivity.
    + rewrite orb_false_r. destruct (existsb is_line_end cs); [rewrite IH, Ec; reflexivity|].
      destruct (is_line_end d); reflexivity.
Qed.

Lemma line_of_snoc : forall cs c, line_of (cs ++ [c]) = line_of cs + (if is_line_end c then 1 else 0).
Proof.
  intros. unfold line_of. rewrite filter_app, app_length. cbn [filter].
  destruct (is_line_end c); cbn [length]; lia.
Qed.

Lemma index_of_snoc : forall cs c, index_of (cs ++ [c]) = index_of cs + (if c =? CRLF_CHAR then 2 else 1).
Proof. induction cs; intros; cbn [app index_of]; [lia|]. rewrite IHcs. lia. Qed.

Definition loc_of_text (o : opts) (cs : list Z) : loc :=
  match o_conv o with
  | ConvLineColumn => LineCol (line_of cs) (column_of (o_tab_width o) cs)
  | ConvCharacterIndex => CharIdx (index_of cs)
  end.

Lemma loc_of_text_snoc : forall o cs c, c <> EndOfFile ->
  loc_of_text o (cs ++ [c]) = adv o c (loc_of_text o cs).
Proof.
  intros o cs c Hc. unfold loc_of_text, adv.
  destruct (Z.eqb_spec c EndOfFile); [congruence|].
  destruct (o_conv o).
  - rewrite line_of_snoc. unfold column_of. rewrite last_line_snoc. unfold is_line_end.
    destruct ((c =? 10) || (c =? 13)) eqn:E1; cbn [orb].
    { reflexivity. }
    change CRLF_CHAR with CRLF. destruct (c =? CRLF); [reflexivity|].
    rewrite walk_app. cbn [walk]. destruct (c =? 9); cbn [loc_next]; f_equal; try lia.
    unfold next_tab_stop. lia.
  - rewrite index_of_snoc. change CRLF_CHAR with CRLF.
    destruct ((c =? 10) || (c =? 13)) eqn:E1.
    { cbn. apply orb_true_iff in E1. destruct (Z.eqb_spec c CRLF); [unfold CRLF in *; lia|reflexivity]. }
    destruct (c =? CRLF); [reflexivity|]. destruct (c =? 9); reflexivity.
Qed.

Lemma moves_loc_of_text : forall o bs l cs bs' l', moves o bs l cs bs' l' ->
  forall cs0, l = loc_of_text o cs0 -> l' = loc_of_text o (cs0 ++ cs).
Proof.
  intros o bs l cs bs' l' H; induction H as [|bs l cs bs' l' Hn Hm IH]; intros cs0 E.
  - rewrite app_nil_r; auto.
  - specialize (IH (cs0 ++ [dchar (decode bs)])). rewrite <- app_assoc in IH. apply IH.
    rewrite loc_of_text_snoc; [congruence|]. intros Q; apply decode_eof in Q; congruence.
Qed.

Lemma loc_of_text_nil : forall o, loc_of_text o [] = newSourceLocation (o_conv o).
Proof. intros; unfold loc_of_text; destruct (o_conv o); reflexivity. Qed.
