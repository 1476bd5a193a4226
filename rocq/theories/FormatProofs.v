(** Every character that can be read can be printed, and the characters [wld] returns. *)
From Coq Require Import String Ascii ZArith List Bool Lia.
From Verif Require Import Base Source GenLongNames LongNames WLChar ByteDecoder CharDecoder Decode SpecText
  TextProofs Logic LongNamesProofs WlDecode SpecReader ReaderProofs Format.
Import ListNotations.
Local Open Scope Z_scope.

(** ** Shape of a read *)
Lemma wld_inv : forall bs c r, wld bs = Some (c, r) ->
  (bs = [] /\ c = wl EndOfFile /\ r = []) \/
  (bs <> [] /\ c = wl (dchar (decode bs)) /\ wc c <> 92 /\ r = drest (decode bs)) \/
  (exists t, bs = 92 :: t /\ escape_spec t c r) \/
  (bs = 92 :: r /\ c = wl 92).
Proof.
  intros bs c r H. destruct bs as [|b t]; [left; cbn in H; injection H as <- <-; auto|]. right.
  unfold wld in H. destruct (Z.eqb_spec (dchar (decode (b :: t))) 92) as [E|N].
  - apply decode_ascii_inv in E; [|lia|lia]. set (x := drest (decode (b :: t))) in *. rewrite E. right.
    destruct (escape_at x) as [|c' r'|] eqn:Ee; [| |discriminate].
    + injection H as <- <-. right. auto.
    + injection H as <- <-. left. exists x. split; auto. apply escape_at_iff. exact Ee.
  - injection H as <- <-. left. split; [discriminate|]. auto.
Qed.

Definition special_chars : list Z :=
  [EndOfFile; LinearSyntax_Space; StringMeta_Open; StringMeta_Close; StringMeta_DoubleQuote; StringMeta_Backslash;
   StringMeta_Backspace; StringMeta_FormFeed; StringMeta_LineFeed; StringMeta_CarriageReturn; StringMeta_Tab;
   CRLF; Unsafe1Byte; Unsafe2Byte; Unsafe3Byte; LineContinuation_LineFeed; LineContinuation_CarriageReturn;
   LineContinuation_CRLF].

Definition point_ok (p : Z) : bool := (between 0 p 0x10ffff && negb (between 0xd800 p 0xdfff)) || zin p special_chars.

Lemma point_ok_scalar : forall p, scalar p -> point_ok p = true.
Proof.
  intros p H. unfold point_ok, between. apply orb_true_iff. left.
  destruct H; repeat rewrite ?andb_true_iff, ?negb_true_iff, ?andb_false_iff, ?Z.leb_le, ?Z.leb_gt; lia.
Qed.

Lemma names_points : forallb (fun e => point_ok (snd e)) LN_TABLE = true.
Proof. vm_compute. reflexivity. Qed.

Lemma decode_point : forall bs, point_ok (dchar (decode bs)) = true.
Proof.
  intros bs. generalize (decode_case bs). generalize (decode bs). intros dd D.
  destruct D as [ |r|c r Hc _ _|r|bs c r u _ Hc _ _]; try reflexivity.
  - apply point_ok_scalar; auto.
  - destruct Hc as [-> |[-> | ->]]; reflexivity.
Qed.

Lemma meaning_point : forall v, scalar v -> point_ok (meaning v) = true.
Proof.
  intros v H. unfold meaning. destruct (v =? 34); [reflexivity|]. destruct (v =? 92); [reflexivity|]. apply point_ok_scalar; auto.
Qed.

Lemma escape_point : forall bs c r, escape_spec bs c r -> point_ok (wc c) = true.
Proof.
  intros bs c r H. destruct H as [b p r H|r|r Hr|name p r H|ds r H|ds r H Hs|ds r H Hs|ds r H]; cbn [wc]; try reflexivity.
  - cbn in H. repeat (destruct H as [H|H]; [injection H as _ <-; reflexivity|]). contradiction.
  - apply (proj1 (forallb_forall _ _) names_points _ H).
  - apply meaning_point. pose proof (hex_range 2 ds H). left. lia.
  - apply meaning_point; auto.
  - apply meaning_point; auto.
  - apply meaning_point. pose proof (octal_range 3 ds H). left. lia.
Qed.

Lemma wld_point : forall bs c r, wld bs = Some (c, r) -> point_ok (wc c) = true.
Proof.
  intros bs c r H. apply wld_inv in H as [(-> & -> & ->)|[(_ & -> & _)|[(t & _ & H)|(_ & ->)]]]; try reflexivity.
  - apply decode_point.
  - eapply escape_point; eauto.
Qed.

Lemma point_ok_cases : forall p, point_ok p = true -> scalar p \/ In p special_chars.
Proof.
  intros p H. apply orb_true_iff in H as [H|H]; [left|right; apply zin_In; auto].
  unfold between in H. repeat rewrite ?andb_true_iff, ?negb_true_iff, ?andb_false_iff, ?Z.leb_le, ?Z.leb_gt in H.
  unfold scalar. lia.
Qed.

(** ** Printing *)
Definition okr {A} (r : res A) : Prop := exists a, r = Ok a.
Lemma okr_Ok : forall A (a : A), okr (Ok a). Proof. intros; exists a; auto. Qed.
Lemma okr_rapp : forall a b, okr a -> okr b -> okr (rapp a b).
Proof. intros a b [x ->] [y ->]. eexists; reflexivity. Qed.
Lemma okr_rconcat : forall l, Forall okr l -> okr (rconcat l).
Proof. induction 1; [apply okr_Ok|]. apply okr_rapp; auto. Qed.

Definition visible (a : Z) : bool := between 0x20 a 0x7e.
Definition prints (f : Z -> res (list Z)) : Prop := forall a, visible a = true -> okr (f a).

Lemma prints_map : forall f l, prints f -> forallb visible l = true -> okr (rconcat (map f l)).
Proof.
  intros f l Hf H. apply okr_rconcat. rewrite forallb_forall in H. apply Forall_forall. intros x Hx.
  apply in_map_iff in Hx as (a & <- & Ha). apply Hf. auto.
Qed.

Lemma fromDigit_visible : forall d, 0 <= d < 16 -> visible (fromDigit d) = true.
Proof.
  intros d H. apply between_iff. unfold fromDigit. destruct (Z.ltb_spec d 10); lia.
Qed.

Lemma digits_of_visible : forall base n i, 1 < base <= 16 -> forallb visible (digits_of base n i) = true.
Proof.
  intros base n. induction n as [|n IH]; intros i H; [reflexivity|]. cbn [digits_of]. rewrite forallb_app, IH; auto. cbn [forallb].
  rewrite fromDigit_visible; auto. pose proof (Z.mod_pos_bound i base). lia.
Qed.

(** What printing needs to know about a character. *)
Definition has_name (p : Z) : bool :=
  match codepoint_to_longname p with Some n => forallb visible (bytes_of_string n) | None => false end.
Definition printable (c : wlchar) : Prop :=
  match wesc c with
  | ENone | ERaw => True
  | ESingle => exists l, single_char (wc c) = Some l /\ forallb visible l = true
  | ELongName => has_name (wc c) = true
  | _ => numeric_value (wc c) <> None
  end.

Lemma numeric_ok : forall f base n lead i, prints f -> forallb visible lead = true -> 1 < base <= 16 ->
  numeric_value i <> None ->
  okr (match numeric_value i with
       | Some v => rconcat (f 92 :: map f (lead ++ digits_of base n v)) | None => Panic end).
Proof.
  intros f base n lead i Hf Hl Hb Hi. destruct (numeric_value i) as [v|]; [|congruence].
  change (f 92 :: map f (lead ++ digits_of base n v)) with (map f (92 :: lead ++ digits_of base n v)).
  apply prints_map; auto. cbn [forallb]. rewrite forallb_app, Hl, digits_of_visible; auto.
Qed.

Lemma display_ok : forall f c, prints f -> printable c ->
  (wesc c = ENone \/ wesc c = ERaw -> okr (f (wc c))) -> okr (display_wl f c).
Proof.
  intros f [p e] Hf Hp Hs. unfold display_wl, printable in *. cbn [wc wesc] in *.
  destruct e; auto.
  - apply okr_rapp; [apply Hf; reflexivity|]. destruct Hp as (l & -> & Hl). apply prints_map; auto.
  - apply (numeric_ok f 16 2 [46]); auto; lia.
  - apply (numeric_ok f 16 4 [58]); auto; lia.
  - apply (numeric_ok f 16 6 [124]); auto; lia.
  - apply (numeric_ok f 8 3 []); auto; lia.
  - unfold has_name in Hp. destruct (codepoint_to_longname p) as [n|]; [|discriminate].
    apply prints_map; auto. cbn [forallb]. rewrite forallb_app, Hp. reflexivity.
Qed.

Lemma all_visible : forall P : Z -> bool, forallb P (map (fun i => 0x20 + Z.of_nat i) (seq 0 95)) = true ->
  forall a, visible a = true -> P a = true.
Proof.
  intros P H a Ha. apply between_iff in Ha. rewrite forallb_forall in H. apply H.
  apply in_map_iff. exists (Z.to_nat (a - 0x20)). split; [lia|]. apply in_seq. lia.
Qed.

Lemma prints_plain : prints display_src_plain.
Proof.
  intros a Ha. apply between_iff in Ha. unfold display_src_plain.
  destruct (Z.eqb_spec a EndOfFile) as [-> |_]; [unfold EndOfFile in Ha; lia|].
  unfold encodeBytes, is_char. destruct (Z.leb_spec 0 a); [apply okr_Ok|lia].
Qed.

Lemma prints_graphical : forall k, prints (display_src_graphical (S k)).
Proof.
  intros k a Ha. assert (H : display_src_graphical (S k) a = Ok [a]).
  { apply between_iff in Ha. cbn [display_src_graphical].
    assert (N : forall c, c < 0x20 \/ 0x7e < c -> (a =? c) = false) by (intros c Hc; apply Z.eqb_neq; lia).
    rewrite !(N _) by (unfold EndOfFile, CRLF, LinearSyntax_Space; lia).
    unfold zin. cbn [existsb]. rewrite !(N _) by (vm_compute; auto). cbn [orb].
    unfold between. destruct (Z.leb_spec 0 a); [|lia]. destruct (Z.leb_spec a 0x1f); [lia|].
    destruct (Z.leb_spec 0x80 a); [lia|]. unfold is_char. destruct (Z.leb_spec 0 a); [|lia].
    destruct (Z.ltb_spec 0x7f a); [lia|]. destruct (Z.ltb_spec 0xffff a); [lia|]. destruct (Z.ltb_spec 0xff a); [lia|].
    cbn [andb negb orb]. unfold encodeBytes, is_char. destruct (Z.leb_spec 0 a); [reflexivity|lia]. }
  rewrite H. apply okr_Ok.
Qed.

Lemma escape_has_name : has_name 0x1b = true.
Proof. vm_compute. reflexivity. Qed.

Lemma cp_names_good : forallb (fun e => forallb visible (bytes_of_string (snd e))) CODEPOINT_TO_LONGNAME = true.
Proof. vm_compute. reflexivity. Qed.

Lemma codepoint_name_visible : forall p n, codepoint_to_longname p = Some n -> forallb visible (bytes_of_string n) = true.
Proof.
  intros p n H. unfold codepoint_to_longname in H.
  destruct (binary_search _ _ _) as [i|] eqn:Ei; [|discriminate]. apply binary_search_some in Ei as [Hi _].
  injection H as <-.
  apply (proj1 (forallb_forall _ _) cp_names_good (nth i CODEPOINT_TO_LONGNAME (0, EmptyString))). apply nth_In. exact Hi.
Qed.

Lemma has_name_some : forall p, match codepoint_to_longname p with Some _ => true | None => false end = true -> has_name p = true.
Proof.
  intros p H. unfold has_name. destruct (codepoint_to_longname p) as [n|] eqn:E; [|discriminate].
  eapply codepoint_name_visible; eauto.
Qed.

Lemma numeric_value_char : forall p, is_char p = true -> numeric_value p <> None.
Proof.
  intros p H. unfold numeric_value. destruct (p =? StringMeta_DoubleQuote); [discriminate|].
  destruct (p =? StringMeta_Backslash); [discriminate|]. rewrite H. discriminate.
Qed.

(** Any character (as opposed to a special value) prints graphically. *)
Lemma graphical_ok : forall k p, is_char p = true -> okr (display_src_graphical (S (S k)) p).
Proof.
  intros k p Hp. assert (Hp' := Hp). unfold is_char in Hp'. apply Z.leb_le in Hp'.
  remember (S k) as k' eqn:Ek. cbn [display_src_graphical]. subst k'.
  assert (W : forall c, printable c -> wesc c <> ENone -> wesc c <> ERaw -> okr (display_wl (display_src_graphical (S k)) c)).
  { intros c Hc N1 N2. apply display_ok; auto; [apply prints_graphical|]. intros [E|E]; contradiction. }
  assert (S1 : forall c l, single_char c = Some l -> forallb visible l = true -> okr (display_wl (display_src_graphical (S k)) (mkwl c ESingle))).
  { intros c l H1 H2. apply W; cbn [wesc]; try discriminate. exists l; auto. }
  assert (N : forall c, c < 0 -> (p =? c) = false) by (intros c Hc; apply Z.eqb_neq; lia).
  rewrite (N EndOfFile) by reflexivity.
  destruct (p =? 8); [eapply S1; reflexivity|].
  destruct (p =? 12); [eapply S1; reflexivity|].
  destruct (p =? 9); [eapply S1; reflexivity|].
  destruct (p =? 10); [eapply S1; reflexivity|].
  destruct (p =? 13); [eapply S1; reflexivity|].
  unfold zin at 1. cbn [existsb]. rewrite !N by reflexivity. cbn [orb].
  unfold zin at 1. cbn [existsb]. rewrite !N by reflexivity. cbn [orb].
  destruct (zin p _) eqn:Ez.
  { apply zin_In in Ez. cbn in Ez. repeat (destruct Ez as [<-|Ez]; [eapply S1; reflexivity|]). contradiction. }
  destruct (p =? 0x1b) eqn:E1b; [apply Z.eqb_eq in E1b; subst; apply W; try discriminate; exact escape_has_name|].
  destruct (_ || _ || _); [apply W; try discriminate; apply numeric_value_char; auto|].
  rewrite Hp. cbn [negb].
  destruct (_ && _) eqn:En; [apply andb_true_iff in En as [_ En]; apply W; try discriminate; apply has_name_some; auto|].
  destruct (0xffff <? p); [apply W; try discriminate; apply numeric_value_char; auto|].
  destruct (0xff <? p); [apply W; try discriminate; apply numeric_value_char; auto|].
  destruct (0x7f <? p); [apply W; try discriminate; apply numeric_value_char; auto|].
  unfold encodeBytes. rewrite Hp. apply okr_Ok.
Qed.

Lemma ln_named : forallb (fun e => isRaw (fst e) || negb (is_char (snd e)) || has_name (snd e)) LN_TABLE = true.
Proof. vm_compute. reflexivity. Qed.

Lemma wld_printable : forall bs c r, wld bs = Some (c, r) -> is_char (wc c) = true -> printable c.
Proof.
  intros bs c r H Hc. apply wld_inv in H as [(_ & -> & _)|[(_ & -> & _)|[(t & _ & H)|(_ & ->)]]]; try exact I.
  destruct H as [b p r H|r|r Hr|name p r H|ds r H|ds r H Hs|ds r H Hs|ds r H]; cbn [wc] in Hc; try discriminate;
    unfold printable; cbn [wc wesc]; try (apply numeric_value_char; exact Hc).
  - cbn in H. repeat (destruct H as [H|H]; [injection H as _ <-; first [discriminate Hc|eexists; split; reflexivity]|]). contradiction.
  - destruct (in_dec _ _ _) as [|Hn]; [exact I|].
    pose proof (proj1 (forallb_forall _ _) ln_named _ H) as G. cbn [fst snd] in G. rewrite Hc in G.
    destruct (isRaw name) eqn:Er; [apply isRaw_In in Er; contradiction|]. exact G.
Qed.

Definition fmt_ok (c : wlchar) : Prop :=
  okr (safeAndGraphicalString c) /\ okr (graphicalString c) /\ okr (certainCharacterReplacementActions c).

Lemma plain_char_ok : forall p, is_char p = true -> okr (display_src_plain p).
Proof.
  intros p H. unfold display_src_plain. destruct (Z.eqb_spec p EndOfFile) as [-> |_]; [discriminate|].
  unfold encodeBytes. rewrite H. apply okr_Ok.
Qed.

Lemma display_plain_ok : forall c, printable c -> is_char (wc c) = true -> okr (display_plain c).
Proof.
  intros c Hp Hc. apply display_ok; auto; [apply prints_plain|]. intros _. apply plain_char_ok; auto.
Qed.

Lemma safe_ok : forall c, printable c -> is_char (wc c) = true -> okr (safeAndGraphicalString c).
Proof.
  intros c Hp Hc. unfold safeAndGraphicalString. pose proof (display_plain_ok c Hp Hc) as D.
  assert (G : okr (graphicalString c)).
  { apply display_ok; auto; [apply prints_graphical|]. intros _. apply graphical_ok; auto. }
  destruct (wesc c); auto. repeat apply okr_rapp; auto; apply okr_Ok.
Qed.

Lemma fmt_ok_printable : forall c, printable c -> is_char (wc c) = true -> fmt_ok c.
Proof.
  intros c Hp Hc. pose proof (safe_ok c Hp Hc) as S. split; auto. split.
  - apply display_ok; auto; [apply prints_graphical|]. intros _. apply graphical_ok; auto.
  - unfold certainCharacterReplacementActions.
    assert (O : forall p, is_char p = true -> okr (rbind (safeAndGraphicalString c) (fun _ => rmap (fun _ => tt) (safeAndGraphicalString (wl p))))).
    { intros p H. destruct S as [x ->]. cbn [rbind]. destruct (safe_ok (wl p) I H) as [y ->]. apply okr_Ok. }
    cbn [switchl]. repeat (destruct (existsb _ _); [apply O; reflexivity|]). apply okr_Ok.
Qed.

Lemma fmt_ok_read : forall bs c r, wld bs = Some (c, r) -> is_char (wc c) = true -> fmt_ok c.
Proof. intros bs c r H Hc. apply fmt_ok_printable; auto. eapply wld_printable; eauto. Qed.
