(** Printing an escaped character and reading it back. *)
From Coq Require Import String ZArith List Bool Lia.
From Verif Require Import Base Source WLChar LongNames GenLongNames ByteDecoder CharDecoder Format
  Decode SpecText SpecReader Iter TextProofs Logic LongNamesProofs WlDecode ReaderProofs FormatProofs.
Import ListNotations.
Local Open Scope Z_scope.
Local Notation length := List.length.

Lemma digits_of_spec : forall base isd, 1 < base ->
  (forall d, 0 <= d < base -> isd (fromDigit d) = true /\ digit_val (fromDigit d) = d) ->
  forall n v, 0 <= v < base ^ Z.of_nat n ->
  length (digits_of base n v) = n /\ Forall (fun d => isd d = true) (digits_of base n v)
  /\ number base (digits_of base n v) = v.
Proof.
  intros base isd Hb Hd. induction n as [|n IH]; intros v Hv; cbn [digits_of].
  - cbn in Hv. unfold number. cbn. repeat split; auto. lia.
  - rewrite Nat2Z.inj_succ, Z.pow_succ_r in Hv by lia.
    assert (Hq : 0 <= v / base < base ^ Z.of_nat n).
    { split; [apply Z.div_pos; lia|]. apply Z.div_lt_upper_bound; lia. }
    destruct (IH _ Hq) as (L & F & N). pose proof (Z.mod_pos_bound v base ltac:(lia)) as Hm.
    destruct (Hd _ Hm) as [D1 D2]. repeat split.
    + rewrite app_length, L. cbn. lia.
    + apply Forall_app; auto.
    + rewrite number_snoc, N, D2. rewrite Z.mul_comm. symmetry. apply Z.div_mod. lia.
Qed.

Lemma fromDigit_hex : forall d, 0 <= d < 16 -> is_hex_digit (fromDigit d) = true /\ digit_val (fromDigit d) = d.
Proof.
  intros d H. assert (F : forallb (fun i => let d := Z.of_nat i in is_hex_digit (fromDigit d) && (digit_val (fromDigit d) =? d)) (seq 0 16) = true) by reflexivity.
  rewrite forallb_forall in F. specialize (F (Z.to_nat d)). cbv zeta in F. rewrite Z2Nat.id in F by lia.
  apply andb_true_iff in F as [F1 F2]; [|apply in_seq; lia]. apply Z.eqb_eq in F2. auto.
Qed.
Lemma fromDigit_octal : forall d, 0 <= d < 8 -> is_octal_digit (fromDigit d) = true /\ digit_val (fromDigit d) = d.
Proof.
  intros d H. assert (F : forallb (fun i => let d := Z.of_nat i in is_octal_digit (fromDigit d) && (digit_val (fromDigit d) =? d)) (seq 0 8) = true) by reflexivity.
  rewrite forallb_forall in F. specialize (F (Z.to_nat d)). cbv zeta in F. rewrite Z2Nat.id in F by lia.
  apply andb_true_iff in F as [F1 F2]; [|apply in_seq; lia]. apply Z.eqb_eq in F2. auto.
Qed.

Definition ascii (b : Z) : Prop := 0 <= b < 0x80.
Lemma encode_ascii : forall l, Forall ascii l -> encode l = l.
Proof.
  induction 1 as [|x l H F IH]; auto. unfold encode in *. cbn [map concat]. rewrite IH. unfold utf8, ascii in *.
  destruct (Z.ltb_spec x 128); [auto|lia].
Qed.
Lemma visible_ascii : forall l, forallb visible l = true -> Forall ascii l.
Proof.
  intros l H. rewrite forallb_forall in H. apply Forall_forall. intros x Hx. apply H, between_iff in Hx. unfold ascii. lia.
Qed.

Lemma plain_map : forall l, Forall ascii l -> rconcat (map display_src_plain l) = Ok l.
Proof.
  induction 1 as [|x l H F IH]; auto. cbn [map rconcat]. rewrite IH. unfold display_src_plain, ascii in *.
  destruct (Z.eqb_spec x EndOfFile) as [-> |_]; [unfold EndOfFile in H; lia|]. unfold encodeBytes, is_char.
  destruct (Z.leb_spec 0 x); [reflexivity|lia].
Qed.

(** a registered name that is not raw is printed as itself *)
Lemma names_back : forallb (fun e => isRaw (fst e) ||
    match codepoint_to_longname (snd e) with
    | Some n => (if list_eq_dec Z.eq_dec (bytes_of_string n) (fst e) then true else false)
    | None => false end) LN_TABLE = true.
Proof. vm_compute. reflexivity. Qed.
Lemma ln_ascii : forallb (fun e => forallb visible (fst e)) LN_TABLE = true.
Proof. vm_compute. reflexivity. Qed.
Lemma singles_back : forallb (fun e =>
    match single_char (snd e) with Some l => (if list_eq_dec Z.eq_dec l [fst e] then true else false) | None => false end
    && between 0 (fst e) 0x7f) single_escapes = true.
Proof. vm_compute. reflexivity. Qed.

Lemma numeric_meaning : forall v, 0 <= v -> numeric_value (meaning v) = Some v.
Proof.
  intros v H. unfold meaning. destruct (Z.eqb_spec v 34) as [-> |]; [reflexivity|]. destruct (Z.eqb_spec v 92) as [-> |]; [reflexivity|].
  unfold numeric_value, StringMeta_DoubleQuote, StringMeta_Backslash, is_char. destruct (Z.eqb_spec v (-6)); [lia|]. destruct (Z.eqb_spec v (-7)); [lia|].
  destruct (Z.leb_spec 0 v); [reflexivity|lia].
Qed.

Lemma display_numeric : forall base n lead v, 1 < base <= 16 -> forallb visible lead = true -> 0 <= v ->
  match numeric_value (meaning v) with
  | Some w => rconcat (display_src_plain 92 :: map display_src_plain (lead ++ digits_of base n w)) | None => Panic end =
  Ok (92 :: lead ++ digits_of base n v).
Proof.
  intros base n lead v Hb Hl Hv. rewrite numeric_meaning by auto.
  change (display_src_plain 92 :: map display_src_plain (lead ++ digits_of base n v)) with (map display_src_plain (92 :: lead ++ digits_of base n v)).
  apply plain_map. constructor; [unfold ascii; lia|]. apply Forall_app. split; apply visible_ascii; auto. apply digits_of_visible; auto.
Qed.

Lemma escape_prints : forall t c r0, escape_spec t c r0 -> wesc c <> ERaw ->
  exists out, display_plain c = Ok (92 :: out) /\ encode (92 :: out) = 92 :: out /\
    forall r, hd 0 r <> 10 -> escape_spec (out ++ r) c r.
Proof.
  intros t c r0 H Hraw.
  assert (W : forall out, display_plain c = Ok (92 :: out) -> Forall ascii out -> (forall r, hd 0 r <> 10 -> escape_spec (out ++ r) c r) ->
    exists out, display_plain c = Ok (92 :: out) /\ encode (92 :: out) = 92 :: out /\ forall r, hd 0 r <> 10 -> escape_spec (out ++ r) c r).
  { intros out E F S. exists out. split; auto. split; auto. apply encode_ascii. constructor; auto. unfold ascii; lia. }
  destruct H as [b p r0 H|r0|r0 Hr|name p r0 H|ds r0 H|ds r0 H Hs|ds r0 H Hs|ds r0 H].
  - pose proof (proj1 (forallb_forall _ _) singles_back _ H) as G. cbn [fst snd] in G. apply andb_true_iff in G as [G1 G2].
    destruct (single_char p) as [l|] eqn:El; [|discriminate]. destruct (list_eq_dec Z.eq_dec l [b]) as [-> |]; [|discriminate].
    apply between_iff in G2. apply (W [b]).
    + unfold display_plain, display_wl. cbn [wc wesc]. rewrite El, plain_map; [reflexivity|]. repeat constructor; unfold ascii; lia.
    + repeat constructor; unfold ascii; lia.
    + intros r _. apply es_single. exact H.
  - apply (W [13; 10]); [reflexivity|repeat constructor; unfold ascii; lia|]. intros r _. apply es_crlf.
  - apply (W [13]); [reflexivity|repeat constructor; unfold ascii; lia|]. intros r Hr'. apply es_cr. exact Hr'.
  - cbn [wesc] in Hraw. destruct (in_dec (list_eq_dec Z.eq_dec) name RAW_TABLE) as [|Hn] eqn:Ed; [congruence|]. clear Hraw.
    pose proof (proj1 (forallb_forall _ _) names_back _ H) as G. cbn [fst snd] in G.
    assert (Hr : isRaw name = false) by (destruct (isRaw name) eqn:E; auto; apply isRaw_In in E; contradiction).
    rewrite Hr in G. cbn [orb] in G. destruct (codepoint_to_longname p) as [n|] eqn:En; [|discriminate].
    destruct (list_eq_dec Z.eq_dec (bytes_of_string n) name) as [En'|]; [|discriminate].
    assert (A : Forall ascii name) by (apply visible_ascii; apply (proj1 (forallb_forall _ _) ln_ascii _ H)).
    apply (W (91 :: name ++ [93])).
    + unfold display_plain, display_wl. cbn [wc wesc]. rewrite En, En'. apply plain_map.
      constructor; [unfold ascii; lia|]. constructor; [unfold ascii; lia|]. apply Forall_app. split; auto. repeat constructor; unfold ascii; lia.
    + constructor; [unfold ascii; lia|]. apply Forall_app. split; auto. repeat constructor; unfold ascii; lia.
    + intros r _. pose proof (es_name name p r H) as E. rewrite Ed in E. cbn [app] in *. rewrite <- app_assoc. exact E.
  - pose proof (hex_range 2 ds H) as B. cbn in B. destruct (digits_of_spec 16 is_hex_digit ltac:(lia) fromDigit_hex 2 (number 16 ds) ltac:(lia)) as (L & F & N).
    apply (W (46 :: digits_of 16 2 (number 16 ds))).
    + unfold display_plain, display_wl. cbn [wc wesc]. apply (display_numeric 16 2 [46]); [lia|reflexivity|lia].
    + constructor; [unfold ascii; lia|]. apply visible_ascii, digits_of_visible. lia.
    + intros r _. pose proof (es_hex2 (digits_of 16 2 (number 16 ds)) r (conj L F)) as E. rewrite N in E. exact E.
  - pose proof (hex_range 4 ds H) as B. cbn in B. destruct (digits_of_spec 16 is_hex_digit ltac:(lia) fromDigit_hex 4 (number 16 ds) ltac:(lia)) as (L & F & N).
    apply (W (58 :: digits_of 16 4 (number 16 ds))).
    + unfold display_plain, display_wl. cbn [wc wesc]. apply (display_numeric 16 4 [58]); [lia|reflexivity|lia].
    + constructor; [unfold ascii; lia|]. apply visible_ascii, digits_of_visible. lia.
    + intros r _. pose proof (es_hex4 (digits_of 16 4 (number 16 ds)) r (conj L F)) as E. rewrite N in E. apply E. exact Hs.
  - pose proof (hex_range 6 ds H) as B. cbn in B. destruct (digits_of_spec 16 is_hex_digit ltac:(lia) fromDigit_hex 6 (number 16 ds) ltac:(lia)) as (L & F & N).
    apply (W (124 :: digits_of 16 6 (number 16 ds))).
    + unfold display_plain, display_wl. cbn [wc wesc]. apply (display_numeric 16 6 [124]); [lia|reflexivity|lia].
    + constructor; [unfold ascii; lia|]. apply visible_ascii, digits_of_visible. lia.
    + intros r _. pose proof (es_hex6 (digits_of 16 6 (number 16 ds)) r (conj L F)) as E. rewrite N in E. apply E. exact Hs.
  - pose proof (octal_range 3 ds H) as B. cbn in B. destruct (digits_of_spec 8 is_octal_digit ltac:(lia) fromDigit_octal 3 (number 8 ds) ltac:(lia)) as (L & F & N).
    apply (W (digits_of 8 3 (number 8 ds))).
    + unfold display_plain, display_wl. cbn [wc wesc]. apply (display_numeric 8 3 []); [lia|reflexivity|lia].
    + apply visible_ascii, digits_of_visible. lia.
    + intros r _. pose proof (es_octal (digits_of 8 3 (number 8 ds)) r (conj L F)) as E. rewrite N in E. exact E.
Qed.

(** the same about the reader *)
Lemma read_wld : forall o pol s c s', Inv o s -> p_scan pol = false -> next_wolfram_char o pol s = Ok (c, s') ->
  wld (rest (cur s)) = Some (c, rest (cur s')).
Proof.
  intros o pol s c s' HI Hp E. pose proof (next_wolfram_run o pol s HI Hp) as N. destruct (wld (rest (cur s))) as [[c1 r1]|].
  - destruct N as (s1 & E1 & E2 & _). rewrite E in E1. injection E1 as <- <-. congruence.
  - rewrite E in N. discriminate.
Qed.

Lemma printed_reads_back : forall o pol s c s', Inv o s -> p_scan pol = false -> next_wolfram_char o pol s = Ok (c, s') ->
  wesc c <> ENone -> wesc c <> ERaw ->
  exists txt, display_plain c = Ok txt /\
    forall o2 pol2 s2 r, Inv o2 s2 -> p_scan pol2 = false -> rest (cur s2) = encode txt ++ r -> hd 0 r <> 10 ->
      exists s3, next_wolfram_char o2 pol2 s2 = Ok (c, s3) /\ rest (cur s3) = r.
Proof.
  intros o pol s c s' HI Hp E N1 N2. apply read_wld in E; auto.
  apply wld_inv in E as [(_ & -> & _)|[(_ & -> & _)|[(t & _ & H)|(_ & ->)]]]; try (cbn in N1; congruence).
  destruct (escape_prints _ _ _ H N2) as (out & D & A & S). exists (92 :: out). split; auto.
  intros o2 pol2 s2 r I2 Hp2 Er Hr. rewrite A in Er. cbn [app] in Er. apply (read_escape o2 pol2 s2 (out ++ r)); auto.
Qed.

Lemma read_prints : forall o pol s c s', Inv o s -> p_scan pol = false -> next_wolfram_char o pol s = Ok (c, s') -> 0 <= wc c ->
  (exists t, display_plain c = Ok t) /\ (exists t, graphicalString c = Ok t) /\ (exists t, safeAndGraphicalString c = Ok t).
Proof.
  intros o pol s c s' HI Hp E Hc. apply read_wld in E; auto. assert (Hi : is_char (wc c) = true) by (unfold is_char; apply Z.leb_le; auto).
  pose proof (wld_printable _ _ _ E Hi) as P. destruct (fmt_ok_read _ _ _ E Hi) as (F1 & F2 & _).
  split; [apply display_plain_ok; auto|]. split; auto.
Qed.
