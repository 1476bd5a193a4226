(** Properties of the reader: C01 - C14.  Statements only; proofs in ReaderProofs. *)
From Coq Require Import String Ascii ZArith List Bool Lia.
From Verif Require Import Base Source WLChar LongNames GenLongNames ByteDecoder CharDecoder SpecText SpecReader Iter
  LongNamesProofs ReaderProofs.
Import ListNotations.
Local Open Scope Z_scope.

Definition default_opts : opts := mkopts ConvLineColumn 4 true true true (fun _ => false).
Lemma default_tab : 0 < o_tab_width default_opts. Proof. reflexivity. Qed.

(** C01 *)
Theorem C01_source_chars_lossless : forall o pol input, 0 < o_tab_width o ->
  exists items s', reads_all (next_source_char o pol) (fun c => c = EndOfFile) (reader_new o input) items s'
    /\ concat (map snd items) = input
    /\ (forall n, exists s'', read_n n (next_source_char o pol) s' = Ok (repeat EndOfFile n, s'') /\ rest (cur s'') = [])
    /\ (pol = TOPLEVEL -> source_chars o input = Ok (map fst items)).
Proof. exact src_reads_all. Qed.
Print Assumptions C01_source_chars_lossless.

Example C01_case : source_chars default_opts [97; 13; 10; 0xC3; 0xA9; 0xFF; 9] =
  Ok [97; CRLF; 0xE9; Unsafe1Byte; 9].
Proof. vm_compute. reflexivity. Qed.

(** C02 *)
Theorem C02_source_chars_scalars : forall o cs, 0 < o_tab_width o -> Forall scalar cs -> ~ In BOM_CHAR cs ->
  source_chars o (encode cs) = Ok (fold_crlf cs).
Proof. exact source_chars_scalars. Qed.
Print Assumptions C02_source_chars_scalars.

Example C02_case : let cs := [97; 13; 10; 0xE9; 0x20AC; 0x1F600; 13] in
  Forall scalar cs /\ ~ In BOM_CHAR cs /\ length (encode cs) = 13%nat /\
  fold_crlf cs = [97; CRLF_CHAR; 0xE9; 0x20AC; 0x1F600; 13].
Proof.
  cbv zeta. split; [repeat constructor; unfold scalar; lia|]. split; [cbn; unfold BOM_CHAR; lia|]. split; reflexivity.
Qed.

(** C03 *)
Theorem C03_unsafe_flag_iff_malformed : forall o bs, 0 < o_tab_width o -> exists cs s',
  read_source_chars o (reader_new o bs) = Ok (cs, s') /\ (l_flag (lg s') = None <-> well_formed_no_bom bs).
Proof. exact flag_iff. Qed.
Print Assumptions C03_unsafe_flag_iff_malformed.

Example C03_case : exists cs s', read_source_chars default_opts (reader_new default_opts [0xE2; 0x82; 97]) = Ok (cs, s')
  /\ l_flag (lg s') = Some IncompleteUTF8Sequence.
Proof. vm_compute. eauto. Qed.

(** C04 *)
Theorem C04_safe_string : forall o bs, 0 < o_tab_width o ->
  (well_formed_no_bom bs -> safe_string o bs = Ok (SOk bs)) /\
  (~ well_formed_no_bom bs -> exists e, safe_string o bs = Ok (SErr e)).
Proof. exact safe_string_spec. Qed.
Print Assumptions C04_safe_string.

Example C04_case : well_formed_no_bom [0xE2; 0x82; 0xAC] /\ safe_string default_opts [0xE2; 0x82; 0xAC] = Ok (SOk [0xE2; 0x82; 0xAC])
  /\ safe_string default_opts [0xED; 0xA0; 0x80] = Ok (SErr StraySurrogate).
Proof.
  split; [exists [0x20AC]; split; [repeat constructor; unfold scalar; lia|split; [cbn; unfold BOM_CHAR; lia|reflexivity]]|].
  split; vm_compute; reflexivity.
Qed.

(** C05 *)
Theorem C05_position_of_text : forall o pol n input, 0 < o_tab_width o ->
  exists cs s' k, read_n n (next_source_char o pol) (reader_new o input) = Ok (cs ++ repeat EndOfFile k, s') /\
    ~ In EndOfFile cs /\ ploc (cur s') = position_of (o_conv o) (o_tab_width o) cs.
Proof. exact position_read. Qed.
Print Assumptions C05_position_of_text.

Example C05_case : exists cs s', read_n 5 (next_source_char default_opts TOPLEVEL) (reader_new default_opts [97; 10; 98; 9; 99]) = Ok (cs, s')
  /\ ploc (cur s') = LineCol 2 6 /\ position_of ConvLineColumn 4 cs = LineCol 2 6.
Proof. vm_compute. eauto. Qed.

(** C06 *)
Theorem C06_position_advances : forall o pol input s c s', 0 < o_tab_width o -> reachable o input s ->
  next_source_char o pol s = Ok (c, s') ->
  (c <> EndOfFile -> before (ploc (cur s)) (ploc (cur s'))) /\ (c = EndOfFile -> ploc (cur s') = ploc (cur s)).
Proof. exact (fun o pol input s c s' Ht Hr => position_advances o pol s c s' (reachable_Inv o input s Ht Hr)). Qed.
Print Assumptions C06_position_advances.

Example C06_case : exists s', next_source_char default_opts TOPLEVEL (reader_new default_opts [13; 10; 97]) = Ok (CRLF, s')
  /\ ploc (cur s') = LineCol 2 1.
Proof. vm_compute. eauto. Qed.

(** C07: any sequence of source peeks (with any policies) leaves the position alone and
    returns the character the next read returns. *)
Theorem C07_peek_source : forall o input s pols, 0 < o_tab_width o -> reachable o input s -> exists c,
  (forall pol, exists s1, next_source_char o pol s = Ok (c, s1)) /\
  exists s', fold_left (fun r pol => match r with Ok (_, s) => peek_source_char o pol s | e => e end) pols (Ok (c, s)) = Ok (c, s')
    /\ cur s' = cur s.
Proof.
  exact (fun o input s pols Ht Hr => match peek_src_many o pols s (reachable_Inv o input s Ht Hr) with
    | ex_intro _ c (conj H (ex_intro _ s' (conj E (conj Ec _)))) => ex_intro _ c (conj H (ex_intro _ s' (conj E Ec))) end).
Qed.
Print Assumptions C07_peek_source.

(** ... and the same for Wolfram characters: after a peek the position is unchanged, a
    following read (with any policy) returns the peeked character and ends where an
    immediate read would have ended. *)
Theorem C07_peek_wolfram : forall o input s pol pol' c s2, 0 < o_tab_width o -> reachable o input s ->
  p_scan pol = false -> p_scan pol' = false -> peek_wolfram_char o pol s = Ok (c, s2) ->
  cur s2 = cur s /\ exists s3, next_wolfram_char o pol' s2 = Ok (c, s3) /\
    exists s1, next_wolfram_char o pol s = Ok (c, s1) /\ rest (cur s3) = rest (cur s1) /\ ploc (cur s3) = ploc (cur s1).
Proof.
  exact (fun o input s pol pol' c s2 Ht Hr Hp Hp' E =>
    match peek_wl_spec o pol pol' s c s2 (reachable_Inv o input s Ht Hr) Hp Hp' E with
    | conj A (conj _ B) => conj A B end).
Qed.
Print Assumptions C07_peek_wolfram.

Example C07_case : exists s2, peek_wolfram_char default_opts TOPLEVEL (reader_new default_opts [92; 91; 80; 105; 93; 120]) =
  Ok (mkwl 0x3C0 ELongName, s2) /\ rest (cur s2) = [92; 91; 80; 105; 93; 120].
Proof. vm_compute. eauto. Qed.

(** C08 *)
Theorem C08_issues_recorded : forall is,
  (length (l_fatal (report_all is)) <= 10)%nat /\
  NoDup (l_fatal (report_all is)) /\ NoDup (l_nonfatal (report_all is)) /\
  (forall i, In i (l_nonfatal (report_all is)) <-> In i is /\ is_fatal i = false) /\
  (forall i, In i (l_fatal (report_all is)) -> In i is /\ is_fatal i = true) /\
  l_nonfatal (report_all is) = first_occurrences [] (filter (fun i => negb (is_fatal i)) is) /\
  l_fatal (report_all is) = firstn 10 (first_occurrences [] (filter is_fatal is)).
Proof. exact issues_recorded. Qed.
Print Assumptions C08_issues_recorded.

Example C08_case : let i k := mkissue UnhandledCharacter Fatal (mkspan (CharIdx k) (CharIdx (k + 1))) in
  length (l_fatal (report_all (map i [1;2;2;3;4;5;6;7;8;9;10;11;12]))) = 10%nat.
Proof. vm_compute. reflexivity. Qed.

(** C09 *)
Theorem C09_wolfram_chars_lossless : forall o pol input, 0 < o_tab_width o -> p_scan pol = false -> ~ has_surrogate_escape input ->
  exists items s', reads_all (next_wolfram_char o pol) (fun c => wc c = EndOfFile) (reader_new o input) items s'
    /\ concat (map snd items) = input
    /\ (pol = TOPLEVEL -> wolfram_chars o input = Ok (map fst items)).
Proof. exact wl_reads_all. Qed.
Print Assumptions C09_wolfram_chars_lossless.

Example C09_case : ~ has_surrogate_escape [92; 58; 48; 48] /\
  wolfram_chars default_opts [92; 58; 48; 48; 92; 110] = Ok [wl 92; wl 58; wl 48; wl 48; mkwl StringMeta_LineFeed ESingle].
Proof.
  split; [|vm_compute; reflexivity].
  intros (pre & suf & E & (ds & r & _ & H & _)).
  assert (length pre + length suf = 4)%nat by (rewrite <- app_length, <- E; reflexivity).
  destruct H as [[-> L]|[-> L]]; cbn in H0; rewrite app_length in H0; lia.
Qed.

(** C10: reading back printed numeric escapes *)
Theorem C10_hex2 : forall o pol input s v r, 0 < o_tab_width o -> reachable o input s -> p_scan pol = false ->
  0 <= v < 256 -> rest (cur s) = [92; 46] ++ print_digits 16 2 v ++ r ->
  exists s', next_wolfram_char o pol s = Ok (mkwl (meaning v) EHex2, s') /\ rest (cur s') = r.
Proof.
  exact (fun o pol input s v r Ht Hr Hp Hv E =>
    let P := print_hex 2 v Hv in
    eq_ind _ (fun w => exists s', next_wolfram_char o pol s = Ok (mkwl (meaning w) EHex2, s') /\ rest (cur s') = r)
      (read_escape o pol s _ _ _ (reachable_Inv o input s Ht Hr) Hp E (es_hex2 _ r (proj1 P))) _ (proj2 P)).
Qed.
Print Assumptions C10_hex2.

Theorem C10_hex4 : forall o pol input s v r, 0 < o_tab_width o -> reachable o input s -> p_scan pol = false ->
  0 <= v < 65536 -> scalar v -> rest (cur s) = [92; 58] ++ print_digits 16 4 v ++ r ->
  exists s', next_wolfram_char o pol s = Ok (mkwl (meaning v) EHex4, s') /\ rest (cur s') = r.
Proof.
  exact (fun o pol input s v r Ht Hr Hp Hv Hs E =>
    let P := print_hex 4 v Hv in
    eq_ind _ (fun w => exists s', next_wolfram_char o pol s = Ok (mkwl (meaning w) EHex4, s') /\ rest (cur s') = r)
      (read_escape o pol s _ _ _ (reachable_Inv o input s Ht Hr) Hp E
        (es_hex4 _ r (proj1 P) (eq_ind _ scalar Hs _ (eq_sym (proj2 P))))) _ (proj2 P)).
Qed.
Print Assumptions C10_hex4.

Theorem C10_hex6 : forall o pol input s v r, 0 < o_tab_width o -> reachable o input s -> p_scan pol = false ->
  0 <= v < 16777216 -> scalar v -> rest (cur s) = [92; 124] ++ print_digits 16 6 v ++ r ->
  exists s', next_wolfram_char o pol s = Ok (mkwl (meaning v) EHex6, s') /\ rest (cur s') = r.
Proof.
  exact (fun o pol input s v r Ht Hr Hp Hv Hs E =>
    let P := print_hex 6 v Hv in
    eq_ind _ (fun w => exists s', next_wolfram_char o pol s = Ok (mkwl (meaning w) EHex6, s') /\ rest (cur s') = r)
      (read_escape o pol s _ _ _ (reachable_Inv o input s Ht Hr) Hp E
        (es_hex6 _ r (proj1 P) (eq_ind _ scalar Hs _ (eq_sym (proj2 P))))) _ (proj2 P)).
Qed.
Print Assumptions C10_hex6.

Theorem C10_octal : forall o pol input s v r, 0 < o_tab_width o -> reachable o input s -> p_scan pol = false ->
  0 <= v < 512 -> rest (cur s) = [92] ++ print_digits 8 3 v ++ r ->
  exists s', next_wolfram_char o pol s = Ok (mkwl (meaning v) EOctal, s') /\ rest (cur s') = r.
Proof.
  exact (fun o pol input s v r Ht Hr Hp Hv E =>
    let P := print_octal 3 v Hv in
    eq_ind _ (fun w => exists s', next_wolfram_char o pol s = Ok (mkwl (meaning w) EOctal, s') /\ rest (cur s') = r)
      (read_escape o pol s _ _ _ (reachable_Inv o input s Ht Hr) Hp E (es_octal _ r (proj1 P))) _ (proj2 P)).
Qed.
Print Assumptions C10_octal.

(** ... and more generally every recognised escape, in any spelling of its digits, reads
    as the character it denotes. *)
Theorem C10_every_escape : forall o pol input s bs c r, 0 < o_tab_width o -> reachable o input s -> p_scan pol = false ->
  rest (cur s) = 92 :: bs -> escape_spec bs c r ->
  exists s', next_wolfram_char o pol s = Ok (c, s') /\ rest (cur s') = r.
Proof. exact (fun o pol input s bs c r Ht Hr => read_escape o pol s bs c r (reachable_Inv o input s Ht Hr)). Qed.
Print Assumptions C10_every_escape.

Example C10_case : exists s', next_wolfram_char default_opts TOPLEVEL
    (reader_new default_opts ([92; 58] ++ print_digits 16 4 0x20AC ++ [48])) = Ok (mkwl 0x20AC EHex4, s') /\ rest (cur s') = [48].
Proof. vm_compute. eauto. Qed.

(** C11 *)
Theorem C11_surrogate_escape_aborts : forall o pol input s, 0 < o_tab_width o -> reachable o input s -> p_scan pol = false ->
  (surrogate_escape (rest (cur s)) -> next_wolfram_char o pol s = Panic) /\
  (~ surrogate_escape (rest (cur s)) -> exists c s', next_wolfram_char o pol s = Ok (c, s')).
Proof.
  exact (fun o pol input s Ht Hr Hp => let HI := reachable_Inv o input s Ht Hr in
    conj (read_surrogate o pol s HI Hp) (read_other o pol s HI Hp)).
Qed.
Print Assumptions C11_surrogate_escape_aborts.

Example C11_case : surrogate_escape [92; 58; 68; 56; 48; 48; 120] /\
  next_wolfram_char default_opts TOPLEVEL (reader_new default_opts [92; 58; 68; 56; 48; 48; 120]) = Panic.
Proof.
  split; [|vm_compute; reflexivity]. exists [68; 56; 48; 48], [120]. split; [repeat constructor|].
  split; [left; split; reflexivity|]. vm_compute. split; discriminate.
Qed.

(** C12 *)
Theorem C12_registered_name : forall o pol input s name p r, 0 < o_tab_width o -> reachable o input s -> p_scan pol = false ->
  In (name, p) LN_TABLE -> rest (cur s) = 92 :: 91 :: name ++ 93 :: r ->
  exists e s', next_wolfram_char o pol s = Ok (mkwl p e, s') /\ rest (cur s') = r /\
    (e = if in_dec (list_eq_dec Z.eq_dec) name RAW_TABLE then ERaw else ELongName).
Proof.
  exact (fun o pol input s name p r Ht Hr Hp HIn E =>
    match read_escape o pol s _ _ _ (reachable_Inv o input s Ht Hr) Hp E (es_name name p r HIn) with
    | ex_intro _ s' (conj A B) => ex_intro _ _ (ex_intro _ s' (conj A (conj B eq_refl))) end).
Qed.
Print Assumptions C12_registered_name.

Theorem C12_unregistered_name : forall o pol input s name r, 0 < o_tab_width o -> reachable o input s -> p_scan pol = false ->
  ~ In 93 name -> (forall p, ~ In (name, p) LN_TABLE) -> rest (cur s) = 92 :: 91 :: name ++ 93 :: r ->
  exists s', next_wolfram_char o pol s = Ok (wl 92, s') /\ rest (cur s') = 91 :: name ++ 93 :: r.
Proof. exact (fun o pol input s name r Ht Hr => read_unregistered o pol s name r (reachable_Inv o input s Ht Hr)). Qed.
Print Assumptions C12_unregistered_name.

Example C12_case : In ([65; 108; 112; 104; 97], 0x3B1) LN_TABLE /\ (forall p, ~ In ([65; 108; 112; 104], p) LN_TABLE).
Proof.
  split; [apply longname_to_codepoint_In; vm_compute; reflexivity|].
  intros p H. apply longname_to_codepoint_In in H. vm_compute in H. discriminate.
Qed.

(** C13 *)
Theorem C13_malformed_escape : forall o pol input s bs, 0 < o_tab_width o -> reachable o input s -> p_scan pol = false ->
  rest (cur s) = 92 :: bs -> (forall c r, ~ escape_spec bs c r) -> ~ surrogate_escape (92 :: bs) ->
  exists s', next_wolfram_char o pol s = Ok (wl 92, s') /\ rest (cur s') = bs.
Proof. exact (fun o pol input s bs Ht Hr => read_no_escape o pol s bs (reachable_Inv o input s Ht Hr)). Qed.
Print Assumptions C13_malformed_escape.

Example C13_case : (forall c r, ~ escape_spec [58; 48; 48; 71; 48] c r) /\ ~ surrogate_escape [92; 58; 48; 48; 71; 48].
Proof. exact no_escape_example. Qed.

(** C14 *)
Theorem C14_tables : 
  (forall name p, longname_to_codepoint name = Some p <-> In (name, p) LN_TABLE) /\
  (forall name p q, In (name, p) LN_TABLE -> In (name, q) LN_TABLE -> p = q) /\
  (forall name, isRaw name = true <-> In name RAW_TABLE) /\
  (forall c, ln_isMBNotStrangeLetterlike c = true <-> In c MB_NOT_STRANGE_LETTERLIKE) /\
  (forall c, ln_isMBPunctuation c = true <-> In c MB_PUNCTUATION) /\
  (forall c, ln_isMBWhitespace c = true <-> In c MB_WHITESPACE) /\
  (forall c, ln_isMBNewline c = true <-> In c MB_NEWLINE) /\
  (forall c, ln_isMBUninterpretable c = true <-> In c MB_UNINTERPRETABLE).
Proof. exact tables_ok. Qed.
Print Assumptions C14_tables.

Example C14_case : longname_to_codepoint (bytes_of_string "CapitalOmega") = Some 0x3A9 /\ (1000 < length LN_TABLE)%nat.
Proof. split; vm_compute; [reflexivity|lia]. Qed.
