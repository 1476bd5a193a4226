(** Lemmas behind PropsReader. *)
From Coq Require Import ZArith List Bool Lia.
From Verif Require Import Base Source WLChar LongNames GenLongNames ByteDecoder CharDecoder Decode SpecText SpecReader Iter
  TextProofs Logic LongNamesProofs WlDecode.
Import ListNotations.
Local Open Scope Z_scope.

Lemma reader_new_Inv : forall o input, 0 < o_tab_width o -> Inv o (reader_new o input).
Proof.
  intros o input Ht. unfold Inv, reader_new. cbn [cur rest ploc]. split; auto. split; [intro; discriminate|].
  unfold newSourceLocation. unfold locok. destruct (o_conv o) eqn:E; cbn; repeat split; auto; lia.
Qed.

(** ** Generic run *)
Section Run.
Context {A : Type} (m : M A) (eof : A -> bool) (good : st -> Prop).
Context (Hstep : forall s, good s -> exists a s1, m s = Ok (a, s1) /\ good s1 /\
   (eof a = true <-> rest (cur s) = []) /\
   exists p, rest (cur s) = p ++ rest (cur s1) /\ (rest (cur s) <> [] -> p <> [])).

Lemma run_all : forall n s, (length (rest (cur s)) < n)%nat -> good s ->
  exists items s', reads_all m (fun a => eof a = true) s items s' /\ good s' /\
    concat (map snd items) = rest (cur s) /\ collect n m eof s = Ok (map fst items, s').
Proof using Hstep.
  induction n as [|n IH]; intros s Hn Hg; [lia|].
  destruct (Hstep s Hg) as (a & s1 & E & G1 & He & p & Ep & Hp).
  destruct (eof a) eqn:Ea.
  - assert (R0 : rest (cur s) = []) by (apply He; auto).
    assert (R1 : rest (cur s1) = []) by (rewrite R0 in Ep; destruct p; [auto|discriminate]).
    exists [], s1. split; [econstructor; eauto|]. split; auto. split; [cbn; auto|].
    cbn [collect]. unfold bind. rewrite E, Ea. reflexivity.
  - assert (R0 : rest (cur s) <> []) by (intros Q; apply He in Q; congruence).
    destruct (IH s1) as (items & s' & Hr & G' & Ec & Ek); auto.
    { specialize (Hp R0). rewrite Ep, app_length in Hn. destruct p; [congruence|cbn in Hn; lia]. }
    exists ((a, p) :: items), s'. split; [econstructor; eauto; congruence|]. split; auto.
    split; [cbn; rewrite Ec; auto|]. cbn [collect map fst]. unfold bind. rewrite E, Ea, Ek. reflexivity.
Qed.

Lemma eof_forever : forall n s, good s -> rest (cur s) = [] ->
  exists l s', read_n n m s = Ok (l, s') /\ length l = n /\ Forall (fun a => eof a = true) l /\ rest (cur s') = [] /\ good s'.
Proof using Hstep.
  induction n as [|n IH]; intros s Hg Hr.
  - exists [], s. cbn. auto.
  - destruct (Hstep s Hg) as (a & s1 & E & G1 & He & p & Ep & Hp).
    assert (R1 : rest (cur s1) = []) by (rewrite Hr in Ep; destruct p; [auto|discriminate]).
    destruct (IH s1 G1 R1) as (l & s' & El & Hl & F & R' & G').
    exists (a :: l), s'. cbn [read_n]. unfold bind. rewrite E, El. cbn. repeat split; auto.
    constructor; auto. apply He; auto.
Qed.
End Run.

(** ** Source characters *)
Definition good_src (o : opts) (s : st) : Prop := Inv o s.

Lemma src_step : forall o pol s, Inv o s -> exists a s1, next_source_char o pol s = Ok (a, s1) /\ Inv o s1 /\
   ((a =? EndOfFile) = true <-> rest (cur s) = []) /\
   exists p, rest (cur s) = p ++ rest (cur s1) /\ (rest (cur s) <> [] -> p <> []).
Proof.
  intros o pol s HI. pose proof (wp_next_src False o pol s HI) as H. unfold wpr in H.
  destruct (next_source_char o pol s) as [[a s1]| |] eqn:E; [|contradiction|contradiction].
  - destruct H as (HI1 & HR & Hc & Hr & Hl & Hs & Hw). exists a, s1. split; auto. split; auto. split.
    + rewrite Z.eqb_eq, Hc. apply decode_eof.
    + destruct (R_suffix _ _ _ HR) as [p Hp]. exists p. split; auto. intros Hne ->.
      specialize (Hs Hne). rewrite Hp in Hs. cbn in Hs. lia.
Qed.

Lemma src_reads_all : forall o pol input, 0 < o_tab_width o ->
  exists items s', reads_all (next_source_char o pol) (fun c => c = EndOfFile) (reader_new o input) items s'
    /\ concat (map snd items) = input
    /\ (forall n, exists s'', read_n n (next_source_char o pol) s' = Ok (repeat EndOfFile n, s'') /\ rest (cur s'') = [])
    /\ (pol = TOPLEVEL -> source_chars o input = Ok (map fst items)).
Proof.
  intros o pol input Ht. pose proof (reader_new_Inv o input Ht) as HI.
  destruct (run_all (next_source_char o pol) (fun c => c =? EndOfFile) (Inv o) (src_step o pol)
    (S (length input)) (reader_new o input)) as (items & s' & Hr & HI' & Hc & Hk); auto.
  exists items, s'. split.
  { clear -Hr. induction Hr; [econstructor|econstructor]; eauto; try (apply Z.eqb_eq; auto).
    intros Q. apply H0. apply Z.eqb_eq; auto. }
  split; auto. split.
  - intros n. assert (R0 : rest (cur s') = []) by (clear -Hr; induction Hr; auto).
    destruct (eof_forever (next_source_char o pol) (fun c => c =? EndOfFile) (Inv o) (src_step o pol) n s' HI' R0)
      as (l & s'' & E & Hl & F & R'' & _).
    exists s''. split; auto. rewrite E. f_equal. f_equal. clear -Hl F. revert n Hl. induction F; intros; subst; cbn; auto.
    apply Z.eqb_eq in H. subst. f_equal. auto.
  - intros ->. unfold source_chars, read_source_chars, with_fuel. cbn [reader_new cur rest] in *. rewrite Hk. reflexivity.
Qed.

(** The characters of a full run. *)
Lemma collect_moves : forall o pol n s, (length (rest (cur s)) < n)%nat -> Inv o s ->
  exists cs s', collect n (next_source_char o pol) (fun c => c =? EndOfFile) s = Ok (cs, s') /\ Inv o s' /\
    moves o (rest (cur s)) (ploc (cur s)) cs [] (ploc (cur s')) /\ R o s s' /\ rest (cur s') = [].
Proof.
  intros o pol n. induction n as [|n IH]; intros s Hn HI; [lia|].
  pose proof (wp_next_src False o pol s HI) as H. destruct (src_step o pol s HI) as (a & s1 & E & HI1 & He & p & Ep & Hp).
  unfold wpr in H. rewrite E in H. destruct H as (_ & HR & Hc & Hr & Hl & Hs & Hw).
  cbn [collect]. unfold bind. rewrite E. destruct (a =? EndOfFile) eqn:Ea.
  - assert (R0 : rest (cur s) = []) by (apply He; auto). exists [], s1. split; auto. split; auto.
    assert (ploc (cur s1) = ploc (cur s)) as ->.
    { rewrite Hl. apply Z.eqb_eq in Ea. rewrite Ea. reflexivity. }
    rewrite R0. split; [constructor|]. split; auto. eapply R_nil; eauto.
  - assert (R0 : rest (cur s) <> []) by (intros Q; apply He in Q; congruence).
    destruct (IH s1) as (cs & s' & Ek & HI' & M & HR' & R'); auto.
    { specialize (Hs R0). lia. }
    rewrite Ek. exists (a :: cs), s'. split; auto. split; auto. split; [|split; auto; eapply R_trans; eauto].
    rewrite Hc. constructor; auto. rewrite <- Hr, <- Hc, <- Hl. exact M.
Qed.

Lemma read_source_run : forall o input, 0 < o_tab_width o ->
  exists cs s', read_source_chars o (reader_new o input) = Ok (cs, s') /\
    moves o input (ploc (cur (reader_new o input))) cs [] (ploc (cur s')) /\ R o (reader_new o input) s' /\
    rest (cur s') = [].
Proof.
  intros o input Ht. destruct (collect_moves o TOPLEVEL (S (length input)) (reader_new o input)) as (cs & s' & E & _ & M & HR & R').
  - cbn; lia.
  - apply reader_new_Inv; auto.
  - exists cs, s'. split; auto.
Qed.

Lemma source_chars_scalars : forall o cs, 0 < o_tab_width o -> Forall scalar cs -> ~ In BOM_CHAR cs ->
  source_chars o (encode cs) = Ok (fold_crlf cs).
Proof.
  intros o cs Ht F N. unfold source_chars. destruct (read_source_run o (encode cs) Ht) as (ds & s' & E & M & _ & _).
  rewrite E. cbn. f_equal.
  destruct (moves_encode o cs (ploc (cur (reader_new o (encode cs)))) F N) as [l' M'].
  destruct (moves_det _ _ _ _ _ _ M _ _ M') as [es [E1 M1]].
  inversion M1; subst; [|congruence]. rewrite E1. symmetry; apply app_nil_r.
Qed.

Lemma flag_iff : forall o bs, 0 < o_tab_width o -> exists cs s',
  read_source_chars o (reader_new o bs) = Ok (cs, s') /\ (l_flag (lg s') = None <-> well_formed_no_bom bs).
Proof.
  intros o bs Ht. destruct (read_source_run o bs Ht) as (cs & s' & E & M & HR & R'). exists cs, s'. split; auto.
  rewrite <- (clean_iff _ _ _ _ _ M). destruct HR as [[ds [M2 U]] [_ D]]. cbn [reader_new cur rest ploc] in *.
  split.
  - intros F. destruct (existsb unsafe_char cs) eqn:Eu; auto. exfalso.
    apply U; auto.
    destruct (moves_det _ _ _ _ _ _ M2 _ _ M) as [es [E1 M1]]. rewrite R' in M1.
    inversion M1; subst; [|congruence]. rewrite app_nil_r in Eu. auto.
  - intros F. destruct (l_flag (lg s')) eqn:Ef; auto. exfalso.
    destruct D as [D|D]; [unfold lflag; congruence|apply D; reflexivity|].
    destruct D as (o2 & l2 & ds2 & bs2 & l2' & M3 & U3).
    destruct (moves_chars_indep _ o _ _ _ _ _ M3 (newSourceLocation (o_conv o))) as [l3 M4].
    destruct (moves_det _ _ _ _ _ _ M4 _ _ M) as [es [E1 _]]. rewrite E1, existsb_app, U3 in F. discriminate.
Qed.

Lemma well_formed_no_bom_wf : forall bs, well_formed_no_bom bs -> well_formed bs.
Proof. intros bs (cs & F & _ & E). exists cs. auto. Qed.

Lemma safe_string_spec : forall o bs, 0 < o_tab_width o ->
  (well_formed_no_bom bs -> safe_string o bs = Ok (SOk bs)) /\
  (~ well_formed_no_bom bs -> exists e, safe_string o bs = Ok (SErr e)).
Proof.
  intros o bs Ht. destruct (flag_iff o bs Ht) as (cs & s' & E & Hf). unfold safe_string. rewrite E. split.
  - intros W. apply Hf in W as W'. rewrite W'.
    assert (utf8_valid bs = true) as -> by (apply utf8_valid_iff, well_formed_no_bom_wf; auto). reflexivity.
  - intros N. destruct (l_flag (lg s')) eqn:Ef; [eexists; eauto|]. tauto.
Qed.

(** ** Positions *)
Lemma position_of_loc : forall o cs, position_of (o_conv o) (o_tab_width o) cs = loc_of_text o cs.
Proof. reflexivity. Qed.

Lemma read_n_moves : forall o pol n s, Inv o s ->
  exists cs s' k, read_n n (next_source_char o pol) s = Ok (cs ++ repeat EndOfFile k, s') /\
    Inv o s' /\ moves o (rest (cur s)) (ploc (cur s)) cs (rest (cur s')) (ploc (cur s')) /\
    (k = 0%nat \/ rest (cur s') = []) /\ (length cs + k)%nat = n /\ ~ In EndOfFile cs.
Proof.
  intros o pol n. induction n as [|n IH]; intros s HI.
  - exists [], s, 0%nat. cbn. repeat split; auto; try apply HI. constructor.
  - pose proof (wp_next_src False o pol s HI) as H. destruct (src_step o pol s HI) as (a & s1 & E & HI1 & He & p & Ep & Hp).
    unfold wpr in H. rewrite E in H. destruct H as (_ & HR & Hc & Hr & Hl & Hs & Hw).
    destruct (IH s1 HI1) as (cs & s' & k & E' & HI' & M & Hk & Hlen & Hno).
    cbn [read_n]. unfold bind. rewrite E, E'. unfold ret.
    destruct (Z.eqb_spec a EndOfFile) as [Ea|Na].
    + assert (R0 : rest (cur s) = []) by (apply He; auto).
      assert (R1 : rest (cur s1) = []) by (eapply R_nil; eauto).
      assert (Ll : ploc (cur s1) = ploc (cur s)) by (rewrite Hl, Ea; reflexivity).
      assert (Ecs : cs = [] /\ rest (cur s') = [] /\ ploc (cur s') = ploc (cur s1)).
      { rewrite R1 in M. revert M. generalize (rest (cur s')) (ploc (cur s')). intros r' l' M.
        inversion M; subst; [auto|congruence]. }
      destruct Ecs as (-> & R2 & L2).
      exists [], s', (S k). rewrite Ea. cbn [app repeat]. split; [reflexivity|]. split; [exact HI'|].
      split; [rewrite R0, R2, L2, Ll; constructor|]. split; [auto|]. split; [cbn in *; lia|intros []].
    + assert (R0 : rest (cur s) <> []) by (intros Q; apply He in Q; congruence).
      exists (a :: cs), s', k. cbn [app]. split; [reflexivity|]. split; [exact HI'|]. split.
      { rewrite Hc. constructor; auto. rewrite <- Hr, <- Hc, <- Hl. exact M. }
      split; [auto|]. split; [cbn; lia|]. intros [Q|Q]; auto.
Qed.

Lemma position_read : forall o pol n input, 0 < o_tab_width o ->
  exists cs s' k, read_n n (next_source_char o pol) (reader_new o input) = Ok (cs ++ repeat EndOfFile k, s') /\
    ~ In EndOfFile cs /\ ploc (cur s') = position_of (o_conv o) (o_tab_width o) cs.
Proof.
  intros o pol n input Ht.
  destruct (read_n_moves o pol n (reader_new o input) (reader_new_Inv o input Ht)) as (cs & s' & k & E & _ & M & _ & _ & N).
  exists cs, s', k. split; auto. split; auto. rewrite position_of_loc.
  apply (moves_loc_of_text _ _ _ _ _ _ M []). cbn. symmetry. apply loc_of_text_nil.
Qed.

Lemma loc_lt_before : forall a b, loc_lt a b -> before a b.
Proof.
  intros [l c|i] [l' c'|j] [H N]; cbn in *; try discriminate; injection H as H.
  - rewrite orb_true_iff, andb_true_iff, Z.ltb_lt, Z.eqb_eq, Z.leb_le in H.
    destruct H as [H|[-> H]]; auto. right. split; auto. assert (c <> c') by congruence. lia.
  - apply Z.leb_le in H. assert (i <> j) by congruence. lia.
Qed.

Lemma position_advances : forall o pol s c s', Inv o s -> next_source_char o pol s = Ok (c, s') ->
  (c <> EndOfFile -> before (ploc (cur s)) (ploc (cur s'))) /\ (c = EndOfFile -> ploc (cur s') = ploc (cur s)).
Proof.
  intros o pol s c s' HI E. pose proof (wp_next_src False o pol s HI) as H. unfold wpr in H. rewrite E in H.
  destruct H as (_ & _ & _ & _ & Hl & _). split.
  - intros N. rewrite Hl. apply loc_lt_before, adv_lt; auto; apply HI.
  - intros ->. rewrite Hl. reflexivity.
Qed.

(** ** Wolfram characters *)

Lemma of_number_inv : forall v e r c r', of_number v e r = Esc c r' -> c = mkwl (meaning v) e /\ r' = r /\ from_u32 v <> None.
Proof.
  intros v e r c r'. unfold of_number. destruct (from_u32 v) as [w|] eqn:E; [|discriminate].
  rewrite (from_u32_id _ _ E). intros Q; injection Q as <- <-. repeat split; auto. discriminate.
Qed.

Lemma from_u32_scalar : forall v, 0 <= v -> (from_u32 v <> None <-> scalar v).
Proof.
  intros v H. unfold from_u32, scalar. destruct (between_spec 0xd800 v 0xdfff), (Z.ltb_spec 0x10ffff v); cbn [orb];
  split; intros; try congruence; try lia; discriminate.
Qed.

Lemma of_number_scalar : forall v e r, scalar v -> of_number v e r = Esc (mkwl (meaning v) e) r.
Proof.
  intros v e r H. unfold of_number. assert (E : from_u32 v = Some v) by (apply from_u32_ok; unfold scalar in H; lia).
  rewrite E. reflexivity.
Qed.

Lemma number_range : forall base isd n ds, 0 < base -> (forall b, isd b = true -> 0 <= digit_val b < base) ->
  length ds = n -> Forall (fun d => isd d = true) ds -> 0 <= number base ds < base ^ Z.of_nat n.
Proof.
  intros base isd n ds Hb Hd <- F. pose proof (number_bound base isd Hb Hd ds 0 ltac:(lia) F). unfold number. lia.
Qed.

Lemma hex_range : forall n ds, hex_string n ds -> 0 <= number 16 ds < 16 ^ Z.of_nat n.
Proof. intros n ds [L F]. eapply (number_range 16 is_hex_digit); eauto; [lia|]. intros b H. apply toDigit_hex; auto. Qed.
Lemma octal_range : forall n ds, octal_string n ds -> 0 <= number 8 ds < 8 ^ Z.of_nat n.
Proof. intros n ds [L F]. eapply (number_range 8 is_octal_digit); eauto; [lia|]. intros b H. apply toDigit_octal; auto. Qed.

Lemma isRaw_dec : forall A (name : list Z) (x y : A),
  (if isRaw name then x else y) = if in_dec (list_eq_dec Z.eq_dec) name RAW_TABLE then x else y.
Proof.
  intros. destruct (in_dec (list_eq_dec Z.eq_dec) name RAW_TABLE) as [H|H].
  - apply isRaw_In in H. rewrite H. reflexivity.
  - destruct (isRaw name) eqn:E; auto. apply isRaw_In in E. contradiction.
Qed.

Lemma name_here_spec : forall bs c r, name_here bs = Some (c, r) <->
  exists name p, bs = name ++ 93 :: r /\ In (name, p) LN_TABLE /\
    c = mkwl p (if in_dec (list_eq_dec Z.eq_dec) name RAW_TABLE then ERaw else ELongName).
Proof.
  intros bs c r. split.
  - intros H. unfold name_here in H. pose proof (alnum_run_app bs) as E.
    destruct (alnum_run bs) as [n t]. cbn [fst snd] in E. destruct t as [|b t]; [discriminate|].
    destruct (Z.eqb_spec b 93) as [->|]; [|discriminate].
    destruct (longname_to_codepoint n) as [p|] eqn:El; [|discriminate].
    injection H as <- <-. exists n, p. split; auto. split; [apply longname_to_codepoint_In; auto|].
    rewrite isRaw_dec. reflexivity.
  - intros (name & p & -> & H & ->). apply longname_to_codepoint_In in H.
    pose proof (names_good _ _ H) as G. rewrite name_here_some.
    + rewrite H. rewrite isRaw_dec. reflexivity.
    + unfold good_name in G. destruct name; [discriminate|]. apply andb_true_iff in G. tauto.
Qed.

(** The pure escape decoder is the specified one. *)
Lemma escape_at_ascii : forall b r, 0 <= b < 128 -> b <> 13 -> dchar (decode (b :: r)) = b /\ drest (decode (b :: r)) = r.
Proof. apply decode_ascii_d. Qed.

Lemma escape_spec_at : forall bs c r, escape_spec bs c r -> escape_at bs = Esc c r.
Proof.
  intros bs c r H. destruct H as [b p r H|r|r Hr|name p r H|ds r H|ds r H Hs|ds r H Hs|ds r H].
  - assert (Hb : 0 <= b < 128 /\ b <> 13).
    { cbn in H. repeat (destruct H as [H|H]; [injection H as <- _; lia|]). contradiction. }
    destruct (decode_ascii_d b r (proj1 Hb) (proj2 Hb)) as [D1 D2].
    unfold escape_at. rewrite D1, D2. cbn in H.
    repeat (destruct H as [H|H]; [injection H as <- <-; reflexivity|]). contradiction.
  - reflexivity.
  - unfold escape_at. assert (D : decode (13 :: r) = good_ 13 r).
    { apply (decode_scalar 13 r); [unfold scalar; lia|unfold BOM_CHAR; lia|auto]. }
    rewrite D. reflexivity.
  - destruct (decode_ascii_d 91 (name ++ 93 :: r)) as [D1 D2]; [lia|lia|].
    unfold escape_at. rewrite D1, D2. cbn -[name_here]. 
    assert (N : name_here (name ++ 93 :: r) = Some (mkwl p (if in_dec (list_eq_dec Z.eq_dec) name RAW_TABLE then ERaw else ELongName), r)).
    { apply name_here_spec. eauto 10. }
    rewrite N. reflexivity.
  - destruct (decode_ascii_d 46 (ds ++ r)) as [D1 D2]; [lia|lia|].
    unfold escape_at. rewrite D1, D2. cbn -[digits_here of_number number]. destruct H as [L F].
    rewrite digits_here_app by auto. apply of_number_scalar.
    pose proof (hex_range 2 ds (conj L F)). change (16 ^ Z.of_nat 2) with 256 in H. unfold scalar. lia.
  - destruct (decode_ascii_d 58 (ds ++ r)) as [D1 D2]; [lia|lia|].
    unfold escape_at. rewrite D1, D2. cbn -[digits_here of_number number]. destruct H as [L F].
    rewrite digits_here_app by auto. apply of_number_scalar; auto.
  - destruct (decode_ascii_d 124 (ds ++ r)) as [D1 D2]; [lia|lia|].
    unfold escape_at. rewrite D1, D2. cbn -[digits_here of_number number]. destruct H as [L F].
    rewrite digits_here_app by auto. destruct (Z.ltb_spec 0x10ffff (number 16 ds)); [unfold scalar in Hs; lia|].
    apply of_number_scalar; auto.
  - destruct H as [L F]. pose proof (octal_range 3 ds (conj L F)) as Hr. change (8 ^ Z.of_nat 3) with 512 in Hr.
    pose proof (digits_here_app 3 is_octal_digit ds r L F) as D.
    destruct ds as [|d ds]; [discriminate|]. inversion F; subst.
    assert (Hd : 48 <= d <= 55) by (unfold is_octal_digit in *; rewrite andb_true_iff, !Z.leb_le in *; lia).
    cbn [app] in *.
    destruct (decode_ascii_d d (ds ++ r)) as [D1 D2]; [lia|lia|].
    unfold escape_at. rewrite D, D1, D2. rewrite of_number_scalar by (unfold scalar; lia).
    assert (Hc : d = 48 \/ d = 49 \/ d = 50 \/ d = 51 \/ d = 52 \/ d = 53 \/ d = 54 \/ d = 55) by lia.
    generalize (number 8 (d :: ds)). intros v.
    repeat (destruct Hc as [->|Hc]; [reflexivity|]). subst d. reflexivity.
Qed.

Lemma escape_at_cases : forall bs,
  match escape_at bs with
  | Esc c r => escape_spec bs c r
  | Abort => surrogate_escape (92 :: bs)
  | NoEsc => True
  end.
Proof.
  intros bs. unfold escape_at.
  pose proof (fun k => decode_ascii_inv bs k) as Asc.
  set (c := dchar (decode bs)) in *. set (r := drest (decode bs)) in *.
  assert (Sg : forall p, In (c, p) single_escapes -> escape_spec bs (mkwl p ESingle) r).
  { intros p H. assert (Hb : 0 <= c < 128 /\ c <> 13).
    { cbn in H. repeat (destruct H as [H|H]; [injection H as <- _; lia|]). contradiction. }
    rewrite (Asc c); [|reflexivity|apply Hb|apply Hb]. constructor; auto. }
  rewrite !switchl_cons. cbn [switchl existsb]. rewrite !orb_false_r.
  Ltac oneb := match goal with |- context [if ?x =? ?k then _ else _] => destruct (Z.eqb_spec x k) as [Ek|?] end.
  Ltac sing := match goal with Ek : _ = ?k |- escape_spec _ _ _ => idtac end.
  do 4 (oneb; [match goal with Sg : (forall p, _ -> _), Ek : _ = _ |- _ => apply Sg; rewrite Ek; cbn; tauto end|]).
  oneb; [match goal with Sg : (forall p, _ -> _), Ek : _ = _ |- _ => apply Sg; rewrite Ek; cbn; tauto end|].
  oneb.
  { (* CR *) clear Sg Asc. revert Ek. subst c r. generalize (decode_case bs). generalize (decode bs). intros dd D.
    destruct D as [|r0|c0 r0 Hc0 Hb0 Hn0|r0|bs0 c0 r0 u Hx Hc Hno Hy]; unfold good_; cbn [dchar drest fst snd]; intros Ek; try discriminate.
    - subst c0. change (utf8 13 ++ r0) with (13 :: r0). apply es_cr. auto.
    - unfold Unsafe1Byte, Unsafe2Byte, Unsafe3Byte in *. lia. }
  oneb.
  { (* CRLF *) clear Sg Asc. revert Ek. subst c r. generalize (decode_case bs). generalize (decode bs). intros dd D.
    destruct D as [|r0|c0 r0 Hc0 Hb0 Hn0|r0|bs0 c0 r0 u Hx Hc Hno Hy]; unfold good_; cbn [dchar drest fst snd]; intros Ek; try discriminate.
    - apply es_crlf.
    - unfold scalar, CRLF in *. lia.
    - unfold Unsafe1Byte, Unsafe2Byte, Unsafe3Byte, CRLF in *. lia. }
  oneb.
  { destruct (name_here r) as [[c' r']|] eqn:En; [|exact I].
    rewrite (Asc 91) by (auto; lia). apply name_here_spec in En as (name & p & E & HIn & ->). fold r. rewrite E.
    apply es_name; auto. }
  oneb.
  { destruct (digits_here 4 is_hex_digit r) as [[ds r']|] eqn:En; [|exact I].
    destruct (digits_here_firstn _ _ _ _ _ En) as [_ [E [L F]]].
    pose proof (hex_range 4 ds (conj L F)) as Hr. change (16 ^ Z.of_nat 4) with 65536 in Hr.
    pose proof (Asc 58 Ek ltac:(lia) ltac:(lia)) as Eb. fold r in Eb. rewrite Eb, E.
    unfold of_number. destruct (from_u32 (number 16 ds)) as [w|] eqn:Ew.
    - rewrite (from_u32_id _ _ Ew). apply es_hex4; [split; auto|]. apply from_u32_scalar; [lia|congruence].
    - exists ds, r'. split; auto. split; [left; auto|]. apply from_u32_none in Ew; [exact Ew|lia]. }
  oneb.
  { destruct (digits_here 2 is_hex_digit r) as [[ds r']|] eqn:En; [|exact I].
    destruct (digits_here_firstn _ _ _ _ _ En) as [_ [E [L F]]].
    pose proof (hex_range 2 ds (conj L F)) as Hr. change (16 ^ Z.of_nat 2) with 256 in Hr.
    pose proof (Asc 46 Ek ltac:(lia) ltac:(lia)) as Eb. fold r in Eb. rewrite Eb, E.
    rewrite of_number_scalar by (unfold scalar; lia). apply es_hex2; split; auto. }
  oneb.
  { destruct (digits_here 6 is_hex_digit r) as [[ds r']|] eqn:En; [|exact I].
    destruct (digits_here_firstn _ _ _ _ _ En) as [_ [E [L F]]].
    pose proof (hex_range 6 ds (conj L F)) as Hr.
    pose proof (Asc 124 Ek ltac:(lia) ltac:(lia)) as Eb. fold r in Eb. rewrite Eb, E.
    destruct (Z.ltb_spec 0x10ffff (number 16 ds)); [exact I|].
    unfold of_number. destruct (from_u32 (number 16 ds)) as [w|] eqn:Ew.
    - rewrite (from_u32_id _ _ Ew). apply es_hex6; [split; auto|]. apply from_u32_scalar; [lia|congruence].
    - exists ds, r'. split; auto. split; [right; auto|]. apply from_u32_none in Ew; [exact Ew|lia]. }
  match goal with |- context [if ?x then _ else _] => destruct x eqn:Eo end.
  { destruct (digits_here 3 is_octal_digit bs) as [[ds r']|] eqn:En; [|exact I].
    destruct (digits_here_firstn _ _ _ _ _ En) as [_ [E [L F]]].
    pose proof (octal_range 3 ds (conj L F)) as Hr. change (8 ^ Z.of_nat 3) with 512 in Hr.
    rewrite of_number_scalar by (unfold scalar; lia). rewrite E. apply es_octal; split; auto. }
  do 18 (oneb; [match goal with Sg : (forall p, _ -> _), Ek : _ = _ |- _ => apply Sg; rewrite Ek; cbn; tauto end|]).
  exact I.
Qed.

Lemma escape_at_iff : forall bs c r, escape_at bs = Esc c r <-> escape_spec bs c r.
Proof.
  intros. split; [|apply escape_spec_at]. intros H. pose proof (escape_at_cases bs) as C. rewrite H in C. auto.
Qed.

Lemma escape_at_abort : forall bs, escape_at bs = Abort <-> surrogate_escape (92 :: bs).
Proof.
  intros. split; [|apply surrogate_abort]. intros H. pose proof (escape_at_cases bs) as C. rewrite H in C. auto.
Qed.

Lemma escape_spec_shorter : forall bs c r, escape_spec bs c r -> (length r < length bs)%nat.
Proof.
  intros bs c r H. destruct H as [b p r H|r|r Hr|name p r H|ds r H|ds r H Hs|ds r H Hs|ds r H]; cbn [length]; rewrite ?app_length; cbn [length]; try lia.
  destruct H as [L _]. lia.
Qed.

Lemma escape_spec_not_eof : forall bs c r, escape_spec bs c r -> wc c <> EndOfFile.
Proof.
  intros bs c r H. assert (Hm : forall v, 0 <= v -> meaning v <> EndOfFile).
  { intros v Hv. unfold meaning. destruct (v =? 34); [discriminate|]. destruct (v =? 92); [discriminate|]. unfold EndOfFile; lia. }
  destruct H as [b p r H|r|r Hr|name p r H|ds r H|ds r H Hs|ds r H Hs|ds r H]; cbn [wc]; try discriminate.
  - cbn in H. repeat (destruct H as [H|H]; [injection H as _ <-; discriminate|]). contradiction.
  - assert (G : forallb (fun e => negb (snd e =? EndOfFile)) LN_TABLE = true) by (vm_compute; reflexivity).
    rewrite forallb_forall in G. specialize (G _ H). cbn [snd] in G. apply negb_true_iff, Z.eqb_neq in G. exact G.
  - apply Hm. apply (hex_range 2 ds H).
  - apply Hm. apply (hex_range 4 ds H).
  - apply Hm. apply (hex_range 6 ds H).
  - apply Hm. apply (octal_range 3 ds H).
Qed.

(** [wld] in terms of the specification *)
Lemma wld_cases : forall bs,
  match wld bs with
  | None => surrogate_escape bs
  | Some (c, r) => (bs = [] /\ c = wl EndOfFile /\ r = []) \/
      (bs <> [] /\ wc c <> EndOfFile /\ (length r < length bs)%nat)
  end.
Proof.
  intros bs. unfold wld. destruct (Z.eqb_spec (dchar (decode bs)) 92) as [E|N].
  - apply decode_ascii_inv in E as E'; [|lia|lia]. set (r := drest (decode bs)) in *.
    assert (Hne : bs <> []) by (rewrite E'; discriminate).
    pose proof (escape_at_cases r) as C. destruct (escape_at r) as [|c' r'|].
    + right. split; auto. split; [discriminate|]. rewrite E'. cbn. lia.
    + right. split; auto. split; [eapply escape_spec_not_eof; eauto|]. rewrite E'. apply escape_spec_shorter in C. cbn. lia.
    + rewrite E'. auto.
  - destruct bs as [|b t]; [left; auto|]. right. split; [discriminate|]. split.
    + cbn [wl wc]. intros Q. apply decode_eof in Q. discriminate.
    + apply decode_shorter. discriminate.
Qed.

Lemma next_wolfram_run : forall o pol s, Inv o s -> p_scan pol = false ->
  match wld (rest (cur s)) with
  | Some (c, r) => exists s', next_wolfram_char o pol s = Ok (c, s') /\ rest (cur s') = r /\ Inv o s' /\ R o s s'
  | None => next_wolfram_char o pol s = Panic
  end.
Proof.
  intros o pol s HI Hp. pose proof (next_wolfram_char_wp o pol s HI Hp) as H. unfold wpr in H.
  destruct (next_wolfram_char o pol s) as [[c s']| |] eqn:E; [| |contradiction].
  - destruct H as (HI' & HR & Hw). rewrite Hw. exists s'. auto.
  - rewrite H. auto.
Qed.

(** Only surrogate escapes make a read abort. *)
Definition good_wl (o : opts) (s : st) : Prop := Inv o s /\ ~ has_surrogate_escape (rest (cur s)).

Lemma surr_here : forall bs, surrogate_escape bs -> has_surrogate_escape bs.
Proof. intros bs H. exists [], bs. auto. Qed.

Lemma wl_step : forall o pol, p_scan pol = false -> forall s, good_wl o s ->
  exists a s1, next_wolfram_char o pol s = Ok (a, s1) /\ good_wl o s1 /\
   ((wc a =? EndOfFile) = true <-> rest (cur s) = []) /\
   exists p, rest (cur s) = p ++ rest (cur s1) /\ (rest (cur s) <> [] -> p <> []).
Proof.
  intros o pol Hp s [HI HN]. pose proof (next_wolfram_run o pol s HI Hp) as H. pose proof (wld_cases (rest (cur s))) as W.
  destruct (wld (rest (cur s))) as [[c r]|].
  - destruct H as (s1 & E & Er & HI1 & HR). destruct (R_suffix _ _ _ HR) as [p Ep].
    exists c, s1. split; auto. split.
    { split; auto. intros Q. apply HN. eapply R_surr; eauto. }
    split.
    + rewrite Z.eqb_eq. destruct W as [(E1 & -> & _)|(N & Q & _)]; split; auto; congruence.
    + exists p. split; auto. intros Hne ->. destruct W as [(E1 & _)|(_ & _ & L)]; [congruence|].
      rewrite <- Er in L. cbn in Ep. rewrite Ep in L. lia.
  - exfalso. apply HN, surr_here, W.
Qed.

Lemma wl_reads_all : forall o pol input, 0 < o_tab_width o -> p_scan pol = false -> ~ has_surrogate_escape input ->
  exists items s', reads_all (next_wolfram_char o pol) (fun c => wc c = EndOfFile) (reader_new o input) items s'
    /\ concat (map snd items) = input
    /\ (pol = TOPLEVEL -> wolfram_chars o input = Ok (map fst items)).
Proof.
  intros o pol input Ht Hp HN.
  destruct (run_all (next_wolfram_char o pol) (fun c => wc c =? EndOfFile) (good_wl o) (wl_step o pol Hp)
    (S (length input)) (reader_new o input)) as (items & s' & Hr & HI' & Hc & Hk); auto.
  { split; auto. apply reader_new_Inv; auto. }
  exists items, s'. split.
  { clear -Hr. induction Hr; [econstructor|econstructor]; eauto; try (apply Z.eqb_eq; auto).
    intros Q. apply H0. apply Z.eqb_eq; auto. }
  split; auto.
  intros ->. unfold wolfram_chars, read_wolfram_chars, with_fuel. cbn [reader_new cur rest] in *. rewrite Hk. reflexivity.
Qed.

(** Reading after a backslash. *)
Lemma wld_backslash : forall bs, wld (92 :: bs) =
  match escape_at bs with NoEsc => Some (wl 92, bs) | Esc c r => Some (c, r) | Abort => None end.
Proof.
  intros bs. unfold wld. destruct (decode_ascii_d 92 bs) as [D1 D2]; [lia|lia|]. rewrite D1, D2. reflexivity.
Qed.

Lemma read_escape : forall o pol s bs c r, Inv o s -> p_scan pol = false -> rest (cur s) = 92 :: bs ->
  escape_spec bs c r -> exists s', next_wolfram_char o pol s = Ok (c, s') /\ rest (cur s') = r.
Proof.
  intros o pol s bs c r HI Hp E H. pose proof (next_wolfram_run o pol s HI Hp) as N.
  rewrite E, wld_backslash, (escape_spec_at _ _ _ H) in N. destruct N as (s' & E1 & E2 & _). eauto.
Qed.

Lemma read_no_escape : forall o pol s bs, Inv o s -> p_scan pol = false -> rest (cur s) = 92 :: bs ->
  (forall c r, ~ escape_spec bs c r) -> ~ surrogate_escape (92 :: bs) ->
  exists s', next_wolfram_char o pol s = Ok (wl 92, s') /\ rest (cur s') = bs.
Proof.
  intros o pol s bs HI Hp E H HS. pose proof (next_wolfram_run o pol s HI Hp) as N.
  rewrite E, wld_backslash in N. pose proof (escape_at_cases bs) as C.
  destruct (escape_at bs) as [|c r|]; [|exfalso; eapply H; eauto|contradiction].
  destruct N as (s' & E1 & E2 & _). eauto.
Qed.

Lemma read_surrogate : forall o pol s, Inv o s -> p_scan pol = false -> surrogate_escape (rest (cur s)) ->
  next_wolfram_char o pol s = Panic.
Proof.
  intros o pol s HI Hp H. pose proof (next_wolfram_run o pol s HI Hp) as N.
  assert (exists bs, rest (cur s) = 92 :: bs) as [bs E].
  { destruct H as (ds & r & _ & [[E _]|[E _]] & _); eauto. }
  rewrite E in *. rewrite wld_backslash, (surrogate_abort bs H) in N. auto.
Qed.

Lemma read_other : forall o pol s, Inv o s -> p_scan pol = false -> ~ surrogate_escape (rest (cur s)) ->
  exists c s', next_wolfram_char o pol s = Ok (c, s').
Proof.
  intros o pol s HI Hp H. pose proof (next_wolfram_run o pol s HI Hp) as N. pose proof (wld_cases (rest (cur s))) as W.
  destruct (wld (rest (cur s))) as [[c r]|]; [|contradiction]. destruct N as (s' & E1 & _). eauto.
Qed.

Lemma read_plain : forall o pol s c r, Inv o s -> p_scan pol = false -> scalar c -> c <> BOM_CHAR -> c <> 92 ->
  (c = 13 -> hd 0 r <> 10) -> rest (cur s) = utf8 c ++ r ->
  exists s', next_wolfram_char o pol s = Ok (wl c, s') /\ rest (cur s') = r.
Proof.
  intros o pol s c r HI Hp Hc Hb Hn Hcr E. pose proof (next_wolfram_run o pol s HI Hp) as N.
  unfold wld in N. rewrite E, decode_scalar in N by auto. unfold good_ in N. cbn [dchar drest fst snd] in N.
  destruct (Z.eqb_spec c 92); [congruence|]. destruct N as (s' & E1 & E2 & _). eauto.
Qed.

(** Printing digits. *)
Lemma digit_char_hex : forall d, 0 <= d < 16 -> is_hex_digit (digit_char d) = true /\ digit_val (digit_char d) = d.
Proof.
  intros d H. unfold digit_char, is_hex_digit, digit_val. destruct (Z.ltb_spec d 10).
  - split.
    + rewrite !orb_true_iff, !andb_true_iff, !Z.leb_le. lia.
    + destruct (Z.leb_spec (48 + d) 57); lia.
  - split.
    + rewrite !orb_true_iff, !andb_true_iff, !Z.leb_le. lia.
    + destruct (Z.leb_spec (55 + d) 57); [lia|]. destruct (Z.leb_spec (55 + d) 70); lia.
Qed.

Lemma digit_char_octal : forall d, 0 <= d < 8 -> is_octal_digit (digit_char d) = true /\ digit_val (digit_char d) = d.
Proof.
  intros d H. unfold digit_char, is_octal_digit, digit_val. destruct (Z.ltb_spec d 10); [|lia].
  split; [rewrite andb_true_iff, !Z.leb_le; lia|]. destruct (Z.leb_spec (48 + d) 57); lia.
Qed.

Lemma number_snoc : forall base ds d, number base (ds ++ [d]) = number base ds * base + digit_val d.
Proof. intros. unfold number. rewrite fold_left_app. reflexivity. Qed.

Lemma print_digits_spec : forall base isd, 1 < base ->
  (forall d, 0 <= d < base -> isd (digit_char d) = true /\ digit_val (digit_char d) = d) ->
  forall n v, 0 <= v < base ^ Z.of_nat n ->
  length (print_digits base n v) = n /\ Forall (fun d => isd d = true) (print_digits base n v)
  /\ number base (print_digits base n v) = v.
Proof.
  intros base isd Hb Hd. induction n as [|n IH]; intros v Hv; cbn [print_digits].
  - cbn in Hv. unfold number. cbn. repeat split; auto. lia.
  - rewrite Nat2Z.inj_succ, Z.pow_succ_r in Hv by lia.
    assert (Hq : 0 <= v / base < base ^ Z.of_nat n).
    { split; [apply Z.div_pos; lia|]. apply Z.div_lt_upper_bound; lia. }
    destruct (IH _ Hq) as (L & F & N). pose proof (Z.mod_pos_bound v base ltac:(lia)) as Hm.
    destruct (Hd _ Hm) as [D1 D2]. repeat split.
    + rewrite app_length, L. cbn. lia.
    + apply Forall_app; auto.
    + rewrite number_snoc, N, D2. rewrite Z.mul_comm. symmetry. apply Z.div_mod. lia.
Qed.

Lemma print_hex : forall n v, 0 <= v < 16 ^ Z.of_nat n -> hex_string n (print_digits 16 n v) /\ number 16 (print_digits 16 n v) = v.
Proof.
  intros n v H. destruct (print_digits_spec 16 is_hex_digit ltac:(lia) digit_char_hex n v H) as (L & F & N).
  split; [split|]; auto.
Qed.
Lemma print_octal : forall n v, 0 <= v < 8 ^ Z.of_nat n -> octal_string n (print_digits 8 n v) /\ number 8 (print_digits 8 n v) = v.
Proof.
  intros n v H. destruct (print_digits_spec 8 is_octal_digit ltac:(lia) digit_char_octal n v H) as (L & F & N).
  split; [split|]; auto.
Qed.

(** ** Peeking *)
Lemma peek_src_spec : forall o pol s, Inv o s -> exists c s1 s2, 
  next_source_char o pol s = Ok (c, s1) /\ peek_source_char o pol s = Ok (c, s2) /\ cur s2 = cur s /\ Inv o s2.
Proof.
  intros o pol s HI. destruct (src_step o pol s HI) as (c & s1 & E & HI1 & _).
  exists c, s1, (mkst (cur s) (lg s1)). split; auto. unfold peek_source_char, peek, bind, mark, seek, ret. rewrite E. auto.
Qed.

Lemma src_cur_det : forall o pol pol' s s' c s1, Inv o s -> Inv o s' -> cur s' = cur s ->
  next_source_char o pol s = Ok (c, s1) ->
  exists s1', next_source_char o pol' s' = Ok (c, s1') /\ rest (cur s1') = rest (cur s1) /\ ploc (cur s1') = ploc (cur s1).
Proof.
  intros o pol pol' s s' c s1 HI HI' Ec E.
  pose proof (wp_next_src False o pol s HI) as H. unfold wpr in H. rewrite E in H.
  destruct H as (_ & _ & Hc & Hr & Hl & _).
  pose proof (wp_next_src False o pol' s' HI') as H. unfold wpr in H.
  destruct (next_source_char o pol' s') as [[c' s1']| |]; try contradiction.
  destruct H as (_ & _ & Hc' & Hr' & Hl' & _). rewrite Ec in *.
  exists s1'. subst. repeat split; congruence.
Qed.

Lemma moves_unique : forall o bs l cs bs' l', moves o bs l cs bs' l' ->
  forall ds l2, moves o bs l ds bs' l2 -> ds = cs /\ l2 = l'.
Proof.
  intros o bs l cs bs' l' H; induction H as [bs l|bs l cs bs' l' Hn Hm IH]; intros ds l2 D.
  - inversion D; subst; auto. apply moves_length in H0. pose proof (decode_shorter _ H). lia.
  - inversion D; subst.
    + apply moves_length in Hm. pose proof (decode_shorter _ Hn). lia.
    + destruct (IH _ _ H0) as [-> ->]. auto.
Qed.

Lemma R_ploc_unique : forall o s s' t t', cur t = cur s -> R o s s' -> R o t t' -> rest (cur s') = rest (cur t') ->
  ploc (cur s') = ploc (cur t').
Proof.
  intros o s s' t t' Ec [[cs [M1 _]] _] [[ds [M2 _]] _] E. rewrite Ec in M2. rewrite <- E in M2.
  destruct (moves_unique _ _ _ _ _ _ M1 _ _ M2). auto.
Qed.

Lemma peek_wl_spec : forall o pol pol' s c s2, Inv o s -> p_scan pol = false -> p_scan pol' = false ->
  peek_wolfram_char o pol s = Ok (c, s2) ->
  cur s2 = cur s /\ Inv o s2 /\ exists s3, next_wolfram_char o pol' s2 = Ok (c, s3) /\
    exists s1, next_wolfram_char o pol s = Ok (c, s1) /\ rest (cur s3) = rest (cur s1) /\ ploc (cur s3) = ploc (cur s1).
Proof.
  intros o pol pol' s c s2 HI Hp Hp' E. unfold peek_wolfram_char, peek, bind, mark, seek, ret in E.
  destruct (next_wolfram_char o pol s) as [[c' s1]| |] eqn:E1; try discriminate. injection E as <- <-.
  cbn [cur]. split; auto. assert (HI2 : Inv o (mkst (cur s) (lg s1))) by exact HI. split; auto.
  pose proof (next_wolfram_run o pol s HI Hp) as N1. pose proof (next_wolfram_run o pol' _ HI2 Hp') as N2.
  cbn [cur] in N2. destruct (wld (rest (cur s))) as [[c r]|]; [|congruence].
  destruct N1 as (sa & Ea & Ra & _ & HRa). destruct N2 as (sb & Eb & Rb & _ & HRb).
  rewrite E1 in Ea. injection Ea as -> ->.
  exists sb. split; auto. exists sa. split; auto. split; [congruence|].
  eapply (R_ploc_unique o (mkst (cur s) (lg sa)) sb s sa); eauto. congruence.
Qed.

(** ** Issues *)
Lemma issue_mem_In : forall i l, issue_mem i l = true <-> In i l.
Proof.
  intros i l. unfold issue_mem. rewrite existsb_exists. split.
  - intros (j & H & E). destruct (issue_eq_dec i j); [subst; auto|discriminate].
  - intros H. exists i. split; auto. destruct (issue_eq_dec i i); congruence.
Qed.

Lemma first_occ_ext : forall is a b, (forall x, In x a <-> In x b) -> first_occurrences a is = first_occurrences b is.
Proof.
  induction is as [|i is IH]; intros a b H; cbn; auto.
  destruct (in_dec issue_eq_dec i a), (in_dec issue_eq_dec i b); try (exfalso; firstorder; fail).
  - apply IH; auto.
  - f_equal. apply IH. intros x; cbn; rewrite H; tauto.
Qed.

Lemma add_all : forall is l, (length (l_fatal l) <= 10)%nat ->
  let l' := fold_left (fun l i => addIssue_log i l) is l in
  l_nonfatal l' = l_nonfatal l ++ first_occurrences (l_nonfatal l) (filter (fun i => negb (is_fatal i)) is) /\
  l_fatal l' = l_fatal l ++ firstn (10 - length (l_fatal l)) (first_occurrences (l_fatal l) (filter is_fatal is)).
Proof.
  induction is as [|i is IH]; intros l Hl; cbn [fold_left filter].
  - cbn. rewrite firstn_nil, !app_nil_r. auto.
  - cbv zeta in *.
    assert (C : (is_fatal i = false /\ addIssue_log i l =
        if issue_mem i (l_nonfatal l) then l
        else mklogs (l_flag l) (l_fatal l) (l_nonfatal l ++ [i]) (l_simple_lc l) (l_complex_lc l) (l_embedded_newlines l) (l_embedded_tabs l))
      \/ (is_fatal i = true /\ addIssue_log i l = if (10 <=? zlen (l_fatal l)) then l
        else if issue_mem i (l_fatal l) then l
        else mklogs (l_flag l) (l_fatal l ++ [i]) (l_nonfatal l) (l_simple_lc l) (l_complex_lc l) (l_embedded_newlines l) (l_embedded_tabs l))).
    { unfold is_fatal, addIssue_log. destruct (i_sev i); auto. }
    destruct C as [[F E]|[F E]]; rewrite F; cbn [negb]; rewrite E; clear E.
    + cbn [first_occurrences]. destruct (issue_mem i (l_nonfatal l)) eqn:Em.
      * apply issue_mem_In in Em. destruct (in_dec issue_eq_dec i (l_nonfatal l)); [|contradiction]. apply IH; auto.
      * destruct (in_dec issue_eq_dec i (l_nonfatal l)) as [H|H]; [apply issue_mem_In in H; congruence|].
        destruct (IH (mklogs (l_flag l) (l_fatal l) (l_nonfatal l ++ [i]) (l_simple_lc l) (l_complex_lc l) (l_embedded_newlines l) (l_embedded_tabs l)) Hl) as [I1 I2].
        cbn [l_nonfatal l_fatal] in *. rewrite I1, I2. split; auto. rewrite <- app_assoc. cbn [app]. f_equal. f_equal.
        apply first_occ_ext. intros x. rewrite in_app_iff. cbn. tauto.
    + cbn [first_occurrences]. unfold zlen. destruct (Z.leb_spec 10 (Z.of_nat (length (l_fatal l)))) as [G|G].
      * destruct (IH l Hl) as [I1 I2]. split; auto. rewrite I2.
        replace (10 - length (l_fatal l))%nat with 0%nat by lia. reflexivity.
      * destruct (issue_mem i (l_fatal l)) eqn:Em.
        -- apply issue_mem_In in Em. destruct (in_dec issue_eq_dec i (l_fatal l)); [|contradiction]. apply IH; auto.
        -- destruct (in_dec issue_eq_dec i (l_fatal l)) as [H|H]; [apply issue_mem_In in H; congruence|].
           destruct (IH (mklogs (l_flag l) (l_fatal l ++ [i]) (l_nonfatal l) (l_simple_lc l) (l_complex_lc l) (l_embedded_newlines l) (l_embedded_tabs l))) as [I1 I2].
           { cbn. rewrite app_length. cbn. lia. }
           cbn [l_nonfatal l_fatal] in *. rewrite I1, I2. split; auto. rewrite <- app_assoc. cbn [app]. f_equal.
           rewrite app_length. cbn [length].
           replace (10 - length (l_fatal l))%nat with (S (10 - (length (l_fatal l) + 1)))%nat by lia. cbn [firstn].
           f_equal. f_equal. apply first_occ_ext. intros x. rewrite in_app_iff. cbn. tauto.
Qed.

Lemma report_all_spec : forall is,
  l_nonfatal (report_all is) = first_occurrences [] (filter (fun i => negb (is_fatal i)) is) /\
  l_fatal (report_all is) = firstn 10 (first_occurrences [] (filter is_fatal is)).
Proof. intros is. destruct (add_all is logs0) as [H1 H2]; [cbn; lia|]. split; auto. Qed.

Lemma first_occ_In : forall is seen x, In x (first_occurrences seen is) <-> In x is /\ ~ In x seen.
Proof.
  induction is as [|i is IH]; intros seen x; cbn; [tauto|].
  destruct (in_dec issue_eq_dec i seen).
  - rewrite IH. split; [tauto|]. intros [[->|H] N]; tauto.
  - cbn. rewrite IH. cbn. destruct (issue_eq_dec i x); [subst; tauto|]. tauto.
Qed.

Lemma first_occ_NoDup : forall is seen, NoDup (first_occurrences seen is).
Proof.
  induction is as [|i is IH]; intros seen; cbn; [constructor|].
  destruct (in_dec issue_eq_dec i seen); auto. constructor; auto. rewrite first_occ_In. cbn. tauto.
Qed.

Lemma In_firstn : forall A n (l : list A) x, In x (firstn n l) -> In x l.
Proof. intros A n l x H. rewrite <- (firstn_skipn n l). apply in_or_app. auto. Qed.

Lemma NoDup_firstn : forall A n (l : list A), NoDup l -> NoDup (firstn n l).
Proof.
  intros A n l H. revert n. induction H; intros [|n]; cbn; constructor; auto.
  intros Q. apply In_firstn in Q. contradiction.
Qed.

Lemma issues_recorded : forall is,
  (length (l_fatal (report_all is)) <= 10)%nat /\
  NoDup (l_fatal (report_all is)) /\ NoDup (l_nonfatal (report_all is)) /\
  (forall i, In i (l_nonfatal (report_all is)) <-> In i is /\ is_fatal i = false) /\
  (forall i, In i (l_fatal (report_all is)) -> In i is /\ is_fatal i = true) /\
  l_nonfatal (report_all is) = first_occurrences [] (filter (fun i => negb (is_fatal i)) is) /\
  l_fatal (report_all is) = firstn 10 (first_occurrences [] (filter is_fatal is)).
Proof.
  intros is. destruct (report_all_spec is) as [-> ->]. split; [apply firstn_le_length|].
  split; [apply NoDup_firstn, first_occ_NoDup|]. split; [apply first_occ_NoDup|]. split; [|split; auto].
  - intros i. rewrite first_occ_In, filter_In, negb_true_iff. cbn. tauto.
  - intros i H. apply In_firstn, first_occ_In in H. rewrite filter_In in H. tauto.
Qed.

Lemma reachable_Inv : forall o input s, 0 < o_tab_width o -> reachable o input s -> Inv o s.
Proof.
  intros o input s Ht H. induction H as [|pol s c s' H IH E|pol s c s' H IH E|pol s c s' H IH Hp E|pol s c s' H IH Hp E].
  - apply reader_new_Inv; auto.
  - destruct (src_step o pol s IH) as (a & s1 & E1 & HI1 & _). congruence.
  - destruct (peek_src_spec o pol s IH) as (a & s1 & s2 & _ & E2 & _ & HI2). congruence.
  - pose proof (next_wolfram_run o pol s IH Hp) as N. destruct (wld (rest (cur s))) as [[c' r]|]; [|congruence].
    destruct N as (s1 & E1 & _ & HI1 & _). congruence.
  - destruct (peek_wl_spec o pol pol s c s' IH Hp Hp E) as (_ & HI' & _). auto.
Qed.

(** Any number of peeks. *)
Lemma peek_src_many : forall o pols s, Inv o s -> exists c,
  (forall pol, exists s1, next_source_char o pol s = Ok (c, s1)) /\
  exists s', fold_left (fun r pol => match r with Ok (_, s) => peek_source_char o pol s | e => e end) pols (Ok (c, s)) = Ok (c, s')
    /\ cur s' = cur s /\ Inv o s'.
Proof.
  intros o pols. induction pols as [|p pols IH] using rev_ind; intros s HI.
  - destruct (src_step o TOPLEVEL s HI) as (c & s1 & E & _). exists c. split.
    + intros pol. destruct (src_cur_det o TOPLEVEL pol s s c s1 HI HI eq_refl E) as (s1' & E' & _). eauto.
    + exists s. cbn. auto.
  - destruct (IH s HI) as (c & Hc & s' & E & Ec & HI'). exists c. split; auto.
    rewrite fold_left_app. cbn [fold_left]. rewrite E.
    destruct (peek_src_spec o p s' HI') as (c2 & s1 & s2 & E1 & E2 & Ec2 & HI2).
    destruct (Hc p) as [sa Ea]. destruct (src_cur_det o p p s s' c sa HI HI' Ec Ea) as (sb & Eb & _).
    assert (c2 = c) by congruence. subst c2. exists s2. rewrite E2. split; auto. split; auto. congruence.
Qed.

Lemma escape_at_name : forall r, escape_at (91 :: r) = match name_here r with Some (c, r') => Esc c r' | None => NoEsc end.
Proof.
  intros r. destruct (escape_at_ascii 91 r) as [A B]; [lia|lia|].
  unfold escape_at. rewrite A, B. reflexivity.
Qed.

Lemma app_cut : forall (a b : list Z) x r r', ~ In x a -> ~ In x b -> a ++ x :: r = b ++ x :: r' -> a = b.
Proof.
  induction a as [|y a IH]; intros [|z b] x r r' Ha Hb E; cbn in E; auto.
  - injection E as -> _. cbn in Hb. tauto.
  - injection E as -> _. cbn in Ha. tauto.
  - injection E as -> E. f_equal. eapply IH; eauto; cbn in *; tauto.
Qed.

Lemma good_name_no93 : forall n, good_name n = true -> ~ In 93 n.
Proof.
  intros n H I. unfold good_name in H. apply andb_prop in H as [_ H].
  rewrite forallb_forall in H. apply H in I. discriminate.
Qed.

Lemma read_unregistered : forall o pol s name r, Inv o s -> p_scan pol = false ->
  ~ In 93 name -> (forall p, ~ In (name, p) LN_TABLE) -> rest (cur s) = 92 :: 91 :: name ++ 93 :: r ->
  exists s', next_wolfram_char o pol s = Ok (wl 92, s') /\ rest (cur s') = 91 :: name ++ 93 :: r.
Proof.
  intros o pol s name r HI Hp H93 Hn E.
  assert (K : escape_at (91 :: name ++ 93 :: r) = NoEsc).
  { rewrite escape_at_name. destruct (name_here _) as [[c r']|] eqn:En; auto. exfalso.
    apply name_here_spec in En as (nm & p & E1 & HIn & _).
    assert (~ In 93 nm) by (apply good_name_no93; apply (names_good nm p); apply longname_to_codepoint_In; auto).
    apply app_cut in E1; auto. subst nm. eapply Hn; eauto. }
  apply read_no_escape; auto.
  - intros c r' H. apply escape_spec_at in H. congruence.
  - intros H. apply escape_at_abort in H. congruence.
Qed.

Lemma no_escape_example : (forall c r, ~ escape_spec [58; 48; 48; 71; 48] c r) /\ ~ surrogate_escape [92; 58; 48; 48; 71; 48].
Proof.
  assert (K : escape_at [58; 48; 48; 71; 48] = NoEsc) by (vm_compute; reflexivity).
  split; [intros c r H; apply escape_spec_at in H; congruence|intros H; apply escape_at_abort in H; congruence].
Qed.

Lemma mem_char : forall l c, zsorted l = true -> forallb is_char l = true -> (is_char c && table_mem l c = true <-> In c l).
Proof.
  intros l c S F. rewrite andb_true_iff, (table_mem_In l c S). split; [tauto|]. intros I. split; auto.
  rewrite forallb_forall in F. auto.
Qed.

Lemma tables_ok : 
  (forall name p, longname_to_codepoint name = Some p <-> In (name, p) LN_TABLE) /\
  (forall name p q, In (name, p) LN_TABLE -> In (name, q) LN_TABLE -> p = q) /\
  (forall name, isRaw name = true <-> In name RAW_TABLE) /\
  (forall c, ln_isMBNotStrangeLetterlike c = true <-> In c MB_NOT_STRANGE_LETTERLIKE) /\
  (forall c, ln_isMBPunctuation c = true <-> In c MB_PUNCTUATION) /\
  (forall c, ln_isMBWhitespace c = true <-> In c MB_WHITESPACE) /\
  (forall c, ln_isMBNewline c = true <-> In c MB_NEWLINE) /\
  (forall c, ln_isMBUninterpretable c = true <-> In c MB_UNINTERPRETABLE).
Proof.
  destruct MB_tables_sorted as (S1 & S2 & S3 & S4 & S5).
  split; [exact longname_to_codepoint_In|]. split.
  { intros name p q H1 H2. apply longname_to_codepoint_In in H1, H2. congruence. }
  split; [exact isRaw_In|].
  split; [intros c; exact (mem_char _ c S1 ltac:(vm_compute; reflexivity))|].
  split; [intros c; exact (mem_char _ c S2 ltac:(vm_compute; reflexivity))|].
  split; [intros c; exact (mem_char _ c S3 ltac:(vm_compute; reflexivity))|].
  split; [intros c; exact (table_mem_In _ c S4)|].
  intros c; exact (mem_char _ c S5 ltac:(vm_compute; reflexivity)).
Qed.
