(** Character ranges as byte ranges: for ASCII input the range of a token gives its text. *)
From Coq Require Import ZArith List Bool Lia.
From Verif Require Import Base Source WLChar ByteDecoder CharDecoder GenTokenKind TokenKind Tokenizer Utils SpecText SpecReader SpecTokenizer
  Decode Iter TextProofs Logic WlDecode TokLogic TokenizerProofs TokenLoop TokSpecs TokResults.
Import ListNotations.
Local Open Scope Z_scope.

Definition ascii_item (i : item) : Prop := i = (CRLF_CHAR, [13; 10]) \/ fst i <> CRLF_CHAR /\ snd i = [fst i].
Lemma ascii_chunks : forall n input, (length input <= n)%nat -> Forall (fun b => 0 <= b < 128) input -> Forall ascii_item (chunks input).
Proof.
  induction n as [|n IH]; intros [|b r] L F; cbn [length] in L; try lia; [constructor|constructor|]. inversion F as [|? ? Hb Fr]; subst.
  rewrite chunks_cons by discriminate. destruct (Z.eq_dec b 13) as [->|N].
  - destruct r as [|x r]; [|destruct (Z.eq_dec x 10) as [->|Nx]].
    + change (decode [13]) with (good_ 13 []). cbv [good_ dchar drest fst snd]. constructor; [right; split; [discriminate|reflexivity]|constructor].
    + rewrite decode_crlf. cbv [good_ dchar drest fst snd]. constructor; [left; reflexivity || (f_equal; apply (buf_between_app [13; 10] r))|]. inversion Fr; subst. apply IH; auto. cbn [length] in L. lia.
    + assert (D : decode (13 :: x :: r) = good_ 13 (x :: r)) by (apply (decode_scalar 13 (x :: r)); [unfold scalar; lia|unfold BOM_CHAR; lia|intros _; exact Nx]). rewrite D. cbv [good_ dchar drest fst snd].
      constructor; [right; split; [discriminate|apply (buf_between_app [13] (x :: r))]|]. apply IH; auto. lia.
  - destruct (decode_ascii_d b r) as [D1 D2]; [lia|lia|]. rewrite D1, D2. constructor; [right; split; [unfold CRLF_CHAR; cbn [fst]; lia|apply (buf_between_app [b] r)]|]. apply IH; auto. lia.
Qed.
Lemma chunks_bytes : forall n input, (length input <= n)%nat -> bytes_of (chunks input) = input.
Proof.
  induction n as [|n IH]; intros [|b r] L; cbn [length] in L; try lia; auto. rewrite chunks_cons by discriminate. unfold bytes_of. cbn [map concat snd].
  destruct (decode_passes (b :: r)) as (pre & E & N & _); [discriminate|]. fold (bytes_of (chunks (drest (decode (b :: r))))). rewrite IH.
  - rewrite E at 1. rewrite buf_between_app. rewrite <- E. reflexivity.
  - apply (f_equal (@length Z)) in E. rewrite app_length in E. cbn [length] in E. destruct pre; [contradiction|]. cbn [length] in E. lia.
Qed.
Lemma ascii_index : forall l, Forall ascii_item l -> index_of (chars_of l) = 1 + zlen (bytes_of l).
Proof.
  intros l F. induction F as [|i l H F IH]; [reflexivity|]. unfold chars_of, bytes_of, zlen in *. cbn [map concat index_of]. rewrite app_length, IH.
  destruct H as [-> |[N E]]; [cbn [fst snd length]; rewrite Z.eqb_refl; lia|]. destruct (Z.eqb_spec (fst i) CRLF_CHAR); [contradiction|]. rewrite E. cbn [length]. lia.
Qed.
Lemma bytes_app : forall a b, bytes_of (a ++ b) = bytes_of a ++ bytes_of b.
Proof. intros. unfold bytes_of. rewrite map_app, concat_app. reflexivity. Qed.
Lemma chars_app : forall a b, chars_of (a ++ b) = chars_of a ++ chars_of b.
Proof. intros. apply map_app. Qed.

Definition in_range (input : list Z) (t : token) : Prop := exists a b u v, t_src t = mkspan (CharIdx a) (CharIdx b) /\ input = u ++ t_text t ++ v /\ to_rust_range (a, b) = Ok (zlen u, zlen (u ++ t_text t)).
Lemma tiles_ranges : forall tw ts gs pre tail, tiles ConvCharacterIndex tw (chars_of pre) ts gs -> Forall ascii_item (pre ++ concat gs ++ tail) -> Forall (in_range (bytes_of (pre ++ concat gs ++ tail))) ts.
Proof.
  intros tw ts. induction ts as [|t ts IH]; intros gs pre tail T F; constructor; destruct gs as [|g gs]; try contradiction; destruct T as [[T1 T2] T]; cbn [concat] in *.
  - rewrite <- app_assoc in *. pose proof F as F'. rewrite app_assoc in F'. apply Forall_app in F' as [F' _]. apply Forall_app in F as [F _]. rewrite <- chars_app in T2. unfold position_of in T2. rewrite !ascii_index in T2 by auto.
    rewrite bytes_app in T2. rewrite <- T1 in T2. exists (1 + zlen (bytes_of pre)), (1 + zlen (bytes_of pre ++ t_text t)), (bytes_of pre), (bytes_of (concat gs ++ tail)). split; auto. split; [rewrite T1, !bytes_app; reflexivity|].
    unfold to_rust_range, zlen. cbn [fst snd]. destruct (Z.ltb_spec 0 (1 + Z.of_nat (length (bytes_of pre)))); [|lia]. destruct (Z.ltb_spec 0 (1 + Z.of_nat (length (bytes_of pre ++ t_text t)))); [|lia]. cbn [andb]. do 2 f_equal; lia.
  - rewrite <- chars_app in T. replace (pre ++ (g ++ concat gs) ++ tail) with ((pre ++ g) ++ concat gs ++ tail) in * by (rewrite !app_assoc; reflexivity). apply (IH gs (pre ++ g) tail); auto.
Qed.

Lemma requests_ranges : forall o input qs ts s', 0 < o_tab_width o -> o_conv o = ConvCharacterIndex -> Forall (fun b => 0 <= b < 128) input -> Forall plain_request qs ->
  ask_all o qs (reader_new o input) = Ok (ts, s') ->
  Forall (fun t => exists a b u v, t_src t = mkspan (CharIdx a) (CharIdx b) /\ input = u ++ t_text t ++ v /\ to_rust_range (a, b) = Ok (zlen u, zlen (u ++ t_text t))) ts.
Proof.
  intros o input qs ts s' Ht Hc F Hq E. destruct (ask_all_tiles _ _ _ _ _ Ht Hq E) as (gs & tail & I & T). apply items_of_unique in I; auto. rewrite Hc in T.
  pose proof (ascii_chunks (length input) input (le_n _) F) as A. rewrite <- I in A. pose proof (tiles_ranges _ _ gs [] tail T A) as H. cbn [app] in H. rewrite I, (chunks_bytes (length input)) in H by auto. exact H.
Qed.
Lemma tokenize_ranges : forall o b input ts s', 0 < o_tab_width o -> o_conv o = ConvCharacterIndex -> Forall (fun b => 0 <= b < 128) input -> tokenize_raw o b input = Ok (ts, s') ->
  Forall (fun t => exists a b u v, t_src t = mkspan (CharIdx a) (CharIdx b) /\ input = u ++ t_text t ++ v /\ to_rust_range (a, b) = Ok (zlen u, zlen (u ++ t_text t))) ts.
Proof.
  intros o b input ts s' Ht Hc F E. destruct (tokenize_tiles _ _ _ _ _ Ht E) as (pre & gs & tail & I & _ & T). apply items_of_unique in I; auto. rewrite Hc in T.
  pose proof (ascii_chunks (length input) input (le_n _) F) as A. rewrite <- I in A. pose proof (tiles_ranges _ _ gs pre tail T A) as H. rewrite I, (chunks_bytes (length input)) in H by auto. exact H.
Qed.
