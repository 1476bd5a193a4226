(** Sequences of tokens. *)
From Coq Require Import ZArith List Bool Lia.
From Verif Require Import Base Source WLChar LongNames ByteDecoder CharDecoder Decode SpecText Iter
  TextProofs Logic LongNamesProofs WlDecode SpecReader ReaderProofs GenTokenKind TokenKind Format FormatProofs Tokenizer TokLogic
  TokenizerProofs SpecTokenizer.
Import ListNotations.
Local Open Scope Z_scope.

(** ** Source characters with their bytes *)
Fixpoint chunksf (n : nat) (bs : list Z) : list item :=
  match n with
  | O => []
  | S k => match bs with
           | [] => []
           | _ => (dchar (decode bs), buf_between bs (drest (decode bs))) :: chunksf k (drest (decode bs))
           end
  end.
Definition chunks (bs : list Z) := chunksf (length bs) bs.

Lemma chunksf_fuel : forall n m bs, (length bs <= n)%nat -> (length bs <= m)%nat -> chunksf n bs = chunksf m bs.
Proof.
  induction n as [|n IH]; intros m bs Hn Hm.
  - destruct bs; [|cbn in Hn; lia]. destruct m; reflexivity.
  - destruct m as [|m]; [destruct bs; [reflexivity|cbn in Hm; lia]|]. cbn [chunksf]. destruct bs as [|b t]; auto.
    assert (L : (length (drest (decode (b :: t))) < length (b :: t))%nat) by (apply decode_shorter; discriminate).
    f_equal. apply IH; lia.
Qed.

Lemma chunks_cons : forall bs, bs <> [] -> chunks bs = (dchar (decode bs), buf_between bs (drest (decode bs))) :: chunks (drest (decode bs)).
Proof.
  intros bs Hn. unfold chunks at 1. pose proof (decode_shorter bs Hn). destruct bs as [|b t]; [congruence|].
  cbn [length chunksf]. f_equal. apply chunksf_fuel; cbn [length] in H; lia.
Qed.

Lemma buf_between_eq : forall bs r, (exists p, bs = p ++ r) -> buf_between bs r ++ r = bs.
Proof. intros bs r [p ->]. rewrite buf_between_app. reflexivity. Qed.

Lemma decode_between : forall bs, bs <> [] -> buf_between bs (drest (decode bs)) ++ drest (decode bs) = bs.
Proof. intros bs H. apply buf_between_eq. destruct (decode_suffix bs H) as (p & _ & E). eauto. Qed.

Lemma moves_chunks : forall o bs l cs bs' l', moves o bs l cs bs' l' ->
  exists g, chunks bs = g ++ chunks bs' /\ chars_of g = cs /\ bs = bytes_of g ++ bs'.
Proof.
  intros o bs l cs bs' l' H. induction H as [|bs l cs bs' l' Hn Hm (g & E1 & E2 & E3)].
  - exists []. auto.
  - exists ((dchar (decode bs), buf_between bs (drest (decode bs))) :: g). split; [|split].
    + rewrite chunks_cons by auto. rewrite E1. reflexivity.
    + cbn. f_equal. auto.
    + unfold bytes_of in *. cbn [map snd concat]. rewrite <- app_assoc, <- E3. symmetry. apply decode_between; auto.
Qed.

Lemma reads_all_chunks : forall o pol s items s', Inv o s ->
  reads_all (next_source_char o pol) (fun c => c = EndOfFile) s items s' -> items = chunks (rest (cur s)).
Proof.
  intros o pol s items s' HI H. revert HI. induction H as [s a s' E He R0 R1|s a p s1 l s' E Ha Hp Er H IH]; intros HI.
  - rewrite R0. reflexivity.
  - pose proof (wp_next_src False o pol s HI) as W. unfold wpr in W. rewrite E in W.
    destruct W as (I1 & _ & Hc & Hr & _). rewrite chunks_cons.
    + rewrite (IH I1), Hc, <- Hr. f_equal. f_equal. rewrite Er, buf_between_app. reflexivity.
    + intros E0. apply decode_eof in E0. congruence.
Qed.

Lemma items_of_chunks : forall o input, 0 < o_tab_width o -> items_of o input (chunks input).
Proof.
  intros o input Ht. destruct (src_reads_all o TOPLEVEL input Ht) as (items & s' & Hr & _).
  pose proof (reads_all_chunks o TOPLEVEL _ _ _ (reader_new_Inv o input Ht) Hr) as E. cbn in E. subst items. exists s'. exact Hr.
Qed.

Lemma items_of_unique : forall o input items, 0 < o_tab_width o -> items_of o input items -> items = chunks input.
Proof. intros o input items Ht [s' H]. exact (reads_all_chunks o TOPLEVEL _ _ _ (reader_new_Inv o input Ht) H). Qed.

(** ** One request *)

(** the position after a token *)
Definition after (t : token) : pos :=
  mkpos (skipn (length (t_text t)) (t_start t)) (t_kind t =? TK_EndOfFile) (sp_end (t_src t)).

Lemma skip_eq : forall t s, skip t s = Ok (tt, mkst (after t) (lg s)). Proof. reflexivity. Qed.

(** what kind of token it is *)
Definition kind_ok (q : request) (t : token) (r : list Z) : Prop :=
  (lexable (t_kind t) = true /\ t_text t <> [] /\
   (isUnterminated (t_kind t) = true -> (q = AsFile /\ t_kind t = TK_Error_UnterminatedFileString) \/ r = [])) \/
  (exists g pol, q = AsToken g pol /\ t_kind t = TK_EndOfFile /\ r = [] /\ starts_continuation (t_text t)) \/
  (missing_kind (t_kind t) /\ t_text t = [] /\ (q = AsTag \/ q = AsFile)).

Definition asked (o : opts) (q : request) (s : st) (t : token) (s' : st) : Prop :=
  cur s' = cur s /\ Inv o (mkst (after t) (lg s')) /\ R o s (mkst (after t) (lg s')) /\
  t_start t = rest (cur s) /\ rest (cur s) = t_text t ++ rest (after t) /\
  t_src t = mkspan (ploc (cur s)) (ploc (after t)) /\ kind_ok q t (rest (after t)).

Lemma skipn_app_exact : forall A (a b : list A), skipn (length a) (a ++ b) = b.
Proof. intros A a b. rewrite skipn_app, skipn_all, Nat.sub_diag. reflexivity. Qed.

Lemma asked_base : forall o q s t s2 s', Inv o s -> Inv o s2 -> R o s s2 -> tok_base s t s2 ->
  (isUnterminated (t_kind t) = true -> (q = AsFile /\ t_kind t = TK_Error_UnterminatedFileString) \/ rest (cur s2) = []) ->
  cur s' = cur s -> lg s' = lg s2 -> asked o q s t s'.
Proof.
  intros o q s t s2 s' HI I2 R2 (T1 & T2 & T3 & T4 & T5) TU Ec El.
  destruct (R_suffix _ _ _ R2) as [p Ep].
  assert (Et : t_text t = p) by (rewrite T2, Ep, buf_between_app; reflexivity).
  destruct (lexable_facts _ T4) as (_ & _ & K3).
  assert (Ea : after t = mkpos (rest (cur s2)) false (ploc (cur s2))).
  { unfold after. rewrite T1, T3, Et, Ep, skipn_app_exact, K3. reflexivity. }
  unfold asked. rewrite Ea, El. split; auto. split.
  { destruct I2 as (J1 & J2 & J3). split; auto. split; auto. intros Q. discriminate. }
  split. { apply (R_seek_loc o s s2 s2 false); auto. apply R_refl. }
  cbn [rest ploc]. split; auto. split; [rewrite Et; auto|]. split; auto.
  left. split; auto. split; auto. rewrite Et. intros ->. rewrite Ep in T5. cbn in T5. lia.
Qed.
Lemma asked_tok : forall o q s t s2 s', Inv o s -> Inv o s2 -> R o s s2 -> tok_ok s t s2 -> cur s' = cur s -> lg s' = lg s2 ->
  asked o q s t s'.
Proof. intros o q s t s2 s' HI I2 R2 [T U] Ec El. apply (asked_base _ _ _ _ s2); auto. Qed.
Lemma asked_file : forall o s t s2 s', Inv o s -> Inv o s2 -> R o s s2 -> file_ok s t s2 -> cur s' = cur s -> lg s' = lg s2 ->
  asked o AsFile s t s'.
Proof. intros o s t s2 s' HI I2 R2 [T U] Ec El. apply (asked_base _ _ _ _ s2); auto. intros X. destruct (U X); auto. Qed.

Lemma asked_eof : forall o g pol s t s2 s', Inv o s -> Inv o s2 -> R o s s2 -> eof_tok s t s2 -> cur s' = cur s -> lg s' = lg s2 ->
  asked o (AsToken g pol) s t s'.
Proof.
  intros o g pol s t s2 s' HI I2 R2 (T1 & T2 & T3) Ec El. 
  assert (Ea : after t = mkpos (rest (cur s2)) true (ploc (cur s2))).
  { unfold after. rewrite T1. cbn [t_text t_start t_kind t_src sp_end]. rewrite skipn_all, T2. reflexivity. }
  unfold asked. rewrite Ea, El. split; auto. split.
  { destruct I2 as (J1 & J2 & J3). split; auto. split; auto. intros Q. exact T2. }
  split. { apply (R_seek_loc o s s2 s2 true); auto. apply R_refl. }
  cbn [rest ploc]. rewrite T1, T2. cbn [t_start t_text t_src t_kind]. split; auto. split; [rewrite app_nil_r; auto|]. split; auto.
  right; left. exists g, pol. cbn. auto.
Qed.

Lemma asked_missing : forall o q k s t s2 s', Inv o s -> Inv o s2 -> R o s s2 -> missing s k t -> missing_kind k -> q = AsTag \/ q = AsFile ->
  cur s' = cur s -> lg s' = lg s2 -> asked o q s t s'.
Proof.
  intros o q k s t s2 s' HI I2 R2 T1 Hk Hq Ec El. unfold missing in T1.
  assert (Ek : k =? TK_EndOfFile = false) by (destruct Hk as [-> | ->]; reflexivity).
  assert (Ea : after t = mkpos (rest (cur s)) false (ploc (cur s))).
  { unfold after. rewrite T1. cbn [t_text t_start t_kind t_src sp_end length skipn]. rewrite Ek. reflexivity. }
  unfold asked. rewrite Ea, El. split; auto. split.
  { destruct HI as (J1 & J2 & J3). split; auto. split; auto. intros Q. discriminate. }
  split. { apply (R_seek_loc o s s s2 false); auto. apply R_refl. }
  cbn [rest ploc]. rewrite T1. cbn [t_start t_text t_src t_kind]. split; auto. split; auto. split; auto.
  right; right. cbn. auto.
Qed.

Notation SE s := (has_surrogate_escape (rest (cur s))).

Lemma ask_ok : forall o q s, Inv o s -> plain_request q -> wpr (SE s) o s (ask o q) s (asked o q s).
Proof.
  intros o q s HI Hq. destruct q as [g pol| |]; cbn [ask].
  - unfold peek_token_with. eapply wpr_peek; [auto|apply R_refl|apply nextToken_ok; auto|].
    + destruct g; auto.
    + cbn beta. intros t s2 s' Ec R2 I2 [T|T] El I' R' _; [apply (asked_tok _ _ _ _ s2); auto|apply (asked_eof _ _ _ _ _ s2); auto].
  - unfold peek_token_as_tag. eapply wpr_peek; [auto|apply R_refl|apply nextToken_stringifyAsTag_ok; auto|].
    cbn beta. intros t s2 s' Ec R2 I2 [T|T] El I' R' _; [apply (asked_missing o AsTag TK_Error_ExpectedTag _ _ s2); auto; left; auto|apply (asked_tok _ _ _ _ s2); auto].
  - unfold peek_token_as_file. eapply wpr_peek; [auto|apply R_refl|apply nextToken_stringifyAsFile_ok; auto|].
    cbn beta. intros t s2 s' Ec R2 I2 [T|T] El I' R' _; [apply (asked_missing o AsFile TK_Error_ExpectedFile _ _ s2); auto; right; auto|apply (asked_file _ _ _ s2); auto].
Qed.

(** the rule for a request followed by anything *)
Lemma W_ask : forall o q B (k : token -> M B) s0 s Q, Inv o s -> R o s0 s -> plain_request q ->
  (forall t s', Inv o s' -> R o s s' -> R o s0 s' -> asked o q s t s' -> wpr (SE s0) o s0 (k t) s' Q) ->
  wpr (SE s0) o s0 (bind (ask o q) k) s Q.
Proof.
  intros o q B k s0 s Q HI HR Hq HQ. apply wpr_bind. eapply wpr_call; [exact HR| |].
  - eapply wpr_mono; [|apply ask_ok; auto]. apply (R_surr o); auto.
  - cbn beta. intros t s' I' R1 R2 H. apply HQ; auto.
Qed.

Lemma W_skip : forall o q B (k : unit -> M B) s0 s t s' Q, asked o q s t s' -> R o s0 s ->
  (Inv o (mkst (after t) (lg s')) -> R o s0 (mkst (after t) (lg s')) -> wpr (SE s0) o s0 (k tt) (mkst (after t) (lg s')) Q) ->
  wpr (SE s0) o s0 (bind (skip t) k) s' Q.
Proof.
  intros o q B k s0 s t s' Q (A1 & A2 & A3 & _) HR HQ. apply wpr_bind. unfold wpr at 1. rewrite skip_eq.
  assert (R1 : R o s0 (mkst (after t) (lg s'))) by (eapply R_trans; eauto). auto.
Qed.

(** ** Sequences *)
(** the state [s'] is reached from [s] over the tokens [ts] *)
Definition tiled (o : opts) (s : st) (ts : list token) (s' : st) : Prop :=
  exists gs, chunks (rest (cur s)) = concat gs ++ chunks (rest (cur s')) /\
  rest (cur s) = concat (map t_text ts) ++ rest (cur s') /\
  forall before, ploc (cur s) = loc_of_text o before ->
    tiles (o_conv o) (o_tab_width o) before ts gs /\ ploc (cur s') = loc_of_text o (before ++ chars_of (concat gs)).

Lemma tiled_nil : forall o s s', rest (cur s') = rest (cur s) -> ploc (cur s') = ploc (cur s) -> tiled o s [] s'.
Proof.
  intros o s s' E1 E2. exists []. rewrite E1, E2. split; auto. split; auto. intros before H. cbn. rewrite app_nil_r. auto.
Qed.

Lemma tiled_cons : forall o q s t s' ts s2, asked o q s t s' -> tiled o (mkst (after t) (lg s')) ts s2 -> tiled o s (t :: ts) s2.
Proof.
  intros o q s t s' ts s2 (A1 & A2 & A3 & A4 & A5 & A6 & A7) (gs & E1 & E2 & E3). cbn [cur] in *.
  destruct A3 as [[cs [Mv _]] _]. cbn [cur] in Mv. destruct (moves_chunks _ _ _ _ _ _ Mv) as (g & G1 & G2 & G3).
  exists (g :: gs). split; [|split].
  - cbn [concat]. rewrite <- app_assoc, <- E1. auto.
  - cbn [map concat]. rewrite <- app_assoc, <- E2. auto.
  - intros before Hb. pose proof (moves_loc_of_text _ _ _ _ _ _ Mv before Hb) as Hl. destruct (E3 _ Hl) as [T1 T2].
    split.
    + cbn [tiles]. rewrite G2. split; auto. split.
      * apply (app_inv_tail (rest (after t))). congruence.
      * rewrite G2, !position_of_loc, <- Hb, <- Hl. auto.
    + rewrite T2, <- G2, app_assoc_reverse. unfold chars_of. cbn [concat]. rewrite map_app. reflexivity.
Qed.

Lemma ask_all_ok : forall o qs s0 s, Inv o s -> R o s0 s -> Forall plain_request qs ->
  wpr (SE s0) o s0 (ask_all o qs) s (fun ts s' => tiled o s ts s' /\ length ts = length qs /\
     Forall2 (fun q t => exists r, kind_ok q t r) qs ts).
Proof.
  intros o qs. induction qs as [|q qs IH]; intros s0 s HI HR Hq; cbn [ask_all].
  - apply wpr_ret; auto. split; [apply tiled_nil; auto|]. auto.
  - inversion Hq; subst. apply W_ask; auto. intros t s' I' R1 R2 A. eapply W_skip; [eassumption|eassumption|]. intros I3 R3.
    apply wpr_bind. eapply wpr_conseq; [apply IH; auto|]. cbn beta. intros ts s2 I2 R4 (T & L & F).
    apply wpr_ret; auto. split; [eapply tiled_cons; eauto|]. split; [cbn; auto|]. constructor; auto. exists (rest (after t)). apply A.
Qed.

Definition top_req := AsToken false TOPLEVEL.
Lemma peek_token_ask : forall o, peek_token o false = ask o top_req. Proof. reflexivity. Qed.

Lemma eof_kind : forall t r g pol, kind_ok (AsToken g pol) t r -> t_kind t =? TK_EndOfFile = true ->
  r = [] /\ starts_continuation (t_text t).
Proof.
  intros t r g pol [[H _]|[(g' & pol' & _ & _ & H)|(_ & _ & [H|H])]] E; try discriminate; auto.
  destruct (lexable_facts _ H) as (_ & _ & K). congruence.
Qed.
Lemma other_kind : forall t r g pol, kind_ok (AsToken g pol) t r -> t_kind t =? TK_EndOfFile = false ->
  lexable (t_kind t) = true /\ t_text t <> [].
Proof.
  intros t r g pol [(H1 & H2 & H3)|[(g' & pol' & _ & H & _)|(_ & _ & [H|H])]] E; try discriminate; auto. rewrite H in E. discriminate.
Qed.
(** an unterminated token runs to the end of the input *)
Lemma open_kind : forall t r g pol, kind_ok (AsToken g pol) t r -> isUnterminated (t_kind t) = true -> r = [].
Proof.
  intros t r g pol [(H1 & H2 & H3)|[(g' & pol' & _ & H & H' & _)|(_ & _ & [H|H])]] E; try discriminate; auto.
  destruct (H3 E) as [[Y _]|Y]; [discriminate|auto].
Qed.

(** a state in front of the end-of-file token, reached by a peek from a state at the same position *)
Definition at_end (o : opts) (s : st) : Prop :=
  exists s1 t, cur s1 = cur s /\ Inv o s1 /\ ask o top_req s1 = Ok (t, s) /\ t_kind t = TK_EndOfFile /\
    t_text t = rest (cur s) /\ starts_continuation (rest (cur s)).

Lemma W_ask_eq : forall o q B (k : token -> M B) s0 s Q, Inv o s -> R o s0 s -> plain_request q ->
  (forall t s', ask o q s = Ok (t, s') -> Inv o s' -> R o s s' -> R o s0 s' -> asked o q s t s' -> wpr (SE s0) o s0 (k t) s' Q) ->
  wpr (SE s0) o s0 (bind (ask o q) k) s Q.
Proof.
  intros o q B k s0 s Q HI HR Hq HQ. pose proof (ask_ok o q s HI Hq) as H. apply wpr_bind. unfold wpr at 1. unfold wpr in H.
  destruct (ask o q s) as [[t s']| |]; auto; [|apply (R_surr o s0 s); auto].
  destruct H as (I' & R' & A). assert (R2 : R o s0 s') by (eapply R_trans; eauto). split; auto.
Qed.

Definition plain_token (t : token) : Prop := lexable (t_kind t) = true /\ t_text t <> [].

Lemma tokens_loop_ok : forall o fuel s0 s, Inv o s -> R o s0 s -> (length (rest (cur s)) < fuel)%nat ->
  wpr (SE s0) o s0 (tokens_loop o fuel) s (fun ts s' => tiled o s ts s' /\ Forall plain_token ts /\ at_end o s').
Proof.
  intros o fuel. induction fuel as [|k IH]; intros s0 s HI HR Hf; [lia|]. cbn [tokens_loop].
  rewrite peek_token_ask. apply W_ask_eq; [auto|auto|reflexivity|]. intros t s' Ea I' R1 R2 A.
  destruct (t_kind t =? TK_EndOfFile) eqn:Ek.
  - destruct A as (A1 & A2 & A3 & A4 & A5 & A6 & A7). destruct (eof_kind _ _ _ _ A7 Ek) as [E0 Ec].
    assert (Et : t_text t = rest (cur s)) by (rewrite E0, app_nil_r in A5; auto).
    apply wpr_ret; auto. split; [apply tiled_nil; congruence|]. split; auto.
    apply Z.eqb_eq in Ek. exists s, t. rewrite A1, Et in *. auto 10.
  - eapply W_skip; [eassumption|eassumption|]. intros I3 R3. apply wpr_bind. pose proof A as (A1 & A2 & A3 & A4 & A5 & A6 & A7).
    destruct (other_kind _ _ _ _ A7 Ek) as [L1 L2].
    eapply wpr_conseq; [apply IH; auto|].
    + cbn [cur]. rewrite A5, app_length in Hf. destruct (t_text t); [congruence|cbn [length] in Hf; lia].
    + cbn beta. intros ts s2 I2 R4 (T & F & E). apply wpr_ret; auto. split; [eapply tiled_cons; eauto|]. split; auto. constructor; auto. split; auto.
Qed.

Lemma skip_line_loop_ok : forall o fuel s0 s, Inv o s -> R o s0 s -> (length (rest (cur s)) < fuel)%nat ->
  wpr (SE s0) o s0 (skip_line_loop o fuel) s (fun _ s' => exists ts, tiled o s ts s' /\ Forall plain_token ts /\
    ((Forall (fun t => t_kind t <> TK_ToplevelNewline) ts /\ at_end o s') \/
     (exists ts' t, ts = ts' ++ [t] /\ Forall (fun t => t_kind t <> TK_ToplevelNewline) ts' /\ t_kind t = TK_ToplevelNewline))).
Proof.
  intros o fuel. induction fuel as [|k IH]; intros s0 s HI HR Hf; [lia|]. cbn [skip_line_loop].
  rewrite peek_token_ask. apply W_ask_eq; [auto|auto|reflexivity|]. intros t s' Ea I' R1 R2 A.
  pose proof A as (A1 & A2 & A3 & A4 & A5 & A6 & A7).
  destruct (t_kind t =? TK_EndOfFile) eqn:Ek.
  { destruct (eof_kind _ _ _ _ A7 Ek) as [E0 Ec].
    assert (Et : t_text t = rest (cur s)) by (rewrite E0, app_nil_r in A5; auto).
    apply wpr_ret; auto. exists []. split; [apply tiled_nil; congruence|]. split; auto. left. split; auto.
    apply Z.eqb_eq in Ek. exists s, t. rewrite A1, Et in *. auto 10. }
  destruct (other_kind _ _ _ _ A7 Ek) as [L1 L2].
  destruct (t_kind t =? TK_ToplevelNewline) eqn:En.
  { unfold wpr. rewrite skip_eq. split; auto. split; [apply (R_trans o s0 s); auto|]. cbv beta. exists [t].
    split; [eapply tiled_cons; eauto; apply tiled_nil; auto|]. split; [constructor; auto; split; auto|].
    right. exists [], t. split; auto. split; auto. apply Z.eqb_eq; auto. }
  eapply W_skip; [eassumption|eassumption|]. intros I3 R3. eapply wpr_conseq; [apply IH; auto|].
  - cbn [cur]. rewrite A5, app_length in Hf. destruct (t_text t); [congruence|cbn [length] in Hf; lia].
  - cbn beta. intros _ s2 I2 R4 (ts & T & F & E). exists (t :: ts). split; [eapply tiled_cons; eauto|]. split; [constructor; auto; split; auto|].
    apply Z.eqb_neq in En. destruct E as [[E1 E2]|(ts' & t' & -> & E1 & E2)]; [left; auto|right]. exists (t :: ts'), t'. auto.
Qed.

(** what the first-line handling may skip *)
Definition skipped (b : first_line) (ts : list token) (o : opts) (s' : st) : Prop :=
  ts = [] \/
  (b <> NotScript /\ exists h, t_kind h = TK_Hash /\
    (ts = [h] \/ exists e line, ts = h :: e :: line /\ t_kind e = TK_Bang /\
      ((Forall (fun t => t_kind t <> TK_ToplevelNewline) line /\ at_end o s') \/
       (exists ts' t, line = ts' ++ [t] /\ Forall (fun t => t_kind t <> TK_ToplevelNewline) ts' /\ t_kind t = TK_ToplevelNewline)))).

Lemma handle_first_line_ok : forall o b s0 s, Inv o s -> R o s0 s ->
  wpr (SE s0) o s0 (handle_first_line o b) s (fun _ s' => exists ts, tiled o s ts s' /\ Forall plain_token ts /\ skipped b ts o s').
Proof.
  intros o b s0 s HI HR.
  assert (K : b <> NotScript -> wpr (SE s0) o s0
     (t <- peek_token o false ;;
      if negb (t_kind t =? TK_Hash) then ret tt
      else
        skip t ;;
        t2 <- peek_token o false ;;
        if negb (t_kind t2 =? TK_Bang) then ret tt
        else skip t2 ;; with_fuel (skip_line_loop o)) s (fun _ s' => exists ts, tiled o s ts s' /\ Forall plain_token ts /\ skipped b ts o s')).
  { intros Hb. rewrite peek_token_ask. apply W_ask; [auto|auto|reflexivity|]. intros t s' I' R1 R2 A.
    pose proof A as (A1 & A2 & A3 & A4 & A5 & A6 & A7).
    destruct (t_kind t =? TK_Hash) eqn:Eh; cbn [negb].
    2:{ apply wpr_ret; auto. exists []. split; [apply tiled_nil; congruence|]. split; auto. left; auto. }
    apply Z.eqb_eq in Eh.
    assert (L : plain_token t) by (eapply other_kind; eauto; rewrite Eh; reflexivity).
    eapply W_skip; [eassumption|eassumption|]. intros I3 R3. apply W_ask; [auto|auto|reflexivity|]. intros t2 s2 I2 R4 R5 A'.
    pose proof A' as (B1 & B2 & B3 & B4 & B5 & B6 & B7).
    destruct (t_kind t2 =? TK_Bang) eqn:Eb; cbn [negb].
    2:{ apply wpr_ret; auto. exists [t]. split; [eapply tiled_cons; eauto; apply tiled_nil; cbn [cur] in *; congruence|]. split; auto.
        right. split; auto. exists t. split; auto. }
    apply Z.eqb_eq in Eb. assert (L' : plain_token t2) by (eapply other_kind; eauto; rewrite Eb; reflexivity).
    eapply W_skip; [eassumption|eassumption|]. intros I4 R6. apply wpr_with_fuel. eapply wpr_conseq; [apply skip_line_loop_ok; auto|].
    cbn beta. intros _ s5 I5 R7 (ts & T & F & E). exists (t :: t2 :: ts).
    split; [eapply tiled_cons; eauto; eapply tiled_cons; eauto|]. split; [auto|]. right. split; auto. exists t. split; auto. right.
    exists t2, ts. auto. }
  destruct b; cbn [handle_first_line]; [|apply K; discriminate|apply K; discriminate].
  apply wpr_ret; auto. exists []. split; [apply tiled_nil; auto|]. split; auto. left; auto.
Qed.

Lemma tiled_app : forall o s ts1 s1 ts2 s2, tiled o s ts1 s1 -> tiled o s1 ts2 s2 -> tiled o s (ts1 ++ ts2) s2.
Proof.
  intros o s ts1 s1 ts2 s2 (g1 & A1 & A2 & A3) (g2 & B1 & B2 & B3). exists (g1 ++ g2). split; [|split].
  - rewrite concat_app, <- app_assoc, <- B1. auto.
  - rewrite map_app, concat_app, <- app_assoc, <- B2. auto.
  - intros before Hb. destruct (A3 _ Hb) as [T1 L1]. destruct (B3 _ L1) as [T2 L2]. split.
    + clear - T1 T2. revert before g1 T1 T2. induction ts1 as [|t ts1 IH]; intros before [|g g1] T1 T2; try contradiction.
      * cbn in *. rewrite app_nil_r in T2. auto.
      * cbn in *. destruct T1 as [T1 T1']. split; auto. apply IH; auto.
        unfold chars_of in *. rewrite map_app in T2. rewrite <- app_assoc. auto.
    + rewrite L2. unfold chars_of. rewrite concat_app, map_app, app_assoc. reflexivity.
Qed.

Lemma tokenize_raw_ok : forall o b input, 0 < o_tab_width o -> ~ has_surrogate_escape input ->
  exists skipped_ts ts s1 s', tokenize_raw o b input = Ok (ts, s') /\
    handle_first_line o b (reader_new o input) = Ok (tt, s1) /\
    tiled o (reader_new o input) skipped_ts s1 /\ tiled o s1 ts s' /\
    Forall plain_token skipped_ts /\ Forall plain_token ts /\ skipped b skipped_ts o s1 /\ at_end o s' /\ Inv o s1 /\ Inv o s' /\
    with_fuel (tokens_loop o) s1 = Ok (ts, s').
Proof.
  intros o b input Ht Hs. pose proof (reader_new_Inv o input Ht) as HI. set (s := reader_new o input) in *.
  assert (Hs' : ~ SE s) by exact Hs.
  unfold tokenize_raw, run_tokens, bind. fold s. pose proof (handle_first_line_ok o b s s HI (R_refl _ _)) as H. unfold wpr in H.
  destruct (handle_first_line o b s) as [[[] s1]| |]; [|contradiction|contradiction]. destruct H as (I1 & R1 & sk & T1 & F1 & K1).
  pose proof (tokens_loop_ok o (S (length (rest (cur s1)))) s s1 I1 R1) as H. unfold wpr in H. unfold with_fuel.
  destruct (tokens_loop o (S (length (rest (cur s1)))) s1) as [[ts s']| |] eqn:E; [|exfalso; apply Hs'; apply H; lia|exfalso; apply H; lia].
  destruct H as (I2 & R2 & T2 & F2 & E2); [lia|]. exists sk, ts, s1, s'. repeat split; auto; first [apply I1 | apply I2].
Qed.
