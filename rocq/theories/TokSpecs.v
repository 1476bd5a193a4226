(** What particular tokens consist of: comments, strings, integers. *)
From Coq Require Import ZArith List Bool Lia.
From Verif Require Import Base Source WLChar GenTokenKind LongNames LongNamesProofs ByteDecoder CharDecoder TokenKind Format Tokenizer
  Decode SpecText SpecReader SpecTokenizer Iter TextProofs Logic WlDecode FormatProofs TokLogic TokenizerProofs TokenLoop TokSim.
Import ListNotations.
Local Open Scope Z_scope.

(** ** Partial correctness *)
Definition po {A} (m : M A) (s : st) (Q : A -> st -> Prop) : Prop :=
  match m s with Ok (a, s') => Q a s' | _ => True end.

Lemma po_ret : forall A (a : A) s (Q : A -> st -> Prop), Q a s -> po (ret a) s Q. Proof. auto. Qed.
Lemma po_bind : forall A B (m : M A) (k : A -> M B) s Q, po m s (fun a s' => po (k a) s' Q) -> po (bind m k) s Q.
Proof. intros A B m k s Q H. unfold po, bind in *. destruct (m s) as [[a s']| |]; auto. Qed.
Lemma po_conseq : forall A (m : M A) s (P Q : A -> st -> Prop), po m s P -> (forall a s', P a s' -> Q a s') -> po m s Q.
Proof. intros A m s P Q H HPQ. unfold po in *. destruct (m s) as [[a s']| |]; auto. Qed.
Lemma po_fuel : forall A (f : nat -> M A) s Q, po (f (S (length (rest (cur s))))) s Q -> po (with_fuel f) s Q.
Proof. auto. Qed.
Lemma po_panic : forall A s (Q : A -> st -> Prop), po panic s Q. Proof. intros; exact I. Qed.
Lemma po_out : forall A s (Q : A -> st -> Prop), po out_of_fuel s Q. Proof. intros; exact I. Qed.
Lemma po_assert : forall B b (k : unit -> M B) s Q, (b = true -> po (k tt) s Q) -> po (bind (assert_ b) k) s Q.
Proof. intros B [] k s Q H; [apply H; auto|exact I]. Qed.
Lemma po_mark : forall B (k : pos -> M B) s Q, po (k (cur s)) s Q -> po (bind mark k) s Q. Proof. auto. Qed.
Lemma po_get_rest : forall B (k : list Z -> M B) s Q, po (k (rest (cur s))) s Q -> po (bind get_rest k) s Q. Proof. auto. Qed.
Lemma po_get_loc : forall B (k : loc -> M B) s Q, po (k (ploc (cur s))) s Q -> po (bind get_loc k) s Q. Proof. auto. Qed.

Section Po.
Context (o : opts).

Lemma po_inert : forall A B (m : M A) (k : A -> M B) s Q, inert m -> Inv o s ->
  (forall a s', Inv o s' -> cur s' = cur s -> po (k a) s' Q) -> po (bind m k) s Q.
Proof.
  intros A B m k s Q Hm HI K. apply po_bind. unfold po at 1. destruct (m s) as [[a s']| |] eqn:E; auto.
  apply Hm in E. apply K; auto. unfold Inv in *. rewrite E. auto.
Qed.
Lemma po_nextWL : forall B p pol (k : wlchar -> M B) s Q, Inv o s -> p_scan pol = false ->
  (forall c s', Inv o s' -> twl (rest (cur s)) = Some (c, rest (cur s')) -> po (k c) s' Q) -> po (bind (nextWL o p pol) k) s Q.
Proof.
  intros B p pol k s Q HI Hp K. apply po_bind. pose proof (nextWL_wp True o p pol s HI Hp (fun _ => I)) as H. unfold wpr in H. unfold po at 1.
  destruct (nextWL o p pol s) as [[c s']| |]; auto. destruct H as (I' & _ & H). auto.
Qed.
Lemma po_currentWL : forall B p pol (k : wlchar -> M B) s Q, Inv o s -> p_scan pol = false ->
  (forall c s' r, Inv o s' -> cur s' = cur s -> twl (rest (cur s)) = Some (c, r) -> po (k c) s' Q) -> po (bind (currentWL o p pol) k) s Q.
Proof.
  intros B p pol k s Q HI Hp K. apply po_bind. pose proof (currentWL_wp True o p pol s s HI (R_refl _ _) Hp (fun _ => I)) as H. unfold wpr in H. unfold po at 1.
  destruct (currentWL o p pol s) as [[c s']| |]; auto. destruct H as (I' & _ & H & _ & r & E). apply (K _ _ r); auto. rewrite <- H. auto.
Qed.
Lemma po_nsrc : forall B pol (k : Z -> M B) s Q, Inv o s ->
  (forall c s', Inv o s' -> c = dchar (decode (rest (cur s))) -> rest (cur s') = drest (decode (rest (cur s))) -> po (k c) s' Q) ->
  po (bind (next_source_char o pol) k) s Q.
Proof.
  intros B pol k s Q HI K. apply po_bind. pose proof (wp_next_src True o pol s HI) as H. unfold wpr in H. unfold po at 1.
  destruct (next_source_char o pol s) as [[c s']| |]; auto. destruct H as (I' & _ & H & E & _). auto.
Qed.
Lemma po_psrc : forall B pol (k : Z -> M B) s Q, Inv o s ->
  (forall c s', Inv o s' -> cur s' = cur s -> c = dchar (decode (rest (cur s))) -> po (k c) s' Q) ->
  po (bind (peek_source_char o pol) k) s Q.
Proof.
  intros B pol k s Q HI K. apply po_bind. unfold peek_source_char. pose proof (wp_next_src True o pol s HI) as H. unfold wpr in H.
  unfold po at 1, peek, bind, mark, seek, ret.
  destruct (next_source_char o pol s) as [[c s']| |]; auto. destruct H as (I' & _ & H & E & _). apply K; auto.
Qed.
Lemma po_mk_token : forall k p s (Q : token -> st -> Prop),
  (forall t, t_kind t = k -> t_text t = buf_between (rest p) (rest (cur s)) -> t_start t = rest p -> Q t s) -> po (mk_token k p) s Q.
Proof.
  intros k p s Q H. unfold mk_token. apply po_get_rest, po_get_loc, po_assert. intros _. apply po_bind. unfold po at 1, lift.
  destruct (Span_new _ _); auto. unfold new2. apply po_assert. intros _. apply po_ret. apply H; auto.
Qed.

(** ** Comments *)
Lemma decode_ascii_hd : forall bs c, dchar (decode bs) = c -> 0 <= c < 0x80 -> exists r, bs = c :: r.
Proof.
  intros bs c E H. destruct (Z.eq_dec c 13) as [N|N]; [|exists (drest (decode bs)); apply decode_ascii_inv; auto].
  destruct bs as [|b r]; [cbn in E; unfold EndOfFile in E; lia|]. exists r. f_equal. subst c.
  revert N H. generalize (decode_case (b :: r)). generalize (decode (b :: r)). remember (b :: r) as bs eqn:Eb. intros dd D.
  destruct D as [ |r'|c r' Hc _ _|r'|bs c r' u _ Hc _ _]; cbn [good_ dchar fst]; intros N H; try discriminate.
  - subst c. cbn in Eb. congruence.
  - destruct Hc as [-> |[-> | ->]]; discriminate.
Qed.

Definition high (b : Z) : Prop := ~ (0 <= b < 0x80).

Lemma decode_high : forall b r, high b -> exists pre, b :: r = pre ++ drest (decode (b :: r)) /\ pre <> [] /\ Forall high pre.
Proof.
  intros b r H. unfold high in H.
  assert (C : forall x lo hi, 0x80 <= lo -> between lo x hi = true -> high x) by (intros x lo hi L E; apply between_iff in E; unfold high; lia).
  assert (One : exists pre, b :: r = pre ++ r /\ pre <> [] /\ Forall high pre) by (exists [b]; repeat split; [discriminate|auto]).
  assert (D2 : exists pre, b :: r = pre ++ drest (decode2 b r) /\ pre <> [] /\ Forall high pre).
  { unfold decode2, cont. destruct r as [|b2 r2]; auto. destruct (between _ _ _) eqn:E2; auto.
    exists [b; b2]. repeat split; [discriminate|]. repeat constructor; auto. eapply C; eauto; lia. }
  assert (D3 : forall lo ck, 0x80 <= lo -> exists pre, b :: r = pre ++ drest (decode3 b lo ck r) /\ pre <> [] /\ Forall high pre).
  { intros lo ck Hlo. unfold decode3, cont. destruct r as [|b2 r2]; auto. destruct (between _ _ _) eqn:E2; auto.
    assert (Two : exists pre, b :: b2 :: r2 = pre ++ r2 /\ pre <> [] /\ Forall high pre).
    { exists [b; b2]. repeat split; [discriminate|]. repeat constructor; auto. eapply C; eauto; lia. }
    destruct r2 as [|b3 r3]; auto. destruct (between _ b3 _) eqn:E3; auto.
    exists [b; b2; b3]. split; [|split; [discriminate|]].
    - destruct (_ && _); [reflexivity|]. destruct (_ && _); reflexivity.
    - apply Forall_cons; [exact H|]. apply Forall_cons; [apply (C b2 _ _ Hlo E2)|]. apply Forall_cons; [apply (C b3 0x80 0xbf); [lia|exact E3]|]. apply Forall_nil. }
  assert (D4 : forall lo hi, 0x80 <= lo -> exists pre, b :: r = pre ++ drest (decode4 b lo hi r) /\ pre <> [] /\ Forall high pre).
  { intros lo hi Hlo. unfold decode4, cont. destruct r as [|b2 r2]; auto. destruct (between _ _ _) eqn:E2; auto.
    assert (Two : exists pre, b :: b2 :: r2 = pre ++ r2 /\ pre <> [] /\ Forall high pre).
    { exists [b; b2]. repeat split; [discriminate|]. repeat constructor; auto. eapply C; eauto; lia. }
    destruct r2 as [|b3 r3]; auto. destruct (between _ b3 _) eqn:E3; auto.
    assert (Three : exists pre, b :: b2 :: b3 :: r3 = pre ++ r3 /\ pre <> [] /\ Forall high pre).
    { exists [b; b2; b3]. repeat split; [discriminate|]. apply Forall_cons; [exact H|]. apply Forall_cons; [apply (C b2 _ _ Hlo E2)|]. apply Forall_cons; [apply (C b3 0x80 0xbf); [lia|exact E3]|]. apply Forall_nil. }
    destruct r3 as [|b4 r4]; auto. destruct (between _ b4 _) eqn:E4; auto.
    exists [b; b2; b3; b4]. repeat split; [discriminate|]. apply Forall_cons; [exact H|]. apply Forall_cons; [apply (C b2 _ _ Hlo E2)|]. apply Forall_cons; [apply (C b3 0x80 0xbf); [lia|exact E3]|]. apply Forall_cons; [apply (C b4 0x80 0xbf); [lia|exact E4]|]. apply Forall_nil. }
  unfold decode.
  assert (between 0 b 12 || between 14 b 0x7f = false) as ->.
  { apply orb_false_iff. split; destruct (between _ _ _) eqn:E; auto; apply between_iff in E; lia. }
  destruct (Z.eqb_spec b 13); [lia|].
  repeat match goal with |- context [if ?c then _ else _] => destruct c; [solve [auto | apply D3; lia | apply D4; lia]|] end. exact One.
Qed.

(** reading one source character passes over bytes that are not ASCII, or over the
    character itself, or over a CRLF *)
Lemma decode_passes : forall bs, bs <> [] -> exists pre, bs = pre ++ drest (decode bs) /\ pre <> [] /\
  (Forall high pre \/ pre = [13; 10] \/ pre = [dchar (decode bs)]).
Proof.
  intros [|b r] Hn; [congruence|]. destruct (Z_lt_ge_dec b 0) as [H|H]; [|destruct (Z_lt_ge_dec b 0x80) as [H'|H']].
  1,3: destruct (decode_high b r) as (pre & E & N & F); [unfold high; lia|]; exists pre; auto.
  destruct (Z.eq_dec b 13) as [->|N].
  - cbn [decode]. change (between 0 13 12 || between 14 13 127) with false. change (13 =? 13) with true. cbv iota.
    destruct r as [|b2 r2]; [exists [13]; repeat split; [discriminate|auto]|]. destruct (Z.eqb_spec b2 10) as [->|].
    + exists [13; 10]. repeat split; [discriminate|auto].
    + exists [13]. repeat split; [discriminate|auto].
  - destruct (decode_ascii_d b r) as [E1 E2]; [lia|lia|]. rewrite E1, E2. exists [b]. repeat split; [discriminate|auto].
Qed.

Lemma comment_skip : forall pre d r, Forall (fun x => x <> 40 /\ x <> 42) pre -> after_comment d (pre ++ r) = after_comment d r.
Proof.
  induction pre as [|x pre IH]; intros d r F; auto. inversion F as [|? ? [H1 H2] F']; subst. cbn [app]. rewrite <- (IH d r F').
  cbn [after_comment]. destruct (pre ++ r) as [|b r']; auto.
  destruct (Z.eqb_spec x 40); [contradiction|]. destruct (Z.eqb_spec x 42); [contradiction|]. reflexivity.
Qed.
Lemma comment_decode : forall d bs, dchar (decode bs) <> 40 -> dchar (decode bs) <> 42 ->
  after_comment d bs = after_comment d (drest (decode bs)).
Proof.
  intros d bs H1 H2. destruct bs as [|b r]; [reflexivity|]. destruct (decode_passes (b :: r)) as (pre & E & _ & C); [discriminate|].
  rewrite E at 1. apply comment_skip. destruct C as [F|[->| ->]].
  - eapply Forall_impl; [|exact F]. unfold high. cbn. intros; lia.
  - repeat constructor; lia.
  - repeat constructor; auto.
Qed.
Lemma decode_eof : forall bs, dchar (decode bs) = EndOfFile -> bs = [].
Proof.
  intros bs. generalize (decode_case bs). generalize (decode bs). intros dd D.
  destruct D as [ |r'|c r' Hc _ _|r'|bs c r' u _ Hc _ _]; cbn [good_ dchar fst]; intros E; auto; try discriminate.
  - subst c. unfold scalar, EndOfFile in Hc. lia.
  - destruct Hc as [-> |[-> | ->]]; discriminate.
Qed.
Lemma after_comment_suffix : forall n d bs r, (length bs <= n)%nat -> after_comment d bs = Some r -> exists pre, bs = pre ++ r.
Proof.
  induction n as [|n IH]; intros d bs r Hl H.
  - destruct bs; [discriminate|cbn in Hl; lia].
  - destruct bs as [|a [|b r']]; try discriminate. cbn [length] in Hl. cbn [after_comment] in H.
    assert (K : forall d' r0, (length r0 <= n)%nat -> after_comment d' r0 = Some r -> forall p, exists pre, p ++ r0 = pre ++ r).
    { intros d' r0 L E p. destruct (IH d' r0 r L E) as [q ->]. exists (p ++ q). rewrite app_assoc. auto. }
    destruct (_ && _); [apply (K (S d) r' ltac:(lia) H [a; b])|]. destruct (_ && _).
    + destruct d as [|[|d]]; [injection H as <-; exists [a; b]; auto|injection H as <-; exists [a; b]; auto|].
      apply (K (S d) r' ltac:(lia) H [a; b]).
    + apply (K d (b :: r') ltac:(cbn; lia) H [a]).
Qed.

Definition comment_post (bs : list Z) (d : nat) (p : pos) (t : token) (s' : st) : Prop :=
  match after_comment d bs with
  | Some r' => t_kind t = TK_Comment /\ t_text t = buf_between (rest p) r'
  | None => t_kind t = TK_Error_UnterminatedComment /\ t_text t = rest p
  end.

Lemma buf_nil : forall p, buf_between p [] = p.
Proof. intros bs. unfold buf_between. cbn [length]. rewrite Nat.sub_0_r. apply firstn_all. Qed.

Lemma comment_loop_po : forall n p pol d c s bs, Inv o s -> c = dchar (decode bs) -> rest (cur s) = drest (decode bs) -> (1 <= d)%nat ->
  po (comment_loop o n p pol (Z.of_nat d) c) s (comment_post bs d p).
Proof.
  induction n as [|n IH]; intros p pol d c s bs HI Ec Er Hd; cbn [comment_loop]; [apply po_out|].
  destruct (Z.eqb_spec c 40) as [E40|N40].
  { assert (Eb : bs = 40 :: rest (cur s)) by (rewrite Er; apply decode_ascii_inv; [congruence|lia|lia]).
    apply po_nsrc; auto. intros c1 s1 I1 E1 R1. destruct (Z.eqb_spec c1 42) as [E42|N42].
    - assert (Eb1 : rest (cur s) = 42 :: rest (cur s1)) by (rewrite R1; apply decode_ascii_inv; [congruence|lia|lia]).
      apply po_nsrc; auto. intros c2 s2 I2 E2 R2. replace (Z.of_nat d + 1) with (Z.of_nat (S d)) by lia.
      eapply po_conseq; [apply (IH _ _ _ _ _ (rest (cur s1))); auto; lia|]. intros t s'. unfold comment_post. rewrite Eb, Eb1.
      cbn [after_comment]. change (40 =? 40) with true. change (42 =? 42) with true. cbn [andb]. auto.
    - eapply po_conseq; [apply (IH _ _ _ _ _ (rest (cur s))); auto|]. intros t s'. unfold comment_post. rewrite Eb.
      replace (after_comment d (40 :: rest (cur s))) with (after_comment d (rest (cur s))); auto.
      cbn [after_comment]. destruct (rest (cur s)) as [|b r]; auto. destruct (Z.eqb_spec b 42) as [->|].
      + exfalso. apply N42. rewrite E1. apply decode_ascii_d; lia.
      + rewrite andb_false_r. change (40 =? 42) with false. reflexivity. }
  destruct (Z.eqb_spec c 42) as [E42|N42].
  { assert (Eb : bs = 42 :: rest (cur s)) by (rewrite Er; apply decode_ascii_inv; [congruence|lia|lia]).
    apply po_nsrc; auto. intros c1 s1 I1 E1 R1. destruct (Z.eqb_spec c1 41) as [E41|N41].
    - assert (Eb1 : rest (cur s) = 41 :: rest (cur s1)) by (rewrite R1; apply decode_ascii_inv; [congruence|lia|lia]).
      destruct (Z.eqb_spec (Z.of_nat d - 1) 0) as [D0|D0].
      + apply po_mk_token. intros t T1 T2 _. unfold comment_post. rewrite Eb, Eb1. cbn [after_comment].
        change (42 =? 40) with false. change (42 =? 42) with true. change (41 =? 41) with true. cbn [andb].
        destruct d as [|[|d]]; [lia| |lia]. auto.
      + apply po_nsrc; auto. intros c2 s2 I2 E2 R2. destruct d as [|[|d]]; [lia|lia|].
        replace (Z.of_nat (S (S d)) - 1) with (Z.of_nat (S d)) by lia.
        eapply po_conseq; [apply (IH _ _ _ _ _ (rest (cur s1))); auto; lia|]. intros t s'. unfold comment_post. rewrite Eb, Eb1.
        cbn [after_comment]. change (42 =? 40) with false. change (42 =? 42) with true. change (41 =? 41) with true. cbn [andb]. auto.
    - eapply po_conseq; [apply (IH _ _ _ _ _ (rest (cur s))); auto|]. intros t s'. unfold comment_post. rewrite Eb.
      replace (after_comment d (42 :: rest (cur s))) with (after_comment d (rest (cur s))); auto.
      cbn [after_comment]. destruct (rest (cur s)) as [|b r]; auto. destruct (Z.eqb_spec b 41) as [->|].
      + exfalso. apply N41. rewrite E1. apply decode_ascii_d; lia.
      + rewrite andb_false_r. change (42 =? 40) with false. reflexivity. }
  assert (Next : forall pol', po (c1 <- next_source_char o pol' ;; comment_loop o n p pol (Z.of_nat d) c1) s (comment_post bs d p)).
  { intros. apply po_nsrc; auto. intros c1 s1 I1 E1 R1. eapply po_conseq; [apply (IH _ _ _ _ _ (rest (cur s))); auto|].
    intros t s'. unfold comment_post. rewrite Er, <- comment_decode; [auto|congruence|congruence]. }
  destruct (Z.eqb_spec c EndOfFile) as [Ee|Ne].
  { rewrite Ec in Ee. apply decode_eof in Ee. subst bs. cbn in Er. apply po_mk_token. intros t T1 T2 _. unfold comment_post. cbn [after_comment].
    rewrite T2, Er, buf_nil. auto. }
  destruct (is_newline_char c).
  { apply po_inert; [solve [inert]|exact HI|]. intros _ s1 I1 C1. specialize (IH p pol d). apply po_nsrc; auto. rewrite C1.
    intros c1 s2 I2 E1 R1. eapply po_conseq; [apply (IH c1 s2 (rest (cur s))); auto|].
    intros t s'. unfold comment_post. rewrite Er, <- comment_decode; [auto|congruence|congruence]. }
  destruct (c =? 9); [|apply Next].
  apply po_inert; [solve [inert]|exact HI|]. intros _ s1 I1 C1. specialize (IH p pol d). apply po_nsrc; auto. rewrite C1.
  intros c1 s2 I2 E1 R1. eapply po_conseq; [apply (IH c1 s2 (rest (cur s))); auto|].
  intros t s'. unfold comment_post. rewrite Er, <- comment_decode; [auto|congruence|congruence].
Qed.

(** ** Reading plain ASCII *)
Lemma wld_ascii : forall b r, 0 <= b < 0x80 -> b <> 13 -> b <> 92 -> wld (b :: r) = Some (wl b, r).
Proof.
  intros b r H N N'. unfold wld. destruct (decode_ascii_d b r) as [E1 E2]; auto. rewrite E1, E2. destruct (Z.eqb_spec b 92); [contradiction|auto].
Qed.
Lemma twl_ascii : forall b r, 0 <= b < 0x80 -> b <> 13 -> b <> 92 -> twl (b :: r) = Some (wl b, r).
Proof.
  intros b r H N N'. unfold twl. rewrite twf_unfold, wld_ascii; auto. cbn [andb wl wc].
  assert (is_line_continuation b = false) as ->; auto.
  unfold is_line_continuation, LineContinuation_LineFeed. destruct (Z.leb_spec b (-17)); [lia|reflexivity].
Qed.

Lemma nextToken_comment : forall pol s r, Inv o s -> p_scan pol = false -> rest (cur s) = 40 :: 42 :: r ->
  po (nextToken o pol) s (comment_post r 1 (cur s)).
Proof.
  intros pol s r HI Hp Er. unfold nextToken. apply po_mark. apply po_nextWL; auto. intros c s1 I1 E1.
  rewrite Er, twl_ascii in E1 by lia. injection E1 as <- E1.
  change (dispatch o (cur s) (wl 40) pol) with (handleOpenParen o (cur s) (wl 40) pol). unfold handleOpenParen. apply po_assert. intros _.
  apply po_psrc; auto. intros c1 s2 I2 C2 E2. rewrite <- E1 in E2. destruct (decode_ascii_d 42 r) as [D1 D2]; [lia|lia|].
  rewrite D1 in E2. subst c1. cbn [wl wesc andb]. change (42 =? 42) with true. cbv iota.
  unfold handleComment. apply po_assert. intros _. apply po_nsrc; auto. intros c3 s3 I3 _ R3. rewrite C2, <- E1, D2 in R3.
  apply po_nsrc; auto. intros c4 s4 I4 E4 R4. rewrite R3 in E4, R4. apply po_fuel. apply (comment_loop_po _ _ _ 1); auto.
Qed.

(** ** Strings *)
Lemma string_skip : forall pre r, Forall (fun x => x <> 34 /\ x <> 92) pre -> after_string (pre ++ r) = after_string r.
Proof.
  induction pre as [|x pre IH]; intros r F; auto. inversion F as [|? ? [H1 H2] F']; subst. cbn [app after_string].
  destruct (Z.eqb_spec x 34); [contradiction|]. destruct (Z.eqb_spec x 92); [contradiction|]. auto.
Qed.
Lemma string_decode : forall bs, bs <> [] -> dchar (decode bs) <> 34 -> dchar (decode bs) <> 92 ->
  after_string bs = after_string (drest (decode bs)).
Proof.
  intros bs Hn H1 H2. destruct (decode_passes bs) as (pre & E & _ & C); auto.
  rewrite E at 1. apply string_skip. destruct C as [F|[->| ->]].
  - eapply Forall_impl; [|exact F]. unfold high. cbn. intros; lia.
  - repeat constructor; lia.
  - repeat constructor; auto.
Qed.
Lemma names_no_quote : forallb (fun e => forallb (fun x => negb (x =? 34) && negb (x =? 92)) (fst e) && negb (snd e =? 34)) LN_TABLE = true.
Proof. vm_compute. reflexivity. Qed.
Lemma singles_no_quote : forallb (fun e => negb (snd e =? 34)) single_escapes = true.
Proof. vm_compute. reflexivity. Qed.
Lemma hex_no_quote : forall n ds, hex_string n ds -> Forall (fun x => x <> 34 /\ x <> 92) ds.
Proof.
  intros n ds [_ F]. eapply Forall_impl; [|exact F]. cbn. intros x H. unfold is_hex_digit in H.
  rewrite !orb_true_iff, !andb_true_iff, !Z.leb_le in H. lia.
Qed.
Lemma octal_no_quote : forall n ds, octal_string n ds -> Forall (fun x => x <> 34 /\ x <> 92) ds.
Proof.
  intros n ds [_ F]. eapply Forall_impl; [|exact F]. cbn. intros x H. unfold is_octal_digit in H.
  rewrite !andb_true_iff, !Z.leb_le in H. lia.
Qed.
Lemma meaning_no_quote : forall v, meaning v <> 34.
Proof.
  intros v. unfold meaning. destruct (Z.eqb_spec v 34) as [->|]; [discriminate|]. destruct (v =? 92); [discriminate|auto].
Qed.
(** [\b...] where [b] is neither a quote nor a backslash *)
Lemma string_escaped : forall b r, b <> 34 -> b <> 92 -> after_string (92 :: b :: r) = after_string (b :: r).
Proof.
  intros b r H1 H2. cbn [after_string]. change (92 =? 34) with false. change (92 =? 92) with true. cbv iota.
  destruct (Z.eqb_spec b 34); [contradiction|]. destruct (Z.eqb_spec b 92); [contradiction|auto].
Qed.
Lemma string_escape : forall t c r, escape_spec t c r -> wc c <> 34 /\ after_string (92 :: t) = after_string r.
Proof.
  assert (Sk : forall b pre r, b <> 34 -> b <> 92 -> Forall (fun x => x <> 34 /\ x <> 92) pre -> after_string (92 :: b :: pre ++ r) = after_string r).
  { intros b pre r H1 H2 F. rewrite string_escaped by auto. rewrite <- (string_skip (b :: pre) r); [reflexivity|constructor; auto]. }
  intros t c r H. destruct H as [b p r H|r|r Hr|name p r H|ds r H|ds r H Hs|ds r H Hs|ds r H]; cbn [wc].
  - split; [|reflexivity]. pose proof (proj1 (forallb_forall _ _) singles_no_quote _ H) as G. cbn [snd] in G. apply negb_true_iff, Z.eqb_neq in G. exact G.
  - split; [discriminate|reflexivity].
  - split; [discriminate|reflexivity].
  - pose proof (proj1 (forallb_forall _ _) names_no_quote _ H) as G. cbn [fst snd] in G. apply andb_true_iff in G as [G1 G2].
    split; [apply negb_true_iff, Z.eqb_neq in G2; exact G2|].
    change (92 :: 91 :: name ++ 93 :: r) with (92 :: 91 :: (name ++ [93] ++ r)). rewrite (app_assoc name [93] r). apply Sk; try discriminate. apply Forall_app. split.
    + apply Forall_forall. intros x Hx. rewrite forallb_forall in G1. specialize (G1 x Hx). apply andb_true_iff in G1 as [A B].
      apply negb_true_iff, Z.eqb_neq in A, B. auto.
    + repeat constructor; lia.
  - split; [apply meaning_no_quote|]. apply Sk; try discriminate. eapply hex_no_quote; eauto.
  - split; [apply meaning_no_quote|]. apply Sk; try discriminate. eapply hex_no_quote; eauto.
  - split; [apply meaning_no_quote|]. apply Sk; try discriminate. eapply hex_no_quote; eauto.
  - split; [apply meaning_no_quote|]. pose proof (octal_no_quote _ _ H) as F. destruct ds as [|d ds]; [destruct H; discriminate|].
    inversion F; subst. cbn [app]. apply Sk; tauto.
Qed.

Lemma wld_backslash_pair : forall b r, b = 34 \/ b = 92 -> exists c, wld (92 :: b :: r) = Some (c, r) /\ wc c <> 92.
Proof.
  intros b r H. unfold wld. destruct (decode_ascii_d 92 (b :: r)) as [E1 E2]; [lia|lia|]. rewrite E1, E2. change (92 =? 92) with true. cbv iota.
  unfold escape_at. destruct (decode_ascii_d b r) as [F1 F2]; [lia|lia|]. rewrite F1, F2. destruct H as [-> | ->].
  - rewrite switchl_cons. change (existsb (Z.eqb 34) [34]) with true. cbv iota. eexists. split; [reflexivity|discriminate].
  - do 4 rewrite switchl_cons. change (existsb (Z.eqb 92) [34]) with false. change (existsb (Z.eqb 92) [60]) with false. change (existsb (Z.eqb 92) [62]) with false.
    change (existsb (Z.eqb 92) [92]) with true. cbv iota. eexists. split; [reflexivity|discriminate].
Qed.

Lemma wld_string : forall bs c r, wld bs = Some (c, r) ->
  if wc c =? 34 then after_string bs = Some r else after_string bs = after_string r.
Proof.
  intros bs c r H. pose proof H as H0. apply wld_inv in H as [(-> & -> & ->)|[(Hn & -> & N & ->)|[(t & -> & H)|(-> & ->)]]].
  - reflexivity.
  - cbn [wl wc] in *. destruct (Z.eqb_spec (dchar (decode bs)) 34) as [E|E].
    + apply decode_ascii_inv in E; [|lia|lia]. rewrite E at 1. reflexivity.
    + apply string_decode; auto.
  - apply string_escape in H as [H1 H2]. destruct (Z.eqb_spec (wc c) 34); [contradiction|auto].
  - cbn [wl wc]. change (92 =? 34) with false. cbv iota. destruct r as [|b r]; [reflexivity|].
    destruct (Z.eq_dec b 34) as [E|E]; [|destruct (Z.eq_dec b 92) as [E'|E']; [|apply string_escaped; auto]].
    + destruct (wld_backslash_pair b r) as (c & E1 & E2); [auto|]. rewrite E1 in H0. injection H0 as H0 _. subst c. cbn in E2. congruence.
    + destruct (wld_backslash_pair b r) as (c & E1 & E2); [auto|]. rewrite E1 in H0. injection H0 as H0 _. subst c. cbn in E2. congruence.
Qed.
Lemma twf_string : forall a bs c r, twf a bs = Some (c, r) ->
  if wc c =? 34 then after_string bs = Some r else after_string bs = after_string r.
Proof.
  intros a bs. pattern a, bs. apply twf_ind. clear a bs. intros a bs IH c r H. rewrite twf_unfold in H.
  destruct (wld bs) as [[c1 r1]|] eqn:E; [|discriminate]. pose proof (wld_string _ _ _ E) as W. destruct (_ || _) eqn:L.
  - specialize (IH _ _ eq_refl L _ _ H). destruct (Z.eqb_spec (wc c1) 34) as [Q|Q].
    + rewrite Q in L. destruct a; discriminate.
    + rewrite W. exact IH.
  - injection H as <- <-. exact W.
Qed.

Definition string_post (bs : list Z) (p : pos) (t : token) (s' : st) : Prop :=
  match after_string bs with
  | Some r' => t_kind t = TK_String /\ t_text t = buf_between (rest p) r'
  | None => t_kind t = TK_Error_UnterminatedString /\ t_text t = rest p
  end.

Lemma string_loop_po : forall n p pol s, Inv o s -> p_scan pol = false -> po (string_loop o n p pol) s (string_post (rest (cur s)) p).
Proof.
  induction n as [|n IH]; intros p pol s HI Hp; cbn [string_loop]; [apply po_out|].
  apply po_nextWL; auto. intros c s1 I1 E1. pose proof (twf_string _ _ _ _ E1) as W. unfold string_post at 1. destruct (wc c =? 34).
  { apply po_mk_token. intros t T1 T2 _. unfold string_post. rewrite W. auto. }
  destruct (Z.eqb_spec (wc c) EndOfFile) as [Ee|Ne].
  { destruct (twl_eof_text _ _ _ E1 Ee) as [R1 _]. rewrite R1 in *. cbn [after_string] in W.
    apply po_mk_token. intros t T1 T2 _. unfold string_post. rewrite W, T2, R1, buf_nil. auto. }
  apply po_inert; [solve [inert]|exact I1|]. intros _ s2 I2 C2. eapply po_conseq; [apply IH; auto|].
  intros t s'. unfold string_post. rewrite W, C2. auto.
Qed.
Lemma nextToken_string : forall pol s r, Inv o s -> p_scan pol = false -> rest (cur s) = 34 :: r ->
  po (nextToken o pol) s (string_post r (cur s)).
Proof.
  intros pol s r HI Hp Er. unfold nextToken. apply po_mark. apply po_nextWL; auto. intros c s1 I1 E1.
  rewrite Er, twl_ascii in E1 by lia. injection E1 as <- E1.
  change (dispatch o (cur s) (wl 34) pol) with (handleString o (cur s) (wl 34) pol). unfold handleString. apply po_assert. intros _.
  apply po_inert; [solve [inert]|exact I1|]. intros _ s2 I2 C2. apply po_fuel. rewrite E1, <- C2. apply string_loop_po; auto.
Qed.
Lemma after_string_suffix : forall n bs r, (length bs <= n)%nat -> after_string bs = Some r -> exists pre, bs = pre ++ r.
Proof.
  induction n as [|n IH]; intros bs r Hl H.
  - destruct bs; [discriminate|cbn in Hl; lia].
  - destruct bs as [|a r']; try discriminate. cbn [length] in Hl. cbn [after_string] in H.
    assert (K : forall r0, (length r0 <= n)%nat -> after_string r0 = Some r -> forall p, exists pre, p ++ r0 = pre ++ r).
    { intros r0 L E p. destruct (IH r0 r L E) as [q ->]. exists (p ++ q). rewrite app_assoc. auto. }
    destruct (a =? 34); [injection H as <-; exists [a]; auto|]. destruct (a =? 92).
    + destruct r' as [|b r']; [discriminate|]. cbn [length] in Hl. apply (K r' ltac:(lia) H [a; b]).
    + apply (K r' ltac:(lia) H [a]).
Qed.

(** ** Integers *)
Definition no_number (c : wlchar) : Prop := isDigit (wc c) = false /\ (wc c =? 46) = false /\ (wc c =? 94) = false /\ (wc c =? 42) = false /\ (wc c =? 96) = false.

Lemma ends_number_char : forall e c r, ends_number e -> twl e = Some (c, r) -> no_number c.
Proof.
  intros e c r He H. unfold no_number, isDigit. unfold between. destruct (Z_lt_ge_dec (wc c) 0x80) as [L|L]; [destruct (Z_lt_ge_dec (wc c) 0) as [L'|L']|].
  - rewrite !Z.eqb_neq, andb_false_iff, Z.leb_gt. lia.
  - destruct (twl_ascii_first _ _ _ H) as (b & t & -> & Hb); [lia|]. destruct He as [He|(b' & r' & E & D & N)]; [discriminate|].
    injection E as <- <-. cbn [In] in N. unfold digit_byte in D. destruct Hb as [Hb|Hb]; [|lia].
    rewrite !Z.eqb_neq, andb_false_iff, !Z.leb_gt. lia.
  - rewrite !Z.eqb_neq, andb_false_iff, !Z.leb_gt. lia.
Qed.

Lemma count_loop_po : forall n p pol f k c s ds e r, Inv o s -> p_scan pol = false -> Forall digit_byte ds -> ends_number e ->
  (forall x, f x = true -> isDigit x = true) ->
  rest (cur s) = ds ++ e -> twl (ds ++ e) = Some (c, r) ->
  po (count_loop o n p pol f k c) s (fun u s' => Inv o s' /\ exists ds' r', rest (cur s') = ds' ++ e /\ Forall digit_byte ds' /\
     twl (ds' ++ e) = Some (snd u, r') /\ f (wc (snd u)) = false).
Proof.
  induction n as [|n IH]; intros p pol f k c s ds e r HI Hp F He Hf Er Ec; cbn [count_loop]; [apply po_out|].
  destruct (f (wc c)) eqn:Efc; cbn [negb].
  2:{ apply po_ret. split; auto. exists ds, r. auto. }
  destruct ds as [|d ds].
  { cbn [app] in *. destruct (ends_number_char _ _ _ He Ec) as [N _]. rewrite (Hf _ Efc) in N. discriminate. }
  inversion F as [|? ? Hd F']; subst. cbn [app] in *. unfold digit_byte in Hd. rewrite twl_ascii in Ec by lia. injection Ec as <- <-.
  apply po_nextWL; auto. intros c1 s1 I1 E1. rewrite Er, twl_ascii in E1 by lia. injection E1 as _ E1.
  apply po_currentWL; auto. intros c2 s2 r2 I2 C2 E2. rewrite <- E1 in E2.
  eapply (IH _ _ _ _ _ _ ds e); eauto. rewrite C2. auto.
Qed.

Lemma digit_isDigit : forall d, digit_byte d -> isDigit d = true. Proof. intros d H. apply between_iff. exact H. Qed.

Lemma handleNumber_po : forall pol s p d ds e, Inv o s -> p_scan pol = false -> digit_byte d -> Forall digit_byte ds -> ends_number e ->
  rest (cur s) = ds ++ e -> rest p = d :: ds ++ e ->
  po (handleNumber o p (wl d) pol) s (fun t s' => t_kind t = TK_Integer /\ t_text t = d :: ds).
Proof.
  intros pol s p d ds e HI Hp Hd F He Er Ep. unfold handleNumber. apply po_assert. intros _. cbn [wl wc]. rewrite (digit_isDigit d Hd). 
  assert (Fin : forall s' : st, rest (cur s') = e -> po (mk_token (computeTok ctx0) p) s' (fun t _ => t_kind t = TK_Integer /\ t_text t = d :: ds)).
  { intros s' E. apply po_mk_token. intros t T1 T2 _. split; auto. rewrite T2, E, Ep. change (d :: ds ++ e) with ((d :: ds) ++ e). apply buf_between_app. }
  assert (Stop : forall ds' c r, Forall digit_byte ds' -> twl (ds' ++ e) = Some (c, r) -> isDigit (wc c) = false -> ds' = []).
  { intros [|x ds'] c r F' E N; auto. inversion F' as [|? ? Hx _]; subst. cbn [app] in E. pose proof Hx as Hx'. unfold digit_byte in Hx'. rewrite twl_ascii in E by lia.
    injection E as <- _. cbn [wl wc] in N. rewrite digit_isDigit in N by auto. discriminate. }
  apply po_bind.
  apply (po_conseq _ _ _ (fun u s1 => Inv o s1 /\ exists ds', rest (cur s1) = ds' ++ e /\ Forall digit_byte ds' /\
     (isDigit (wc (snd (fst u))) = true \/ exists r', twl (ds' ++ e) = Some (snd (fst u), r')))).
  { destruct (Z.eqb_spec d 48).
    - unfold handleZeros. apply po_bind, po_assert. intros _. apply po_currentWL; auto. intros c1 s1 r1 I1 C1 E1. apply po_fuel.
      eapply po_conseq; [eapply (count_loop_po _ _ _ _ _ _ _ ds e r1); auto|].
      + intros x Hx. apply Z.eqb_eq in Hx. subst x. reflexivity.
      + rewrite C1. auto.
      + rewrite <- Er. auto.
      + intros u s2 (I2 & ds' & r' & E2 & F2 & T2 & _). apply po_get_rest, po_ret. split; auto. exists ds'. cbn [fst snd]. eauto.
    - apply po_ret. split; auto. exists ds. cbn [fst snd wl wc]. rewrite (digit_isDigit d Hd). auto. }
  intros [[z c1] nz] s1 (I1 & ds1 & R1 & F1 & H1). cbn [fst snd] in H1. apply po_mark. apply po_bind.
  apply (po_conseq _ _ _ (fun u s2 => Inv o s2 /\ rest (cur s2) = e /\ exists r', twl e = Some (snd (fst u), r'))).
  { destruct (isDigit (wc c1)) eqn:Ed.
    - unfold handleDigits. apply po_bind, po_assert. intros _. apply po_currentWL; auto. intros c2 s2 r2 I2 C2 E2. apply po_fuel.
      eapply po_conseq; [eapply (count_loop_po _ _ _ _ _ _ _ ds1 e r2); auto|].
      + rewrite C2. auto.
      + rewrite <- R1. auto.
      + intros u s3 (I3 & ds' & r' & E3 & F3 & T3 & N3). apply po_mark, po_ret. split; auto. pose proof (Stop _ _ _ F3 T3 N3). subst ds'. cbn [fst snd app] in *. eauto.
    - destruct H1 as [H1|[r' H1]]; [discriminate|]. pose proof (Stop _ _ _ F1 H1 Ed). subst ds1. apply po_ret. split; auto. cbn [fst snd app] in *. eauto. }
  intros [[lead c2] lm] s2 (I2 & R2 & r' & T2). cbn [fst snd] in T2. destruct (ends_number_char _ _ _ He T2) as (_ & N46 & N94 & N42 & N96).
  destruct (p_intshort pol).
  { rewrite N46, andb_false_r. apply po_inert; [solve [inert]|exact I2|]. intros _ s3 I3 C3. apply Fin. rewrite C3. auto. }
  rewrite N94, N46. unfold number_tail. rewrite N96, N42. apply Fin. auto.
Qed.

Lemma nextToken_integer : forall pol s ds e, Inv o s -> p_scan pol = false -> ds <> [] -> Forall digit_byte ds -> ends_number e ->
  rest (cur s) = ds ++ e -> po (nextToken o pol) s (fun t s' => t_kind t = TK_Integer /\ t_text t = ds).
Proof.
  intros pol s [|d ds] e HI Hp Hn F He Er; [congruence|]. inversion F as [|? ? Hd F']; subst. cbn [app] in Er.
  unfold nextToken. apply po_mark. apply po_nextWL; auto. intros c s1 I1 E1. pose proof Hd as Hd'. unfold digit_byte in Hd'.
  rewrite Er, twl_ascii in E1 by lia. injection E1 as <- E1.
  replace (dispatch o (cur s) (wl d) pol) with (handleNumber o (cur s) (wl d) pol).
  - apply (handleNumber_po _ _ _ _ _ e); auto.
  - assert (C : d = 48 \/ d = 49 \/ d = 50 \/ d = 51 \/ d = 52 \/ d = 53 \/ d = 54 \/ d = 55 \/ d = 56 \/ d = 57) by lia.
    repeat (destruct C as [-> |C]; [reflexivity|]). rewrite C. reflexivity.
Qed.
End Po.
