(** Program logic for the parser: what it asks the tokenizer for and where it stands. *)
From Coq Require Import ZArith List Bool Lia.
From Verif Require Import Base Source WLChar LongNames ByteDecoder CharDecoder Decode SpecText Iter
  TextProofs Logic LongNamesProofs WlDecode SpecReader ReaderProofs GenTokenKind TokenKind Format FormatProofs Tokenizer TokLogic
  TokenizerProofs SpecTokenizer TokenLoop TokSim TokAgree GenPrec GenOps GenParselets Parselets Cst SpecCst CstProofs Parser SpecParser.
Import ListNotations.
Local Open Scope Z_scope.

(** ** Kinds of tokens read as a tag or as a file name *)
Definition kinds {A} (f : A -> Z) (m : M A) (ks : list Z) : Prop := forall s a s', m s = Ok (a, s') -> In (f a) ks.
Notation tkinds := (kinds t_kind).

Lemma k_bind : forall A B f (m : M A) (k : A -> M B) ks, (forall a, kinds f (k a) ks) -> kinds f (bind m k) ks.
Proof. intros A B f m k ks H s b s' E. unfold bind in E. destruct (m s) as [[a s1]| |]; try discriminate. eapply H; eauto. Qed.
Lemma k_if : forall A f (b : bool) (m1 m2 : M A) ks, kinds f m1 ks -> kinds f m2 ks -> kinds f (if b then m1 else m2) ks.
Proof. intros A f [] m1 m2 ks H1 H2; auto. Qed.
Lemma k_fuel : forall A f (m : nat -> M A) ks, (forall n, kinds f (m n) ks) -> kinds f (with_fuel m) ks.
Proof. intros A f m ks H s a s' E. unfold with_fuel in E. eapply H; eauto. Qed.
Lemma k_new2 : forall k st tx sp ks, In k ks -> tkinds (new2 k st tx sp) ks.
Proof. intros k st tx sp ks H. unfold new2. apply k_bind. intros _ s a s' E. injection E as <- _. exact H. Qed.
Lemma k_mk : forall k p ks, In k ks -> tkinds (mk_token k p) ks.
Proof. intros k p ks H. unfold mk_token. do 4 (apply k_bind; intros). apply k_new2; auto. Qed.
Lemma k_err : forall k p ks, In k ks -> tkinds (error_token_at k p) ks.
Proof. intros k p ks H. unfold error_token_at. apply k_bind; intros. apply k_new2; auto. Qed.
Lemma k_out : forall A f ks, kinds f (@out_of_fuel A) ks.
Proof. intros A f ks s a s' E. discriminate. Qed.

Lemma k_peek : forall (m : M token) ks, tkinds m ks -> tkinds (peek m) ks.
Proof.
  intros m ks H s a s' E. unfold peek, bind, mark, seek, ret in E. destruct (m s) as [[b s1]| |] eqn:Em; try discriminate.
  injection E as <- _. eapply H; eauto.
Qed.

Ltac kin := solve [cbn; tauto].
Lemma k_string : forall o p c pol ks, In TK_String ks -> In TK_Error_UnterminatedString ks -> tkinds (handleString o p c pol) ks.
Proof.
  intros o p c pol ks H1 H2. unfold handleString. apply k_bind; intros _. apply k_bind; intros _. apply k_fuel. intros n.
  revert c. induction n as [|n IH]; intros c; cbn [string_loop]; [apply k_out|]. apply k_bind; intros d. apply k_if; [apply k_mk; auto|].
  apply k_if; [apply k_mk; auto|]. apply k_bind; intros _. apply (IH c).
Qed.

Definition TAG_KINDS := [TK_String; TK_Error_UnterminatedString; TK_Error_ExpectedTag].
Lemma tag_kinds : forall o, tkinds (ask o AsTag) TAG_KINDS.
Proof.
  intros o. cbn [ask]. unfold peek_token_as_tag. apply k_peek. unfold nextToken_stringifyAsTag.
  apply k_bind; intros p. apply k_bind; intros c. apply k_if; [apply k_err; kin|]. apply k_if; [apply k_err; kin|].
  apply k_if; [apply k_string; kin|]. unfold handleString_stringifyAsTag. apply k_if; [|apply k_new2; kin].
  apply k_bind; intros l. apply k_bind; intros d. apply k_mk; kin.
Qed.

Definition FILE_KINDS := [TK_String; TK_Error_UnterminatedString; TK_Error_ExpectedFile; TK_Error_UnterminatedFileString; TK_Whitespace; TK_ToplevelNewline].
Lemma file_kinds : forall o, tkinds (ask o AsFile) FILE_KINDS.
Proof.
  intros o. cbn [ask]. unfold peek_token_as_file. apply k_peek. unfold nextToken_stringifyAsFile.
  assert (FL : forall n start pol c, tkinds (file_loop o n start pol c) FILE_KINDS).
  { induction n as [|n IH]; intros start pol c; cbn [file_loop]; [apply k_out|]. apply k_if.
    - apply k_bind; intros _. apply k_bind; intros c1. apply IH.
    - apply k_if; [|apply k_mk; kin]. apply k_bind; intros _. apply k_bind; intros [c1|]; [apply IH|apply k_mk; kin]. }
  apply k_bind; intros p. apply k_bind; intros c. apply k_if; [apply k_err; kin|]. apply k_if; [apply k_mk; vm_compute; tauto|].
  apply k_if; [apply k_mk; kin|]. apply k_if; [apply k_string; kin|]. unfold handleString_stringifyAsFile. apply k_if.
  - apply k_bind; intros c1. apply k_fuel. intros n. apply FL.
  - apply k_if; [|apply k_err; kin]. apply k_bind; intros [c1|]; [apply k_fuel; intros n; apply FL|apply k_mk; kin].
Qed.

(** ** The end of the input is the same for every policy *)
Definition at_eof (bs : list Z) : Prop := exists c r, twl bs = Some (c, r) /\ wc c = EndOfFile.

Lemma ask_eof : forall o g pol s t s', Inv o s -> p_scan pol = false -> ask o (AsToken g pol) s = Ok (t, s') ->
  (t_kind t = TK_EndOfFile <-> at_eof (rest (cur s))).
Proof.
  intros o g pol s t s' HI Hp E. cbn [ask] in E. unfold peek_token_with, peek, bind, mark, seek, ret in E.
  set (pol' := if g then without_toplevel pol else pol) in *.
  assert (Hp' : p_scan pol' = false) by (unfold pol'; destruct g; auto). clearbody pol'.
  destruct (nextToken o pol' s) as [[u s1]| |] eqn:En; try discriminate. injection E as <- _.
  assert (W : wpr (SE s) o s (nextToken o pol') s (fun u _ => t_kind u = TK_EndOfFile <-> at_eof (rest (cur s)))).
  { unfold nextToken. apply wpr_bind, wpr_mark; auto; [apply R_refl|].
    apply wpr_bind. eapply wpr_call; [apply R_refl|apply nextWL_wp; auto; try apply R_refl|].
    - intros H. eapply (R_PE o s); eauto. apply R_refl.
    - cbn beta. intros c s2 I1 R1 _ T1. destruct (Z.eq_dec (wc c) EndOfFile) as [Ee|N].
      + unfold dispatch. rewrite Ee. cbv zeta. change (negb (between 0 EndOfFile 127)) with true. cbv iota.
        unfold nextToken_uncommon. rewrite Ee. change (EndOfFile =? EndOfFile) with true. cbv zeta iota.
        eapply wpr_conseq; [eapply T_eof; eauto|]. cbn beta. intros a s3 _ _ (Ha & _). rewrite Ha. cbn [t_kind].
        split; intros _; [|reflexivity]. exists c, (rest (cur s2)). auto.
      + eapply wpr_conseq; [apply dispatch_ok; auto|].
        * split; auto. split; auto. eapply next_shorter; eauto.
        * cbn beta. intros a s3 _ _ ((_ & _ & _ & L & _) & _). destruct (lexable_facts _ L) as (_ & _ & K). apply Z.eqb_neq in K.
          split; [congruence|]. intros (c' & r & Et & Ew). rewrite T1 in Et. injection Et as <- <-. contradiction. }
  unfold wpr in W. rewrite En in W. apply W.
Qed.

(** ** Places *)
Definition place := (list Z * loc)%type.
Definition here (z : st) : place := (rest (cur z), ploc (cur z)).
Definition len (z : st) : nat := length (rest (cur z)).
Definition past (t : token) : place := (rest (after t), ploc (after t)).

Section Places.
Variable o : opts.

(** asked [q] at [p], the tokenizer answers [t] *)
Definition reads (q : request) (p : place) (t : token) : Prop :=
  exists z z', Inv o z /\ here z = p /\ ask o q z = Ok (t, z').

(** the same, and the answer has been logged *)
Definition looks (q : request) (z : st) (t : token) : Prop :=
  exists z0 z1, Inv o z0 /\ here z0 = here z /\ ask o q z0 = Ok (t, z1) /\ logext o (lg z1) (lg z).

Lemma looks_reads : forall q z t, looks q z t -> reads q (here z) t.
Proof. intros q z t (z0 & z1 & H1 & H2 & H3 & _). exists z0, z1. auto. Qed.

Lemma looks_later : forall q z z' t, looks q z t -> here z' = here z -> logext o (lg z) (lg z') -> looks q z' t.
Proof. intros q z z' t (z0 & z1 & H1 & H2 & H3 & H4) E L. exists z0, z1. rewrite E. split; auto. split; auto. split; auto. eapply logext_trans; eauto. Qed.

Lemma reads_det : forall q p t u, plain_request q -> reads q p t -> reads q p u -> t = u.
Proof.
  intros q p t u Hq (z1 & z1' & I1 & E1 & A1) (z2 & z2' & I2 & E2 & A2). rewrite <- E2 in E1. injection E1 as Ea Eb.
  exact (ask_same o q z1 z2 t u _ _ I1 I2 Ea Eb Hq A1 A2).
Qed.

Lemma reads_asked : forall q p t, plain_request q -> reads q p t ->
  t_start t = fst p /\ fst p = t_text t ++ fst (past t) /\ t_src t = mkspan (snd p) (snd (past t)) /\ kind_ok q t (fst (past t)) /\
  loc_leb (snd p) (snd (past t)) = Some true.
Proof.
  intros q p t Hq (z & z' & I & <- & A). pose proof (ask_ok o q z I Hq) as H. unfold wpr in H. rewrite A in H.
  destruct H as (I' & R' & (A1 & A2 & A3 & A4 & A5 & A6 & A7)). unfold here, past. cbn [fst snd]. do 4 (split; [solve [auto]|]).
  apply (R_leb o z (mkst (after t) (lg z'))); auto.
Qed.

Lemma reads_eof : forall g p t, reads (AsToken g TOPLEVEL) p t -> (t_kind t = TK_EndOfFile <-> at_eof (fst p)).
Proof. intros g p t (z & z' & I & <- & A). exact (ask_eof o g TOPLEVEL z t z' I eq_refl A). Qed.

Lemma reads_tag : forall p t, reads AsTag p t -> In (t_kind t) TAG_KINDS.
Proof. intros p t (z & z' & _ & _ & A). exact (tag_kinds o _ _ _ A). Qed.
Lemma reads_file : forall p t, reads AsFile p t -> In (t_kind t) FILE_KINDS.
Proof. intros p t (z & z' & _ & _ & A). exact (file_kinds o _ _ _ A). Qed.

(** the trivia at a place, and the token after it *)
Inductive strip (q : request) (triv : Z -> bool) : place -> list token -> token -> place -> Prop :=
| strip_nil : forall p t, reads q p t -> triv (t_kind t) = false -> strip q triv p [] t p
| strip_cons : forall p t l u p', reads q p t -> triv (t_kind t) = true -> strip q triv (past t) l u p' -> strip q triv p (t :: l) u p'.

Lemma strip_det : forall q triv p l t p', plain_request q -> strip q triv p l t p' -> forall l2 t2 p2, strip q triv p l2 t2 p2 -> l = l2 /\ t = t2 /\ p' = p2.
Proof.
  intros q triv p l t p' Hq H. induction H as [p t Hr Ht|p t l u p' Hr Ht H IH]; intros l2 t2 p2 H2; inversion H2 as [p0 t0 Hr2 Ht2|p0 t0 l0 u0 p0' Hr2 Ht2 H0]; subst.
  - split; auto. split; auto. eapply reads_det; eauto.
  - assert (t = t0) by (eapply reads_det; eauto). congruence.
  - assert (t = t2) by (eapply reads_det; eauto). congruence.
  - assert (t = t0) by (eapply reads_det; eauto). subst t0. destruct (IH _ _ _ H0) as (-> & -> & ->). auto.
Qed.

(** ** Rows of leaves *)
Definition inserted_at (p : place) (t : token) : Prop :=
  zin (t_kind t) INSERTED = true /\ t_start t = fst p /\ t_text t = [] /\ t_src t = mkspan (snd p) (snd p).
Definition relabelled (u t : token) : Prop :=
  t = u \/ (isCloser (t_kind u) = true /\ t = tok_at TK_Error_UnexpectedCloser u) \/
  (prefix_of (t_kind u) = PP_PrefixUnsupportedToken /\ t = tok_at TK_Error_UnsupportedToken u).
Definition told_at (p : place) (t : token) : Prop :=
  exists q u, plain_request q /\ reads q p u /\ t_kind u <> TK_EndOfFile /\ relabelled u t.

Inductive row : place -> list token -> place -> Prop :=
| prow_nil : forall p, row p [] p
| prow_cons : forall p t l p', inserted_at p t \/ told_at p t -> row (past t) l p' -> row p (t :: l) p'.

Lemma row_snoc : forall p l p' t, row p l p' -> inserted_at p' t \/ told_at p' t -> row p (l ++ [t]) (past t).
Proof.
  intros p l p' t H Ht. induction H as [p|p u l p' Hu H IH]; cbn; [constructor; auto; constructor|]. constructor; auto.
Qed.
Lemma row_cat : forall p l p' l' p'', row p l p' -> row p' l' p'' -> row p (l ++ l') p''.
Proof. intros p l p' l' p'' H. induction H; cbn; auto. intros. constructor; auto. Qed.

Lemma past_relabelled : forall u t, relabelled u t -> t_kind u <> TK_EndOfFile -> past t = past u.
Proof. intros u t [->|[[_ ->]|[_ ->]]] H; reflexivity. Qed.

Lemma past_inserted : forall p t, inserted_at p t -> past t = p.
Proof. intros [a b] t (_ & E1 & E2 & E3). unfold past, after. rewrite E1, E2, E3. reflexivity. Qed.

End Places.

(** ** Leaves *)
Definition leaves (l : list cst) : list token := flat_map toks l.
Lemma leaves_app : forall a b, leaves (a ++ b) = leaves a ++ leaves b.
Proof. intros. apply flat_map_app. Qed.
Lemma leaves_map : forall l, leaves (map Tok l) = l.
Proof. induction l as [|t l IH]; [reflexivity|]. change (t :: leaves (map Tok l) = t :: l). congruence. Qed.

(** ** Parts *)
Lemma parts_app : forall a b, parts (a ++ b) = parts a ++ parts b.
Proof. intros. unfold parts. apply filter_app. Qed.
Lemma parts_trivia : forall l, Forall (fun t => isTrivia (t_kind t) = true) l -> parts (map Tok l) = [].
Proof. intros l H. induction H as [|t l Ht H IH]; auto. cbn. rewrite Ht. exact IH. Qed.
Lemma parts_solid : forall n, trivia_leaf n = false -> parts [n] = [n].
Proof. intros n H. unfold parts. cbn. rewrite H. reflexivity. Qed.
Lemma parts_one : forall n l, trivia_leaf n = false -> parts (n :: l) = n :: parts l.
Proof. intros n l H. unfold parts. cbn. rewrite H. reflexivity. Qed.

(** ** Precedence *)
Lemma lor_one : forall p, Z.lor p 1 = if Z.odd p then p else p + 1.
Proof.
  intros p. destruct (Z.odd p) eqn:E.
  - apply Z.bits_inj'. intros n Hn. rewrite Z.lor_spec. destruct (Z.eq_dec n 0) as [->|N].
    + rewrite Z.bit0_odd, E. reflexivity.
    + replace (Z.testbit 1 n) with false; [apply orb_false_r|]. symmetry. apply Z.testbit_false; auto. 
      rewrite Z.div_small; [reflexivity|]. split; [lia|]. apply Z.pow_gt_1; lia.
  - assert (L : Z.land p 1 = 0).
    { apply Z.bits_inj'. intros n Hn. rewrite Z.land_spec, Z.bits_0. destruct (Z.eq_dec n 0) as [->|N].
      - rewrite Z.bit0_odd, E. reflexivity.
      - replace (Z.testbit 1 n) with false; [apply andb_false_r|]. symmetry. apply Z.testbit_false; auto.
        rewrite Z.div_small; [reflexivity|]. split; [lia|]. apply Z.pow_gt_1; lia. }
    rewrite <- Z.lxor_lor by exact L. symmetry. apply Z.add_nocarry_lxor. exact L.
Qed.
Lemma not_greater : forall p q, prec_greater p q = false -> p < q \/ (p = q /\ Z.odd p = true).
Proof.
  intros p q H. unfold prec_greater in H. rewrite lor_one in H. apply Z.ltb_ge in H. destruct (Z.odd p) eqn:E; [|left; lia].
  destruct (Z.eq_dec p q) as [->|N]; [right; auto|left; lia].
Qed.
Lemma greater_zero : forall p, 0 <= p -> prec_greater p 0 = true.
Proof. intros p H. unfold prec_greater. rewrite lor_one. apply Z.ltb_lt. destruct (Z.odd p) eqn:E; [|lia]. destruct (Z.eq_dec p 0) as [->|]; [discriminate|lia]. Qed.
