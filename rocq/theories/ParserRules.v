(** Rules for the actions of the parser. *)
From Coq Require Import ZArith List Bool Lia.
From Verif Require Import Base Source WLChar LongNames ByteDecoder CharDecoder Decode SpecText Iter
  TextProofs Logic WlDecode SpecReader ReaderProofs GenTokenKind TokenKind Format Tokenizer TokLogic
  TokenizerProofs SpecTokenizer TokenLoop TokSim TokAgree GenPrec GenOps GenParselets Parselets Cst SpecCst CstProofs Parser SpecParser ParserLogic.
Import ListNotations.
Local Open Scope Z_scope.

(** ** The tables *)
Definition SOLID_KINDS : list Z := TK_EndOfFile :: filter (fun k => negb (isTrivia k)) LEX_KINDS.
Definition solidk (k : Z) : bool := zin k SOLID_KINDS.

Lemma solidk_forall : forall P : Z -> bool, forallb P SOLID_KINDS = true -> forall k, solidk k = true -> P k = true.
Proof. intros P H k Hk. apply zin_In in Hk. exact (proj1 (forallb_forall _ _) H _ Hk). Qed.

(** takes the token it is given *)
Definition consuming (p : prefix_parselet) : bool :=
  match p with PP_PrefixCloser | PP_PrefixEndOfFile | PP_PrefixComma | PP_PrefixUnhandled => false | _ => true end.

Definition blank_entryb (k bop pbop : Z) : bool :=
  ((k =? TK_Under) && (bop =? COP_Blank) && (pbop =? COP_CodeParser_PatternBlank)) ||
  ((k =? TK_UnderUnder) && (bop =? COP_BlankSequence) && (pbop =? COP_CodeParser_PatternBlankSequence)) ||
  ((k =? TK_UnderUnderUnder) && (bop =? COP_BlankNullSequence) && (pbop =? COP_CodeParser_PatternBlankNullSequence)).

Definition res_eqb (a b : res Z) : bool := match a, b with Ok x, Ok y => x =? y | _, _ => false end.

(** an infix parselet that can be asked to parse, with its precedence *)
Definition iprec (p : infix_parselet) : option Z :=
  match p with
  | IP_InfixImplicitTimes | IP_InfixAssertFalse | IP_InfixDifferentialD | IP_InfixToplevelNewline => None
  | IP_BinaryOperator p _ | IP_InfixOperator p _ | IP_PostfixOperator p _ => Some p
  | IP_Times => Some PREC_STAR
  | IP_Call _ _ => Some PREC_CALL
  | IP_Comma => Some PREC_COMMA
  | IP_Semi => Some PREC_SEMI
  | IP_SemiSemi => Some PREC_SEMISEMI
  | IP_Tilde => Some PREC_TILDE
  | IP_Colon => Some PREC_HIGHEST
  | IP_SlashColon => Some PREC_SLASHCOLON
  | IP_Equal => Some PREC_EQUAL
  | IP_ColonEqual => Some PREC_COLONEQUAL
  | IP_ColonColon => Some PREC_COLONCOLON
  | IP_GreaterGreater => Some PREC_GREATERGREATER
  | IP_GreaterGreaterGreater => Some PREC_GREATERGREATERGREATER
  end.

Definition prefix_facts (k : Z) : bool :=
  match prefix_of k with
  | PP_Leaf | PP_UnderDot => leaf_kind k
  | PP_PrefixError => isError k && leaf_kind k
  | PP_PrefixEndOfFile => k =? TK_EndOfFile
  | PP_PrefixCloser => isCloser k
  | PP_PrefixUnsupportedToken => true
  | PP_PrefixComma => is_comma k
  | PP_PrefixUnhandled => negb (isPossibleBeginning k) && match iprec (infix_of k) with None => false | Some _ => true end
  | PP_PrefixOperator prec _ => 0 <? prec
  | PP_Group opener op => match GroupOpenerToCloser k with Ok c => res_eqb (GroupOpenerToCloser opener) (Ok c) && negb (c =? -1) | _ => false end
  | PP_Symbol => (k =? TK_Symbol) && leaf_kind k
  | PP_SemiSemi => k =? TK_SemiSemi
  | PP_Integral _ _ => true
  | PP_LessLess => true
  | PP_Hash => (k =? TK_Hash) && leaf_kind k
  | PP_HashHash => (k =? TK_HashHash) && leaf_kind k
  | PP_Percent => (k =? TK_Percent) && leaf_kind k
  | PP_Under bop pbop => blank_entryb k bop pbop && leaf_kind k
  end.

Definition infix_facts (k : Z) : bool :=
  match infix_of k with
  | IP_InfixImplicitTimes | IP_InfixDifferentialD => consuming (prefix_of k)
  | IP_SemiSemi => (k =? TK_SemiSemi) && consuming (prefix_of k)
  | IP_Call opener op =>
      match prefix_of k with PP_Group opener' op' => (opener =? opener') && (op =? op') | _ => false end &&
      match try_to_call_operator op with Ok _ => true | _ => false end
  | IP_Comma => is_comma k
  | IP_Semi => k =? TK_Semi
  | IP_Tilde => k =? TK_Tilde
  | IP_Colon => k =? TK_Colon
  | IP_SlashColon => k =? TK_SlashColon
  | IP_Equal => k =? TK_Equal
  | IP_ColonEqual => k =? TK_ColonEqual
  | IP_ColonColon => k =? TK_ColonColon
  | IP_InfixOperator _ op => negb (zin op [IOP_Times; IOP_CodeParser_InternalInvalid])
  | _ => true
  end &&
  match iprec (infix_of k) with Some p => (0 <? p) && (p <=? PREC_HIGHEST) | None => true end.

Definition kind_facts (k : Z) : bool :=
  negb (isTrivia k) && prefix_facts k && infix_facts k &&
  (if isCloser k || (k =? TK_EndOfFile) then
     match infix_of k with IP_InfixAssertFalse => true | _ => false end && negb (isPossibleBeginning k) && negb (consuming (prefix_of k))
   else true) &&
  (if isCloser k then match prefix_of k with PP_PrefixCloser => true | _ => false end && (TokenToCloser k =? k) else TokenToCloser k =? -1) &&
  (if k =? TK_EndOfFile then negb (isCloser k) else negb (match prefix_of k with PP_PrefixEndOfFile => true | _ => false end)).

Lemma kind_facts_all : forallb kind_facts SOLID_KINDS = true.
Proof. vm_compute. reflexivity. Qed.

Lemma kf : forall k, solidk k = true -> kind_facts k = true.
Proof. exact (solidk_forall _ kind_facts_all). Qed.

Ltac split_andb H := repeat match type of H with _ && _ = true => let H' := fresh H in apply andb_true_iff in H as [H H'] end.

Lemma kf_parts : forall k, solidk k = true ->
  isTrivia k = false /\ prefix_facts k = true /\ infix_facts k = true /\
  (if isCloser k || (k =? TK_EndOfFile) then
     match infix_of k with IP_InfixAssertFalse => true | _ => false end && negb (isPossibleBeginning k) && negb (consuming (prefix_of k))
   else true) = true /\
  (if isCloser k then match prefix_of k with PP_PrefixCloser => true | _ => false end && (TokenToCloser k =? k) else TokenToCloser k =? -1) = true /\
  (if k =? TK_EndOfFile then negb (isCloser k) else negb (match prefix_of k with PP_PrefixEndOfFile => true | _ => false end)) = true.
Proof.
  intros k H. apply kf in H. unfold kind_facts in H.
  apply andb_true_iff in H as [H H6]. apply andb_true_iff in H as [H H5]. apply andb_true_iff in H as [H H4].
  apply andb_true_iff in H as [H H3]. apply andb_true_iff in H as [H H2]. rewrite negb_true_iff in H.
  split; [exact H|]. split; [exact H2|]. split; [exact H3|]. split; [exact H4|]. split; [exact H5|exact H6].
Qed.
Lemma solidk_trivia : forall k, solidk k = true -> isTrivia k = false. Proof. intros k H. apply kf_parts in H. tauto. Qed.
Lemma solidk_prefix : forall k, solidk k = true -> prefix_facts k = true. Proof. intros k H. apply kf_parts in H. tauto. Qed.
Lemma solidk_infix : forall k, solidk k = true -> infix_facts k = true. Proof. intros k H. apply kf_parts in H. tauto. Qed.

Lemma solidk_stop : forall k, solidk k = true -> isCloser k = true \/ k = TK_EndOfFile ->
  infix_of k = IP_InfixAssertFalse /\ isPossibleBeginning k = false /\ consuming (prefix_of k) = false.
Proof.
  intros k H D. apply kf_parts in H as (_ & _ & _ & H & _).
  assert (B : isCloser k || (k =? TK_EndOfFile) = true) by (destruct D as [D| ->]; [rewrite D|rewrite Z.eqb_refl, orb_true_r]; reflexivity).
  rewrite B in H. apply andb_true_iff in H as [H H3]. apply andb_true_iff in H as [H H2]. rewrite negb_true_iff in *.
  split; [destruct (infix_of k); congruence|auto].
Qed.
Lemma solidk_closer : forall k, solidk k = true -> isCloser k = true -> prefix_of k = PP_PrefixCloser /\ TokenToCloser k = k.
Proof.
  intros k H D. apply kf_parts in H as (_ & _ & _ & _ & H & _). rewrite D in H. apply andb_true_iff in H as [H H2]. apply Z.eqb_eq in H2.
  split; [destruct (prefix_of k); congruence|auto].
Qed.
Lemma solidk_not_closer : forall k, solidk k = true -> isCloser k = false -> TokenToCloser k = -1.
Proof. intros k H D. apply kf_parts in H as (_ & _ & _ & _ & H & _). rewrite D in H. apply Z.eqb_eq in H. auto. Qed.
Lemma solidk_eof : forall k, solidk k = true -> prefix_of k = PP_PrefixEndOfFile -> k = TK_EndOfFile.
Proof.
  intros k H D. apply kf_parts in H as (_ & _ & _ & _ & _ & H). destruct (Z.eqb_spec k TK_EndOfFile); auto. rewrite D in H. discriminate.
Qed.
Lemma eof_not_closer : isCloser TK_EndOfFile = false. Proof. reflexivity. Qed.

(** the groups and their closers *)
Lemma opener_closer_b : forallb (fun k => match prefix_of k with
   | PP_Group _ _ => match GroupOpenerToCloser k with Ok c => isCloser c && (TokenToCloser c =? c) | _ => false end
   | _ => true end) SOLID_KINDS = true.
Proof. vm_compute. reflexivity. Qed.

(** the entry of the token inserted for a missing multiplication *)
Lemma infix_fake : infix_of TK_Fake_ImplicitTimes = IP_Times. Proof. reflexivity. Qed.

(** ** What the tokenizer answers *)
Lemma strip_place : forall o q triv p l t p', strip o q triv p l t p' -> reads o q p' t /\ triv (t_kind t) = false /\ Forall (fun t => triv (t_kind t) = true) l.
Proof. intros o q triv p l t p' H. induction H as [p t H1 H2|p t l u p' H1 H2 H (IH1 & IH2 & IH3)]; auto. Qed.

Lemma reads_kind : forall o g p t, reads o (AsToken g TOPLEVEL) p t -> t_kind t = TK_EndOfFile \/ (lexable (t_kind t) = true /\ t_text t <> []).
Proof.
  intros o g p t H. destruct (reads_asked o (AsToken g TOPLEVEL) p t eq_refl H) as (_ & _ & _ & [(K1 & K2 & _)|[(g' & pol & _ & K & _)|(_ & _ & [K|K])]] & _); auto; discriminate.
Qed.
Lemma lexable_solid : forall k, lexable k = true -> isTrivia k = false -> solidk k = true.
Proof.
  intros k H1 H2. assert (F : negb (isTrivia k) = true) by (rewrite H2; reflexivity). apply zin_In in H1.
  exact (proj2 (zin_In SOLID_KINDS k) (in_cons _ _ _ (proj2 (filter_In (fun k => negb (isTrivia k)) k LEX_KINDS) (conj H1 F)))).
Qed.
Lemma reads_solid : forall o g p t, reads o (AsToken g TOPLEVEL) p t -> isTrivia (t_kind t) = false -> solidk (t_kind t) = true.
Proof. intros o g p t H E. destruct (reads_kind o g p t H) as [-> |[H1 _]]; [reflexivity|apply lexable_solid; auto]. Qed.
Lemma reads_text : forall o g p t, reads o (AsToken g TOPLEVEL) p t -> t_kind t <> TK_EndOfFile -> t_text t <> [].
Proof. intros o g p t H N. destruct (reads_kind o g p t H) as [H1|[_ H1]]; auto; contradiction. Qed.

Lemma trivia_kinds_b : forallb (fun k => negb (isTrivia k)) [TK_EndOfFile; TK_Error_ExpectedTag; TK_Error_ExpectedFile] = true.
Proof. vm_compute. reflexivity. Qed.
Lemma reads_trivia : forall o q p t, plain_request q -> reads o q p t -> isTrivia (t_kind t) = true -> t_text t <> [] /\ t_kind t <> TK_EndOfFile.
Proof.
  intros o q p t Hq H E. destruct (reads_asked o _ p t Hq H) as (_ & _ & _ & [(K1 & K2 & _)|[(g' & pol & _ & K & _)|([K|K] & _ & _)]] & _).
  - split; auto. destruct (lexable_facts _ K1) as (_ & _ & N). apply Z.eqb_neq; auto.
  - rewrite K in E. vm_compute in E. discriminate.
  - rewrite K in E. vm_compute in E. discriminate.
  - rewrite K in E. vm_compute in E. discriminate.
Qed.
Lemma triv_newline : forall k, isTriviaButNotToplevelNewline k = true -> isTrivia k = true.
Proof.
  intros k H. unfold isTriviaButNotToplevelNewline, isTrivia in *. apply Z.eqb_eq in H. apply Z.eqb_eq.
  change 0x1f8 with (Z.land 0x1fc 0x1f8). rewrite Z.land_assoc, H. reflexivity.
Qed.
Lemma newline_kind_b : forallb (fun k => isTriviaButNotToplevelNewline k || negb (isTrivia k) || (k =? TK_ToplevelNewline)) LEX_KINDS = true.
Proof. vm_compute. reflexivity. Qed.

(** after reading up to a line break: a solid token or the line break *)
Lemma reads_newline : forall o g p t, reads o (AsToken g TOPLEVEL) p t -> isTriviaButNotToplevelNewline (t_kind t) = false ->
  solidk (t_kind t) = true \/ t_kind t = TK_ToplevelNewline.
Proof.
  intros o g p t H E. destruct (reads_kind o g p t H) as [-> |[L _]]; [left; reflexivity|].
  pose proof (lexable_forall _ newline_kind_b _ L) as B. cbn beta in B. rewrite E in B. cbn [orb] in B. apply orb_true_iff in B as [B|B].
  - left. apply lexable_solid; auto. apply negb_true_iff; auto.
  - right. apply Z.eqb_eq; auto.
Qed.

(** stripping up to a line break is stripping, or ends at one *)
Lemma strip_newline : forall o g p l t p', strip o (AsToken g TOPLEVEL) isTriviaButNotToplevelNewline p l t p' ->
  strip o (AsToken g TOPLEVEL) isTrivia p l t p' \/ t_kind t = TK_ToplevelNewline.
Proof.
  intros o g p l t p' H. induction H as [p t H1 H2|p t l u p' H1 H2 H IH].
  - destruct (reads_newline _ _ _ _ H1 H2) as [K|K]; auto. left. constructor; auto. apply solidk_trivia; auto.
  - destruct IH as [IH|IH]; auto. left. constructor; auto. apply triv_newline; auto.
Qed.

(** ** Weakest preconditions *)
Definition isg (G : list Z) : bool := match G with [] => false | _ => true end.
Definition qtop (G : list Z) := AsToken (isg G) TOPLEVEL.

Section Rules.
Variable o : opts.
Variable dbg : bool.
Variable base : st.
Variable E : Prop.
Hypothesis HE : SE base -> E.

Definition good (z : st) : Prop := Inv o z /\ R o base z /\ weof (cur z) = false.

Definition PW {A} (m : P A) (s : pst) (Q : A -> pst -> Prop) : Prop :=
  match m s with Ok (a, s') => Q a s' | Panic => E | OutOfFuel => False end.

Lemma PW_bind : forall A B (m : P A) (k : A -> P B) s Q, PW m s (fun a s' => PW (k a) s' Q) -> PW (pbind m k) s Q.
Proof. intros A B m k s Q H. unfold PW, pbind in *. destruct (m s) as [[a s']| |]; auto. Qed.
Lemma PW_ret : forall A (a : A) s (Q : A -> pst -> Prop), Q a s -> PW (pret a) s Q.
Proof. intros. exact H. Qed.
Lemma PW_conseq : forall A (m : P A) s (Q Q' : A -> pst -> Prop), PW m s Q -> (forall a s', Q a s' -> Q' a s') -> PW m s Q'.
Proof. intros A m s Q Q' H HQ. unfold PW in *. destruct (m s) as [[a s']| |]; auto. Qed.
Lemma PW_assert : forall b s (Q : unit -> pst -> Prop), b = true -> Q tt s -> PW (passert b) s Q.
Proof. intros b s Q -> H. exact H. Qed.
Lemma PW_debug : forall b s (Q : unit -> pst -> Prop), b = true -> Q tt s -> PW (pdebug_assert dbg b) s Q.
Proof. intros b s Q -> H. unfold pdebug_assert. destruct dbg; exact H. Qed.
Lemma PW_debug_or : forall b s (Q : unit -> pst -> Prop), (b = false -> dbg = true -> E) -> Q tt s -> PW (pdebug_assert dbg b) s Q.
Proof. intros b s Q H HQ. unfold pdebug_assert. destruct dbg; auto. destruct b; auto. exact (H eq_refl eq_refl). Qed.
Lemma PW_lift : forall A (r : res A) a s (Q : A -> pst -> Prop), r = Ok a -> Q a s -> PW (plift r) s Q.
Proof. intros A r a s Q -> H. exact H. Qed.

(** ** The tokenizer *)
Lemma good_len : forall z, good z -> (len z <= len base)%nat.
Proof. intros z (_ & H & _). apply R_length in H. exact H. Qed.

Lemma PW_ask : forall q z S C G (Q : token -> pst -> Prop), good z -> plain_request q ->
  (forall t z', good z' -> here z' = here z -> logext o (lg z) (lg z') -> looks o q z' t -> R o z z' -> Q t (mkp z' S C G)) ->
  PW (tk (ask o q)) (mkp z S C G) Q.
Proof.
  intros q z S C G Q (HI & HR & HW) Hq HQ. unfold PW, tk. cbn [tz stack ctxs groups].
  pose proof (ask_ok o q z HI Hq) as H. unfold wpr in H. destruct (ask o q z) as [[t z']| |] eqn:Ea; [|apply HE; eapply R_surr; eauto|contradiction].
  destruct H as (I' & R' & A). destruct A as (A1 & _). apply HQ; auto.
  - split; auto. split; [eapply R_trans; eauto|rewrite A1; auto].
  - unfold here. rewrite A1. auto.
  - apply R'.
  - exists z, z'. split; auto. split; [unfold here; rewrite A1; auto|]. split; auto. apply le_refl.
Qed.

Lemma peek_eq : forall z S C G, ppeek o (mkp z S C G) = tk (ask o (qtop G)) (mkp z S C G).
Proof. intros z S C G. unfold ppeek, ppeek_with, inside_group, qtop, isg. cbn [groups ask]. reflexivity. Qed.
Lemma PW_peek : forall z S C G (Q : token -> pst -> Prop), good z ->
  (forall t z', good z' -> here z' = here z -> logext o (lg z) (lg z') -> looks o (qtop G) z' t -> R o z z' -> Q t (mkp z' S C G)) ->
  PW (ppeek o) (mkp z S C G) Q.
Proof. intros z S C G Q Hg HQ. unfold PW. rewrite peek_eq. exact (PW_ask (qtop G) z S C G Q Hg eq_refl HQ). Qed.

Lemma good_skip : forall q z t, good z -> plain_request q -> looks o q z t -> t_kind t <> TK_EndOfFile ->
  good (mkst (after t) (lg z)) /\ R o z (mkst (after t) (lg z)) /\ (t_text t <> [] -> (len (mkst (after t) (lg z)) < len z)%nat).
Proof.
  intros q z t (HI & HR & HW) Hq (z0 & z1 & I0 & E0 & A0 & L0) N. pose proof (ask_ok o q z0 I0 Hq) as H. unfold wpr in H. rewrite A0 in H.
  destruct H as (_ & _ & (_ & A2 & A3 & _ & A5 & _)). injection E0 as E1 E2.
  assert (R1 : R o z (mkst (after t) (lg z))).
  { destruct A3 as [[cs [M U]] [L D]]. cbn [cur] in M. rewrite E1, E2 in M. split; [|split].
    - exists cs. split; auto. intros X. apply U in X. unfold lflag in *. cbn [lg] in *. eapply logext_flag; eauto.
    - cbn. apply le_refl.
    - cbn. auto. }
  split; [|split; auto].
  - split; [exact A2|]. split; [eapply R_trans; eauto|]. cbn. apply Z.eqb_neq. auto.
  - intros T. unfold len. cbn [cur]. rewrite <- E1, A5, app_length. destruct (t_text t); [congruence|cbn; lia].
Qed.

Lemma PW_skip : forall q z t S C G (Q : unit -> pst -> Prop), good z -> plain_request q -> looks o q z t -> t_kind t <> TK_EndOfFile ->
  (forall z', good z' -> here z' = past t -> R o z z' -> (len z' <= len z)%nat -> (t_text t <> [] -> (len z' < len z)%nat) -> Q tt (mkp z' S C G)) ->
  PW (pskip t) (mkp z S C G) Q.
Proof.
  intros q z t S C G Q Hg Hq HL N HQ. destruct (good_skip q z t Hg Hq HL N) as (G1 & R1 & T1).
  unfold PW, pskip, tk. cbn [tz stack ctxs groups]. rewrite skip_eq. apply HQ; auto. apply R_length in R1. exact R1.
Qed.

(** skipping an inserted token does not move *)
Lemma PW_skip_fake : forall q z k t S C G (Q : unit -> pst -> Prop), good z -> plain_request q -> looks o q z t -> len_zero k = true -> k <> TK_EndOfFile ->
  (forall z', good z' -> here z' = here z -> lg z' = lg z -> Q tt (mkp z' S C G)) ->
  PW (pskip (tok_at_start k t)) (mkp z S C G) Q.
Proof.
  intros q z k t S C G Q (HI & HR & HW) Hq HL Hk N HQ. unfold PW, pskip, tk. cbn [tz stack ctxs groups]. rewrite skip_eq.
  destruct (reads_asked o q _ t Hq (looks_reads o q z t HL)) as (A1 & _ & A3 & _). unfold here in A1, A3. cbn [fst snd] in A1, A3.
  assert (Ea : after (tok_at_start k t) = mkpos (rest (cur z)) false (ploc (cur z))).
  { unfold after, tok_at_start, tok_at. cbn [t_kind t_start t_text t_src sp_end sp_start]. rewrite Hk. cbn [length skipn].
    rewrite A1, A3. cbn [sp_start]. f_equal. apply Z.eqb_neq. auto. }
  rewrite Ea. apply HQ; auto. split; [|split; [exact HR|reflexivity]].
  - destruct HI as (I1 & I2 & I3). split; auto. split; auto. intros X. discriminate.
Qed.

Lemma tok_start : forall q p t, plain_request q -> reads o q p t -> t_start t = fst p /\ sp_start (t_src t) = snd p.
Proof. intros q p t Hq H. destruct (reads_asked o q p t Hq H) as (A1 & _ & A3 & _). split; auto. rewrite A3. reflexivity. Qed.

Lemma PW_reset : forall z z' t S C G (Q : unit -> pst -> Prop), good z -> good z' -> R o z z' -> t_start t = fst (here z) -> sp_start (t_src t) = snd (here z) ->
  (forall z2, good z2 -> here z2 = here z -> lg z2 = lg z' -> Q tt (mkp z2 S C G)) ->
  PW (preset t) (mkp z' S C G) Q.
Proof.
  intros z z' t S C G Q (HI & HR & HW) (HI' & HR' & HW') HRR E1 E2 HQ. unfold PW, preset, tk, reset, seek_loc. cbn [tz stack ctxs groups].
  rewrite E1, E2. apply HQ; auto. split; [|split; auto].
  - destruct HI as (I1 & I2 & I3). split; auto. split; auto. intros X. cbn in X. congruence.
  - apply (R_seek_loc o base z z' _); auto.
Qed.

Lemma PW_trivia_reset : forall q triv z z' l t S C G (Q : unit -> pst -> Prop), plain_request q -> good z -> good z' -> R o z z' ->
  strip o q triv (here z) l t (here z') ->
  (forall z2, good z2 -> here z2 = here z -> lg z2 = lg z' -> Q tt (mkp z2 S C G)) ->
  PW (trivia_reset l) (mkp z' S C G) Q.
Proof.
  intros q triv z z' l t S C G Q Hq Hg Hg' HR HS HQ. remember (here z) as a eqn:Ea. remember (here z') as b eqn:Eb.
  destruct HS as [p u Hr Ht|p u l' v p' Hr Ht H]; subst p.
  - apply PW_ret. apply HQ; auto.
  - destruct (tok_start q _ u Hq Hr). cbn [trivia_reset]. apply (PW_reset z z'); auto.
Qed.

Lemma PW_trivia_loop : forall q triv get S C G, plain_request q -> (forall k, triv k = true -> isTrivia k = true) ->
  (forall z, get (mkp z S C G) = tk (ask o q) (mkp z S C G)) ->
  forall fuel z (Q : list token * token -> pst -> Prop), good z -> (len z < fuel)%nat ->
  (forall l t z', good z' -> R o z z' -> strip o q triv (here z) l t (here z') -> looks o q z' t -> Q (l, t) (mkp z' S C G)) ->
  PW (trivia_loop fuel get triv) (mkp z S C G) Q.
Proof.
  intros q triv get S C G Hq Ht Hget. induction fuel as [|k IH]; intros z Q Hg Hf HQ; [lia|]. cbn [trivia_loop].
  apply PW_bind. unfold PW. rewrite Hget. change (PW (tk (ask o q)) (mkp z S C G) (fun t s' =>
    PW (if triv (t_kind t) then (pskip t ;; ' (l, u) <- trivia_loop k get triv ;; pret (t :: l, u))%parser else pret ([], t)) s' Q)).
  apply PW_ask; auto. intros t z' G' H' L' HL R'. pose proof (looks_reads o q z' t HL) as Hr. rewrite H' in Hr.
  destruct (triv (t_kind t)) eqn:Et.
  - destruct (reads_trivia o q _ t Hq Hr (Ht _ Et)) as [T1 T2].
    apply PW_bind. apply (PW_skip q); auto. intros z2 G2 H2 R2 L2 S2. specialize (S2 T1). apply PW_bind. apply IH; auto.
    + apply R_length in R'. unfold len in *. lia.
    + intros l u z3 G3 R3 St HL3. apply PW_ret. apply HQ; auto.
      * eapply R_trans; [eassumption|]. eapply R_trans; eassumption.
      * apply strip_cons; auto. rewrite <- H2. exact St.
  - apply PW_ret. apply HQ; auto. rewrite H'. constructor; auto.
Qed.

Lemma PW_current : forall z S C G (Q : list token * token -> pst -> Prop), good z ->
  (forall l t z', good z' -> R o z z' -> strip o (qtop G) isTrivia (here z) l t (here z') -> looks o (qtop G) z' t -> Q (l, t) (mkp z' S C G)) ->
  PW (current_token o dbg) (mkp z S C G) Q.
Proof.
  intros z S C G Q Hg HQ. unfold current_token. apply PW_bind. unfold pwith_fuel. unfold PW at 1. cbn [tz].
  change (PW (trivia_loop (Datatypes.S (len z)) (ppeek o) isTrivia) (mkp z S C G) (fun a s' => PW ((let '(l, t) := a in
    pdebug_assert dbg (negb (isTrivia (t_kind t))) ;; pret (l, t))%parser) s' Q)).
  apply (PW_trivia_loop (qtop G) isTrivia (ppeek o) S C G eq_refl (fun k H => H) (fun z => peek_eq z S C G) _ z _ Hg (Nat.lt_succ_diag_r _)). intros l t z' G' R' St HL. cbv beta iota.
  destruct (strip_place _ _ _ _ _ _ _ St) as (_ & Tt & _).
  apply PW_bind. apply PW_debug; [rewrite Tt; auto|]. apply PW_ret. apply HQ; auto.
Qed.

Lemma PW_current_nl : forall z S C G (Q : list token * token -> pst -> Prop), good z ->
  (forall l t z', good z' -> R o z z' -> strip o (qtop G) isTriviaButNotToplevelNewline (here z) l t (here z') -> looks o (qtop G) z' t -> Q (l, t) (mkp z' S C G)) ->
  PW (current_token_not_newline o) (mkp z S C G) Q.
Proof.
  intros z S C G Q Hg HQ. unfold current_token_not_newline, pwith_fuel, PW. cbn [tz].
  exact (PW_trivia_loop (qtop G) isTriviaButNotToplevelNewline (ppeek o) S C G eq_refl triv_newline (fun z => peek_eq z S C G) _ z Q Hg (Nat.lt_succ_diag_r _) HQ).
Qed.

Lemma PW_current_file : forall z S C G (Q : list token * token -> pst -> Prop), good z ->
  (forall l t z', good z' -> R o z z' -> strip o AsFile isTrivia (here z) l t (here z') -> looks o AsFile z' t -> Q (l, t) (mkp z' S C G)) ->
  PW (pwith_fuel (fun k => trivia_loop k (ppeek_as_file o) isTrivia)) (mkp z S C G) Q.
Proof.
  intros z S C G Q Hg HQ. unfold pwith_fuel, PW. cbn [tz].
  exact (PW_trivia_loop AsFile isTrivia (ppeek_as_file o) S C G I (fun k H => H) (fun z => eq_refl) _ z Q Hg (Nat.lt_succ_diag_r _) HQ).
Qed.

(** ** The node stack *)
Lemma PW_push_node : forall n z st cs gs (Q : unit -> pst -> Prop), Q tt (mkp z (st ++ [n]) cs gs) -> PW (push_node n) (mkp z st cs gs) Q.
Proof. intros. exact H. Qed.
Lemma PW_push_trivia : forall l z st cs gs (Q : unit -> pst -> Prop), Q tt (mkp z (st ++ map Tok l) cs gs) -> PW (push_trivia l) (mkp z st cs gs) Q.
Proof. intros. exact H. Qed.
Lemma PW_push_leaf : forall t z st cs gs (Q : unit -> pst -> Prop), isTrivia (t_kind t) = false ->
  Q tt (mkp z (st ++ [Tok t]) cs gs) -> PW (push_leaf dbg t) (mkp z st cs gs) Q.
Proof. intros t z st cs gs Q Ht H. unfold push_leaf. apply PW_bind. apply PW_debug; [rewrite Ht; auto|]. apply PW_push_node. exact H. Qed.
Lemma PW_push_syntax : forall t z st cs gs (Q : unit -> pst -> Prop), isTrivia (t_kind t) = false ->
  Q tt (mkp z (st ++ [Tok t]) cs gs) -> PW (push_syntax dbg t) (mkp z st cs gs) Q.
Proof. exact PW_push_leaf. Qed.
Lemma PW_pop_node : forall n z st cs gs (Q : cst -> pst -> Prop), Q n (mkp z st cs gs) -> PW pop_node (mkp z (st ++ [n]) cs gs) Q.
Proof. intros n z st cs gs Q H. unfold PW, pop_node. cbn [stack tz ctxs groups]. rewrite rev_app_distr. cbn [rev app]. rewrite rev_involutive. exact H. Qed.

Lemma PW_push_context : forall p n z st cs gs (Q : unit -> pst -> Prop), Q tt (mkp z (st ++ [n]) (mkctx p (length st) :: cs) gs) ->
  PW (push_context p) (mkp z (st ++ [n]) cs gs) Q.
Proof.
  intros p n z st cs gs Q H. unfold PW, push_context. cbn [stack tz ctxs groups].
  replace (length (st ++ [n]) - 1)%nat with (length st) by (rewrite app_length; cbn; lia).
  destruct (st ++ [n]) eqn:Es; [destruct st; discriminate|]. exact H.
Qed.
Lemma PW_set_prec : forall p c cs z st gs (Q : unit -> pst -> Prop), Q tt (mkp z st (mkctx p (c_start c) :: cs) gs) -> PW (set_prec p) (mkp z st (c :: cs) gs) Q.
Proof. intros. exact H. Qed.
Lemma PW_push_group : forall c z st cs gs (Q : unit -> pst -> Prop), Q tt (mkp z st cs (c :: gs)) -> PW (push_group c) (mkp z st cs gs) Q.
Proof. intros. exact H. Qed.

Lemma skipn_len : forall A (a b : list A), skipn (length a) (a ++ b) = b.
Proof. intros. rewrite skipn_app, skipn_all, Nat.sub_diag. reflexivity. Qed.
Lemma firstn_len : forall A (a b : list A), firstn (length a) (a ++ b) = a.
Proof. intros. rewrite firstn_app, firstn_all, Nat.sub_diag. cbn. apply app_nil_r. Qed.
Lemma not_short : forall A (a b : list A), (length (a ++ b) <? length a)%nat = false.
Proof. intros. apply Nat.ltb_ge. rewrite app_length. lia. Qed.

Lemma PW_reduce : forall p z st ch cs gs (Q : list cst -> pst -> Prop), Q ch (mkp z st cs gs) ->
  PW reduce (mkp z (st ++ ch) (mkctx p (length st) :: cs) gs) Q.
Proof.
  intros p z st ch cs gs Q H. unfold PW, reduce, pbind, pop_context. cbn [stack tz ctxs groups c_start]. rewrite not_short, skipn_len, firstn_len. exact H.
Qed.
Lemma nonempty_length : forall A (l : list A), l <> [] -> negb (Nat.eqb (length l) 0) = true.
Proof. intros A [|a l] H; [congruence|reflexivity]. Qed.
Lemma PW_reduce_op : forall k op p z st ch cs gs (Q : unit -> pst -> Prop), ch <> [] -> Q tt (mkp z (st ++ [Op k op ch]) cs gs) ->
  PW (reduce_op k op) (mkp z (st ++ ch) (mkctx p (length st) :: cs) gs) Q.
Proof.
  intros k op p z st ch cs gs Q Hn H. unfold reduce_op. apply PW_bind, PW_reduce, PW_bind, PW_assert; [apply nonempty_length; auto|]. apply PW_push_node. exact H.
Qed.
Lemma PW_reduce_error : forall e p z st ch cs gs (Q : unit -> pst -> Prop), ch <> [] -> Q tt (mkp z (st ++ [SynErr e ch]) cs gs) ->
  PW (reduce_syntax_error e) (mkp z (st ++ ch) (mkctx p (length st) :: cs) gs) Q.
Proof.
  intros e p z st ch cs gs Q Hn H. unfold reduce_syntax_error. apply PW_bind, PW_reduce, PW_bind, PW_assert; [apply nonempty_length; auto|]. apply PW_push_node. exact H.
Qed.
Lemma PW_reduce_group : forall k op p c z st ch cs gs (Q : unit -> pst -> Prop), ch <> [] -> Q tt (mkp z (st ++ [Op k op ch]) cs gs) ->
  PW (reduce_group_as k op) (mkp z (st ++ ch) (mkctx p (length st) :: cs) (c :: gs)) Q.
Proof.
  intros k op p c z st ch cs gs Q Hn H. unfold PW, reduce_group_as, pbind, pop_context, pop_group, passert. cbn [stack tz ctxs groups c_start].
  rewrite not_short, skipn_len, firstn_len. rewrite (nonempty_length _ _ Hn). exact H.
Qed.

Lemma top_node_solid : forall z st l n cs gs, trivia_leaf n = false -> Forall (fun t => isTrivia (t_kind t) = true) l ->
  top_node (mkp z (st ++ n :: map Tok l) cs gs) = Some n.
Proof.
  intros z st l n cs gs Hn Hl. unfold top_node. cbn [stack]. rewrite rev_app_distr. cbn [rev]. rewrite <- app_assoc.
  assert (K : forall l r, Forall (fun t => isTrivia (t_kind t) = true) l ->
     find (fun n0 => negb (is_trivia_node n0)) (rev (map Tok l) ++ n :: r) = Some n).
  { intros l0 r H. rewrite <- map_rev. assert (H' : Forall (fun t => isTrivia (t_kind t) = true) (rev l0)) by (apply Forall_rev; auto).
    induction H' as [|t l' Ht H' IH]; cbn [map app find].
    - change (is_trivia_node n) with (trivia_leaf n). rewrite Hn. reflexivity.
    - change (is_trivia_node (Tok t)) with (isTrivia (t_kind t)). rewrite Ht. cbn [negb]. exact IH. }
  apply K. exact Hl.
Qed.

End Rules.
