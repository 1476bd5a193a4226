(** Lemmas behind PropsTables. *)
From Coq Require Import String ZArith List Bool Lia.
From Verif Require Import Base Source GenTokenKind GenPrec GenOps GenSymbols TokenKind Parselets GenParselets.
Import ListNotations.
Local Open Scope Z_scope.

Lemma contains_In : forall l n, contains l n = true <-> In n l.
Proof.
  intros. unfold contains. rewrite existsb_exists. split.
  - intros (x & H & E). apply String.eqb_eq in E. congruence.
  - intros H. exists n. split; auto. apply String.eqb_refl.
Qed.

Definition trivia_names : list string :=
  ["InternalNewline"; "Comment"; "Whitespace"; "Buffer1"; "ToplevelNewline"; "Buffer2"; "Buffer3"; "Buffer4"]%string.

Definition kind_ok (p : Z * string) : bool :=
  let (k, n) := p in
  Bool.eqb (isTrivia k) (contains trivia_names n) &&
  Bool.eqb (isCloser k) (contains CLOSERS_names n) &&
  Bool.eqb (isError k) (contains ERROR_names n) &&
  Bool.eqb (isUnterminated k) (contains UNTERMINATED_names n) &&
  Bool.eqb (isEmpty k) (contains EMPTY_names n) &&
  Bool.eqb (isPossibleBeginning k) (contains POSSIBLE_BEGINNING_names n) &&
  (tk_id k =? k) && (0 <=? k) && (k <? 512) && (bits k <? 65536).

Lemma kinds_ok_b : forallb kind_ok KINDS = true.
Proof. vm_compute. reflexivity. Qed.

Lemma eqb_iff : forall (b c : bool) P, Bool.eqb b c = true -> (c = true <-> P) -> (b = true <-> P).
Proof. intros b c P H K. apply Bool.eqb_prop in H. subst. auto. Qed.

Lemma kinds_ok : forall k n, In (k, n) KINDS ->
  (isTrivia k = true <-> In n trivia_names) /\ (isCloser k = true <-> In n CLOSERS_names) /\
  (isError k = true <-> In n ERROR_names) /\ (isUnterminated k = true <-> In n UNTERMINATED_names) /\
  (isEmpty k = true <-> In n EMPTY_names) /\ (isPossibleBeginning k = true <-> In n POSSIBLE_BEGINNING_names).
Proof.
  intros k n H. pose proof (proj1 (forallb_forall _ _) kinds_ok_b _ H) as K. unfold kind_ok in K.
  rewrite !andb_true_iff in K. destruct K as [[[[[[[[[K1 K2] K3] K4] K5] K6] _] _] _] _].
  split; [exact (eqb_iff _ _ _ K1 (contains_In _ _))|].
  split; [exact (eqb_iff _ _ _ K2 (contains_In _ _))|].
  split; [exact (eqb_iff _ _ _ K3 (contains_In _ _))|].
  split; [exact (eqb_iff _ _ _ K4 (contains_In _ _))|].
  split; [exact (eqb_iff _ _ _ K5 (contains_In _ _))|].
  exact (eqb_iff _ _ _ K6 (contains_In _ _)).
Qed.

Lemma kinds_in_range : forall k n, In (k, n) KINDS -> tk_id k = k /\ 0 <= k < 512 /\ bits k < 65536.
Proof.
  intros k n H. pose proof (proj1 (forallb_forall _ _) kinds_ok_b _ H) as K. unfold kind_ok in K.
  rewrite !andb_true_iff in K. destruct K as [[[[_ K1] K2] K3] K4]. lia.
Qed.

Fixpoint znodup (l : list Z) : bool :=
  match l with [] => true | x :: r => negb (zin x r) && znodup r end.
Lemma znodup_NoDup : forall l, znodup l = true -> NoDup l.
Proof.
  induction l; cbn; intros H; constructor; apply andb_prop in H as [A B]; auto.
  intros I. apply zin_In in I. rewrite I in A. discriminate.
Qed.

Lemma kinds_distinct : NoDup (map (fun p => fst p) KINDS) /\ NoDup (map (fun p => bits (fst p)) KINDS).
Proof. split; apply znodup_NoDup; vm_compute; reflexivity. Qed.

Lemma names_distinct : forall k k' n n', In (k, n) KINDS -> In (k', n') KINDS -> n = n' -> k = k'.
Proof.
  assert (B : forallb (fun p => forallb (fun q => negb (String.eqb (snd p) (snd q)) || (fst p =? fst q)) KINDS) KINDS = true)
    by (vm_compute; reflexivity).
  intros k k' n n' H H' ->. rewrite forallb_forall in B. specialize (B _ H). rewrite forallb_forall in B.
  specialize (B _ H'). cbn [fst snd] in B. rewrite String.eqb_refl in B. cbn in B. lia.
Qed.

(** *** Closers *)
Definition KIDS : list Z := map fst KINDS.
Lemma kids_in : forall k, In k KIDS <-> exists n, In (k, n) KINDS.
Proof.
  intros. unfold KIDS. rewrite in_map_iff. split.
  - intros ([a b] & E & H). cbn in E. subst. eauto.
  - intros (n & H). exists (k, n). auto.
Qed.

Definition openers : list Z :=
  [TK_OpenParen; TK_OpenSquare; TK_OpenCurly; TK_LessBar; TK_ColonColonOpenSquare; TK_LongName_LeftAngleBracket;
   TK_LongName_LeftAssociation; TK_LongName_LeftBracketingBar; TK_LongName_LeftCeiling; TK_LongName_LeftDoubleBracket;
   TK_LongName_LeftDoubleBracketingBar; TK_LongName_LeftFloor; TK_LongName_OpenCurlyDoubleQuote; TK_LongName_OpenCurlyQuote].

Lemma switch_In : forall A k (l : list (Z * A)) d v, switch k l d = v -> v <> d -> In k (map fst l).
Proof.
  induction l as [|[x y] l IH]; cbn; intros d v H Hd; [congruence|].
  destruct (Z.eqb_spec k x); [left; auto|right; eauto].
Qed.

Lemma opener_listed : forall k, GroupOpenerToCloser k <> Panic -> In k openers.
Proof.
  intros k H. unfold GroupOpenerToCloser in H. pose proof (switch_In _ k _ _ _ eq_refl H) as I.
  cbn [map fst] in I. unfold openers. cbn [In] in *. intuition.
Qed.

Lemma openers_closed_b : forallb (fun k => match GroupOpenerToCloser k with
    | Ok c => isCloser c && (TokenToCloser c =? c) && zin c KIDS && zin k KIDS
    | _ => false end) openers = true.
Proof. vm_compute. reflexivity. Qed.

Lemma openers_closed : forall k, In k openers <-> exists c, GroupOpenerToCloser k = Ok c.
Proof.
  intros k. split.
  - intros H. pose proof (proj1 (forallb_forall _ _) openers_closed_b _ H) as B. cbv beta in B.
    destruct (GroupOpenerToCloser k); try discriminate. eauto.
  - intros [c H]. apply opener_listed. congruence.
Qed.

Lemma opener_closer : forall k c, GroupOpenerToCloser k = Ok c -> isCloser c = true /\ TokenToCloser c = c /\ In c KIDS /\ In k KIDS.
Proof.
  intros k c H. assert (In k openers) as I by (apply openers_closed; eauto).
  pose proof (proj1 (forallb_forall _ _) openers_closed_b _ I) as B. cbv beta in B. rewrite H in B.
  rewrite !andb_true_iff in B. destruct B as [[[A1 A2] A3] A4]. apply zin_In in A3. apply zin_In in A4.
  repeat split; auto. lia.
Qed.

Lemma closer_shared : forall k k' c, GroupOpenerToCloser k = Ok c -> GroupOpenerToCloser k' = Ok c ->
  k = k' \/ (c = TK_CloseSquare /\ (k = TK_OpenSquare \/ k = TK_ColonColonOpenSquare) /\ (k' = TK_OpenSquare \/ k' = TK_ColonColonOpenSquare)).
Proof.
  assert (B : forallb (fun k => forallb (fun k' => match GroupOpenerToCloser k, GroupOpenerToCloser k' with
    | Ok c, Ok c' => negb (c =? c') || (k =? k') || ((c =? TK_CloseSquare) && zin k [TK_OpenSquare; TK_ColonColonOpenSquare] && zin k' [TK_OpenSquare; TK_ColonColonOpenSquare])
    | _, _ => false end) openers) openers = true) by (vm_compute; reflexivity).
  intros k k' c H H'. rewrite forallb_forall in B. specialize (B k ltac:(apply openers_closed; eauto)).
  rewrite forallb_forall in B. specialize (B k' ltac:(apply openers_closed; eauto)). cbv beta in B.
  rewrite H, H' in B. rewrite Z.eqb_refl in B. cbn [negb orb] in B.
  rewrite !orb_true_iff, !andb_true_iff, !zin_In in B. cbn [In] in B. intuition lia.
Qed.

Lemma closers_have_openers : forall k, In k KIDS -> 
  (isCloser k = true <-> exists o, GroupOpenerToCloser o = Ok k) /\
  (isCloser k = true -> TokenToCloser k = k) /\ (isCloser k = false -> TokenToCloser k = Closer_AssertFalse).
Proof.
  assert (B : forallb (fun k => if isCloser k then existsb (fun o => match GroupOpenerToCloser o with Ok c => c =? k | _ => false end) openers && (TokenToCloser k =? k)
     else TokenToCloser k =? Closer_AssertFalse) KIDS = true) by (vm_compute; reflexivity).
  intros k H. rewrite forallb_forall in B. specialize (B k H). cbv beta in B.
  destruct (isCloser k) eqn:E.
  - apply andb_prop in B as [B1 B2]. apply existsb_exists in B1 as (o & Ho & B1).
    split; [|split; [lia|discriminate]]. split; auto. intros _. exists o.
    destruct (GroupOpenerToCloser o); try discriminate. f_equal. lia.
  - split; [|split; [discriminate|lia]]. split; [discriminate|]. intros [o Ho].
    apply opener_closer in Ho as [A _]. congruence.
Qed.

Lemma parselet_openers : 
  (forall k t g, In (k, PP_Group t g) PREFIX_PARSELETS -> t = k /\ In k openers) /\
  (forall k t g, In (k, IP_Call t g) INFIX_PARSELETS -> t = k /\ In k openers /\ exists c, try_to_call_operator g = Ok c) /\
  (forall k, In k openers -> exists g, In (k, PP_Group k g) PREFIX_PARSELETS) /\
  (forall k, In (k, PP_PrefixCloser) PREFIX_PARSELETS -> isCloser k = true).
Proof.
  assert (B1 : forallb (fun p => match snd p with PP_Group t _ => (t =? fst p) && zin (fst p) openers | PP_PrefixCloser => isCloser (fst p) | _ => true end) PREFIX_PARSELETS = true) by (vm_compute; reflexivity).
  assert (B2 : forallb (fun p => match snd p with IP_Call t g => (t =? fst p) && zin (fst p) openers && match try_to_call_operator g with Ok _ => true | _ => false end | _ => true end) INFIX_PARSELETS = true) by (vm_compute; reflexivity).
  assert (B3 : forallb (fun k => existsb (fun p => (fst p =? k) && match snd p with PP_Group t _ => t =? k | _ => false end) PREFIX_PARSELETS) openers = true) by (vm_compute; reflexivity).
  rewrite forallb_forall in B1, B2, B3. repeat split.
  - specialize (B1 _ H). cbn in B1. apply andb_prop in B1 as [A _]. lia.
  - specialize (B1 _ H). cbn in B1. apply andb_prop in B1 as [_ A]. apply zin_In; auto.
  - specialize (B2 _ H). cbn [fst snd] in B2. apply andb_prop in B2 as [A _]. apply andb_prop in A as [A _]. lia.
  - specialize (B2 _ H). cbn [fst snd] in B2. apply andb_prop in B2 as [A _]. apply andb_prop in A as [_ A]. apply zin_In; auto.
  - specialize (B2 _ H). cbn [fst snd] in B2. apply andb_prop in B2 as [_ A]. destruct (try_to_call_operator g); try discriminate. eauto.
  - intros k H. specialize (B3 _ H). cbv beta in B3. apply existsb_exists in B3 as ([k' p] & I & E). cbn [fst snd] in E.
    apply andb_prop in E as [E1 E2]. destruct p; try discriminate. assert (k' = k) by lia. assert (opener = k) by lia. subst. eauto.
  - intros k H. specialize (B1 _ H). auto.
Qed.

(** *** Symbols *)
Lemma symbols_back_b : forallb (fun k => match tk_to_symbol k with
   | Some s => match tk_from_symbol s with Some k' => k' =? (if k =? TK_ToplevelNewline then TK_InternalNewline else k) | None => false end
   | None => false end) KIDS = true.
Proof. vm_compute. reflexivity. Qed.

Lemma symbols_back : forall k, In k KIDS -> exists s, tk_to_symbol k = Some s /\
  tk_from_symbol s = Some (if k =? TK_ToplevelNewline then TK_InternalNewline else k).
Proof.
  intros k H. pose proof (proj1 (forallb_forall _ _) symbols_back_b _ H) as B. cbv beta in B.
  destruct (tk_to_symbol k) as [s|]; [|discriminate]. exists s. split; auto.
  destruct (tk_from_symbol s); [|discriminate]. f_equal. lia.
Qed.

Lemma find_symbol_In : forall s l k, find_symbol s l = Some k -> In (s, k) l.
Proof.
  induction l as [|[t k'] l IH]; cbn; intros k H; [discriminate|].
  destruct (String.eqb s t) eqn:E; [|right; auto]. apply String.eqb_eq in E. left. congruence.
Qed.

Lemma assoc_In : forall A k (l : list (Z * A)) v, assoc k l = Some v -> In (k, v) l.
Proof.
  induction l as [|[x y] l IH]; cbn; intros v H; [discriminate|].
  destruct (Z.eqb_spec k x); [left; congruence|right; auto].
Qed.

Lemma symbols_forth : forall s k, tk_from_symbol s = Some k -> In k KIDS /\ tk_to_symbol k = Some s.
Proof.
  assert (B : forallb (fun p => zin (fst p) KIDS && match tk_to_symbol (fst p) with Some t => String.eqb t (snd p) | None => false end) KIND_SYMBOL = true) by (vm_compute; reflexivity).
  intros s k H. apply find_symbol_In in H. apply in_map_iff in H as ([k' s'] & E & I). injection E as <- <-.
  rewrite forallb_forall in B. specialize (B _ I). cbn [fst snd] in B. apply andb_prop in B as [B1 B2].
  apply zin_In in B1. split; auto. destruct (tk_to_symbol k'); [|discriminate]. apply String.eqb_eq in B2. congruence.
Qed.

Definition fam_ok (f : family) : bool :=
  forallb (fun x => match op_to_symbol f x with
    | Some s => match op_from_symbol f s with Some y => y =? x | None => false end
    | None => false end) (f_all f) &&
  forallb (fun p => zin (snd p) (f_all f) && match op_to_symbol f (snd p) with Some t => String.eqb t (fst p) | None => false end) (f_from f).

Lemma fams_ok : forallb fam_ok FAMILIES = true.
Proof. vm_compute. reflexivity. Qed.

Lemma ops_back : forall f x, In f FAMILIES -> In x (f_all f) -> exists s, op_to_symbol f x = Some s /\ op_from_symbol f s = Some x.
Proof.
  intros f x Hf Hx. pose proof (proj1 (forallb_forall _ _) fams_ok _ Hf) as B. apply andb_prop in B as [B _].
  rewrite forallb_forall in B. specialize (B _ Hx). cbv beta in B.
  destruct (op_to_symbol f x) as [s|]; [|discriminate]. exists s. split; auto.
  destruct (op_from_symbol f s); [|discriminate]. f_equal. lia.
Qed.

Lemma ops_forth : forall f s x, In f FAMILIES -> op_from_symbol f s = Some x -> In x (f_all f) /\ op_to_symbol f x = Some s.
Proof.
  intros f s x Hf H. pose proof (proj1 (forallb_forall _ _) fams_ok _ Hf) as B. apply andb_prop in B as [_ B].
  apply find_symbol_In in H. rewrite forallb_forall in B. specialize (B _ H). cbn [fst snd] in B.
  apply andb_prop in B as [B1 B2]. apply zin_In in B1. split; auto.
  destruct (op_to_symbol f x); [|discriminate]. apply String.eqb_eq in B2. congruence.
Qed.

Lemma ops_distinct : forall f x y s, In f FAMILIES -> In x (f_all f) -> In y (f_all f) ->
  op_to_symbol f x = Some s -> op_to_symbol f y = Some s -> x = y.
Proof.
  intros f x y s Hf Hx Hy Ex Ey. destruct (ops_back f x Hf Hx) as (sx & A1 & A2).
  destruct (ops_back f y Hf Hy) as (sy & B1 & B2). congruence.
Qed.

(** *** Precedence *)
Lemma lor1 : forall a, 0 <= a -> Z.lor a 1 = 2 * (a / 2) + 1.
Proof.
  intros a Ha. rewrite (Z.div_mod a 2) at 1 by lia.
  pose proof (Z.mod_pos_bound a 2 ltac:(lia)).
  assert (a mod 2 = 0 \/ a mod 2 = 1) as [E|E] by lia; rewrite E.
  - rewrite Z.add_0_r. pose proof (Z.div_pos a 2 Ha ltac:(lia)) as P. revert P. generalize (a / 2).
    intros z P. destruct z; try reflexivity. lia.
  - pose proof (Z.div_pos a 2 Ha ltac:(lia)) as P. revert P. generalize (a / 2).
    intros z P. destruct z; try reflexivity. lia.
Qed.

Lemma prec_greater_spec : forall a b, 0 <= a -> 0 <= b ->
  prec_greater a b = true <-> (b / 2 < a / 2 \/ (b / 2 = a / 2 /\ b mod 2 = 0)).
Proof.
  intros a b Ha Hb. unfold prec_greater. rewrite lor1 by auto. rewrite Z.ltb_lt.
  pose proof (Z.div_mod b 2 ltac:(lia)). pose proof (Z.mod_pos_bound b 2 ltac:(lia)). lia.
Qed.

(** All precedences of the table are in 1..255, and two with the same level have the
    same associativity. *)
Lemma precedences_ok : forall n p, In (n, p) PRECEDENCES -> 1 <= p <= 255.
Proof.
  assert (B : forallb (fun e => between 1 (snd e) 255) PRECEDENCES = true) by (vm_compute; reflexivity).
  intros n p H. rewrite forallb_forall in B. specialize (B _ H). cbn in B. apply between_iff in B. auto.
Qed.

Lemma precedences_assoc : forall n p n' p', In (n, p) PRECEDENCES -> In (n', p') PRECEDENCES -> p / 2 = p' / 2 -> p = p'.
Proof.
  assert (B : forallb (fun e => forallb (fun e' => negb (snd e / 2 =? snd e' / 2) || (snd e =? snd e')) PRECEDENCES) PRECEDENCES = true) by (vm_compute; reflexivity).
  intros n p n' p' H H' E. rewrite forallb_forall in B. specialize (B _ H). rewrite forallb_forall in B. specialize (B _ H').
  cbn [snd] in B. lia.
Qed.
