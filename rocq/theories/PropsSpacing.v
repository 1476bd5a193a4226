(** C78: operators that need a space behind them. *)
From Coq Require Import String ZArith List Bool Lia.
From Verif Require Import Base Source WLChar GenTokenKind TokenKind LongNames ByteDecoder CharDecoder Tokenizer SpecText SpecReader SpecTokenizer
  Link Suggestions Spelling Spacing SpecSpacing SpacingProofs SpacingSplit.
Import ListNotations.
Local Open Scope string_scope.
Local Open Scope list_scope.
Local Open Scope Z_scope.

(** An operator that is crowded by the next character is read all the same, and one issue is recorded.
    It is one of those of Spacing.v; a space behind the operator is among what is suggested.  Carrying out
    any suggestion settles it: wherever the new text is read, nothing is recorded, and the token is the same
    operator, or the arrow if the operator was replaced. *)
Theorem C78_crowded : forall o s g pol t s1 a d k e, o_check_issues o = true -> ask o (AsToken g pol) s = Ok (t, s1) -> In (a, k) OPERATORS -> In (a, d) CROWDS ->
  rest (cur s) = bytes_ a ++ d :: e ->
  t_kind t = k /\ t_text t = bytes_ a /\
  exists w i, spacing_issue a d (sp_start (t_src t)) (sp_end (t_src t)) = Some w /\ kept w i /\ lg s1 = addIssue_log i (lg s) /\
    (exists x, In x (wi_actions w) /\ ac_kind x = InsertText [32]) /\
    forall x, In x (wi_actions w) -> exists text, carried_out x (t_src t) (bytes_ a) (d :: e) text /\
      forall s2 t2 s3, rest (cur s2) = text -> ask o (AsToken g pol) s2 = Ok (t2, s3) ->
        lg s3 = lg s2 /\ (t_kind t2 = k /\ t_text t2 = bytes_ a \/ a = "--" /\ d = 62 /\ t_kind t2 = TK_MinusGreater /\ t_text t2 = bytes_ "->").
Proof.
  intros o s g pol t s1 a d k e Hc H Hk Hd R. destruct (operator_asked o g pol s t s1 a k d e Hk (proj1 (crowds_plain _ _ Hd)) R H) as (X1 & X2 & X3). split; [exact X1|]. split; [exact X2|].
  destruct (t_src t) as [b l] eqn:Es. cbn [sp_start sp_end] in *. destruct (crowded_said a d b l Hd) as (w & Ew & Hi & Hf). rewrite Hc, Ew in X3. destruct X3 as (i & Ki & Li).
  exists w, i. split; [exact Ew|]. split; [exact Ki|]. split; [exact Li|]. split; [exists (insert_space l); split; [exact Hi|reflexivity]|].
  intros x Hx. apply (proj1 (Forall_forall _ _) Hf) in Hx as [->|(-> & -> & Kx & Sx)].
  - exists (bytes_ a ++ 32 :: d :: e). split; [split; reflexivity|]. intros s2 t2 s3 R2 H2. destruct (operator_quiet o g pol s2 t2 s3 a k 32 (d :: e) Hk plain_32 (no_blank a) R2 H2) as (Y1 & Y2 & Y3). auto.
  - exists (45 :: 62 :: e). split; [unfold carried_out; rewrite Kx; split; [exact Sx|reflexivity]|]. intros s2 t2 s3 R2 H2. destruct (asked_read _ _ _ _ _ _ H2) as (s4 & E4 & ->).
    destruct (arrow_read o _ _ _ _ _ R2 E4) as (Y1 & Y2 & Y3). split; [exact Y3|]. right. auto.
Qed.
Print Assumptions C78_crowded.

(** In front of any other plain character the operator is read and nothing is recorded. *)
Theorem C78_apart : forall o s g pol t s1 a d k e, ask o (AsToken g pol) s = Ok (t, s1) -> In (a, k) OPERATORS -> plain_char d -> ~ In (a, d) CROWDS ->
  rest (cur s) = bytes_ a ++ d :: e -> t_kind t = k /\ t_text t = bytes_ a /\ lg s1 = lg s.
Proof. intros o s g pol t s1 a d k e H Hk Hd N R. exact (operator_quiet o g pol s t s1 a k d e Hk Hd N R H). Qed.
Print Assumptions C78_apart.

(** Nor at the end of the text. *)
Theorem C78_end : forall o s g pol t s1 a k, ask o (AsToken g pol) s = Ok (t, s1) -> In (a, k) OPERATORS -> rest (cur s) = bytes_ a ->
  t_kind t = k /\ t_text t = bytes_ a /\ lg s1 = lg s.
Proof. intros o s g pol t s1 a k H Hk R. destruct (asked_read _ _ _ _ _ _ H) as (s2 & E & ->). exact (operator_end o _ _ _ _ _ _ Hk R E). Qed.
Print Assumptions C78_end.

(** An operator of one character in front of a character that seems to continue it, but does not: the
    operator is read alone, and one issue is recorded at its end, which suggests a space there.  With the
    space the operator is read again, and nothing is recorded. *)
Theorem C78_split : forall o s g pol t s1 a b k d e, o_check_issues o = true -> ask o (AsToken g pol) s = Ok (t, s1) -> In (a, b, k) SPLITS -> plain_char d -> rules_out a d ->
  rest (cur s) = a :: b :: d :: e ->
  t_kind t = k /\ t_text t = [a] /\
  exists w i x, w = split_issue (sp_end (t_src t)) /\ kept w i /\ lg s1 = addIssue_log i (lg s) /\
    i = mkissue Ambiguous Formatting (mkspan (sp_end (t_src t)) (sp_end (t_src t))) /\
    wi_actions w = [x] /\ carried_out x (t_src t) [a] (b :: d :: e) (a :: 32 :: b :: d :: e) /\
    forall s2 t2 s3, rest (cur s2) = a :: 32 :: b :: d :: e -> ask o (AsToken g pol) s2 = Ok (t2, s3) -> t_kind t2 = k /\ t_text t2 = [a] /\ lg s3 = lg s2.
Proof.
  intros o s g pol t s1 a b k d e Hc H Hk Hd Ho R. destruct (asked_read _ _ _ _ _ _ H) as (s4 & E4 & L4). destruct (split_read o _ _ _ _ _ _ _ _ _ Hk Hd Ho R E4) as (X1 & X2 & X3). rewrite Hc in X3. destruct X3 as ([tg sv sp] & Ki & Li).
  split; [exact X1|]. split; [exact X2|]. exists (split_issue (sp_end (t_src t))), (mkissue tg sv sp), (insert_space (sp_end (t_src t))). split; [reflexivity|]. split; [exact Ki|]. split; [congruence|].
  split; [destruct Ki as (K1 & K2 & K3); cbn in K1, K2, K3; injection K1 as <-; subst; reflexivity|]. split; [reflexivity|]. split; [split; reflexivity|].
  intros s2 t2 s3 R2 H2. destruct (asked_read _ _ _ _ _ _ H2) as (s5 & E5 & ->). exact (spaced_read o _ _ _ _ _ _ _ _ Hk R2 E5).
Qed.
Print Assumptions C78_split.

(** If issues are not asked for, nothing is recorded at all. *)
Theorem C78_unasked : forall o s g pol t s1 a d k e, o_check_issues o = false -> ask o (AsToken g pol) s = Ok (t, s1) -> In (a, k) OPERATORS -> plain_char d ->
  rest (cur s) = bytes_ a ++ d :: e -> t_kind t = k /\ t_text t = bytes_ a /\ lg s1 = lg s.
Proof.
  intros o s g pol t s1 a d k e Hc H Hk Hd R. destruct (operator_asked o g pol s t s1 a k d e Hk Hd R H) as (X1 & X2 & X3). rewrite Hc in X3. auto.
Qed.
Print Assumptions C78_unasked.

(** In front of an equals sign, the issue is about formatting, at the end of the operator, and its message
    names the two.  The others are errors: a dot at the end of the operator, the long arrow all over it. *)
Theorem C78_message : forall a d b l w, In (a, d) CROWDS -> spacing_issue a d b l = Some w ->
  (d = 61 /\ wi_sev w = Formatting /\ wi_tag w = Ambiguous /\ wi_src w = SSpan (mkspan l l) /\
     wi_msg w = lit "Put a space between ``" ++ bytes_ a ++ lit "`` and ``" ++ [d] ++ lit "`` to reduce ambiguity") \/
  (d = 62 /\ wi_sev w = Error /\ wi_tag w = Ambiguous /\ wi_src w = SSpan (mkspan b l)) \/
  (d = 46 /\ wi_sev w = Error /\ wi_tag w = UnexpectedDot /\ wi_src w = SSpan (mkspan l l)).
Proof.
  intros a d b l w H E. destruct H as [X|[X|[X|[X|[X|[]]]]]]; injection X as <- <-; injection E as <-; [left|left|right; left|left|right; right]; repeat split; reflexivity.
Qed.
Print Assumptions C78_message.

(** ** Cases *)
Definition o1 : opts := mkopts ConvLineColumn 4 true false true (fun _ => false).
Definition first (text : string) : option (Z * list Z * list (issue_tag * severity * span)) :=
  match ask o1 (AsToken false TOPLEVEL) (reader_new o1 (lit text)) with
  | Ok (t, s1) => Some (t_kind t, t_text t, map (fun i => (i_tag i, i_sev i, i_src i)) (l_nonfatal (lg s1)))
  | _ => None
  end.
Definition here (a b : Z) : span := mkspan (LineCol 1 a) (LineCol 1 b).
Example crowded : map first ["++=0"; "--=0"; "-->0"; "|>=0"; "_..b"] =
  [Some (TK_PlusPlus, lit "++", [(Ambiguous, Formatting, here 3 3)]); Some (TK_MinusMinus, lit "--", [(Ambiguous, Formatting, here 3 3)]); Some (TK_MinusMinus, lit "--", [(Ambiguous, Error, here 1 3)]);
   Some (TK_BarGreater, lit "|>", [(Ambiguous, Formatting, here 3 3)]); Some (TK_UnderDot, lit "_.", [(UnexpectedDot, Error, here 3 3)])].
Proof. vm_compute. reflexivity. Qed.
Example apart : map first ["++ =0"; "-- >0"; "->0"; "_. .b"; "++b"; "|>"] =
  [Some (TK_PlusPlus, lit "++", []); Some (TK_MinusMinus, lit "--", []); Some (TK_MinusGreater, lit "->", []); Some (TK_UnderDot, lit "_.", []); Some (TK_PlusPlus, lit "++", []); Some (TK_BarGreater, lit "|>", [])].
Proof. vm_compute. reflexivity. Qed.
Example split : map first ["=!b"; "<-b"; "|-b"; "/.5"; "= !b"; "< -b"; "=!=b"; "/.b"] =
  [Some (TK_Equal, lit "=", [(Ambiguous, Formatting, here 2 2)]); Some (TK_Less, lit "<", [(Ambiguous, Formatting, here 2 2)]); Some (TK_Bar, lit "|", [(Ambiguous, Formatting, here 2 2)]); Some (TK_Slash, lit "/", [(Ambiguous, Formatting, here 2 2)]);
   Some (TK_Equal, lit "=", []); Some (TK_Less, lit "<", []); Some (TK_EqualBangEqual, lit "=!=", []); Some (TK_SlashDot, lit "/.", [])].
Proof. vm_compute. reflexivity. Qed.
