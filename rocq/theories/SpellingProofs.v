(** Edit distance, the nearest name, and the reading of what is suggested. *)
From Coq Require Import String ZArith List Bool Lia Arith.
From Verif Require Import Base Source WLChar LongNames GenLongNames ByteDecoder CharDecoder Format Decode SpecText SpecReader Iter TextProofs Logic LongNamesProofs WlDecode
  ReaderProofs TokSpecs FormatProofs FormatRound Link Suggestions SpecSuggestions SuggestionsProofs Spelling SpecSpelling.
Import ListNotations.
Local Open Scope string_scope.
Local Open Scope list_scope.
Local Open Scope Z_scope.

(** ** Rows *)
Lemma row_nil_r : forall a, row a [] = [length a].
Proof. induction a as [|x a IH]; [reflexivity|]. cbn [row]. rewrite IH. reflexivity. Qed.
Lemma row_cons_r : forall a y b, exists d, row a (y :: b) = d :: row a b.
Proof.
  induction a as [|x a IH]; intros y b; cbn [row]; [eexists; reflexivity|]. destruct (IH y b) as (d & ->). cbn [next_row]. eexists. reflexivity.
Qed.
Notation D := edit_distance.
Lemma D_nil_r : forall a, D a [] = length a.
Proof. intros a. unfold D. rewrite row_nil_r. reflexivity. Qed.
Lemma D_nil_l : forall b, D [] b = length b.
Proof. unfold D. induction b as [|y b IH]; [reflexivity|]. cbn [row last_row hd length] in *. congruence. Qed.
Lemma D_cons : forall x a y b, D (x :: a) (y :: b) = if x =? y then D a b else S (Nat.min (D a b) (Nat.min (D a (y :: b)) (D (x :: a) b))).
Proof.
  intros x a y b. unfold D. cbn [row]. destruct (row_cons_r a y b) as (d & E). rewrite E. cbn [next_row hd]. reflexivity.
Qed.

Lemma near_put : forall a, (forall b y, D a b <= S (D a (y :: b)))%nat.
Proof.
  induction a as [|x a IH]; intros b y; [rewrite !D_nil_l; cbn [length]; lia|].
  assert (L3 : forall b, (D (x :: a) b <= S (D a b))%nat).
  { intros [|y' b']; [rewrite !D_nil_r; cbn [length]; lia|]. rewrite D_cons. destruct (x =? y'); [apply IH|lia]. }
  rewrite D_cons. pose proof (L3 b). pose proof (IH b y). destruct (x =? y); lia.
Qed.
Lemma leave_bound : forall x a b, (D (x :: a) b <= S (D a b))%nat.
Proof.
  intros x a [|y b]; [rewrite !D_nil_r; cbn [length]; lia|]. rewrite D_cons. destruct (x =? y); [apply near_put|lia].
Qed.
Lemma near_leave : forall b a x, (D a b <= S (D (x :: a) b))%nat.
Proof.
  induction b as [|y b IH]; intros a x; [rewrite !D_nil_r; cbn [length]; lia|].
  assert (L4 : forall a, (D a (y :: b) <= S (D a b))%nat).
  { intros [|x' a']; [rewrite !D_nil_l; cbn [length]; lia|]. rewrite D_cons. destruct (x' =? y); [apply IH|lia]. }
  rewrite D_cons. pose proof (L4 a). pose proof (IH a x). destruct (x =? y); lia.
Qed.
Lemma put_bound : forall y a b, (D a (y :: b) <= S (D a b))%nat.
Proof.
  intros y [|x a] b; [rewrite !D_nil_l; cbn [length]; lia|]. rewrite D_cons. destruct (x =? y); [apply near_leave|lia].
Qed.

Lemma D_least : forall n a b, edits n a b -> (D a b <= n)%nat.
Proof.
  induction 1 as [|n x a b _ IH|n x y a b _ IH|n x a b _ IH|n y a b _ IH].
  - reflexivity.
  - rewrite D_cons, Z.eqb_refl. exact IH.
  - rewrite D_cons. destruct (x =? y); lia.
  - pose proof (leave_bound x a b). lia.
  - pose proof (put_bound y a b). lia.
Qed.
Lemma put_all : forall b, edits (length b) [] b.
Proof. induction b as [|y b IH]; cbn [length]; constructor; exact IH. Qed.
Lemma leave_all : forall a, edits (length a) a [].
Proof. induction a as [|x a IH]; cbn [length]; constructor; exact IH. Qed.
Lemma D_reached : forall a b, edits (D a b) a b.
Proof.
  induction a as [|x a IHa]; [intros b; rewrite D_nil_l; apply put_all|].
  induction b as [|y b IHb]; [rewrite D_nil_r; apply leave_all|].
  rewrite D_cons. destruct (Z.eqb_spec x y) as [->|N]; [apply ed_keep, IHa|].
  destruct (Nat.min_spec (D a b) (Nat.min (D a (y :: b)) (D (x :: a) b))) as [[_ ->]|[_ ->]]; [apply ed_replace, IHa|].
  destruct (Nat.min_spec (D a (y :: b)) (D (x :: a) b)) as [[_ ->]|[_ ->]]; [apply ed_leave_out, IHa|apply ed_put_in, IHb].
Qed.

(** ** The nearest name *)
Lemma min_by_key_spec : forall A (f : A -> nat) l best, let m := min_by_key f best (f best) l in
  In m (best :: l) /\ forall x, In x (best :: l) -> (f m <= f x)%nat.
Proof.
  induction l as [|y l IH]; intros best; cbn [min_by_key]; cbv zeta.
  - split; [left; reflexivity|]. intros x [->|[]]. lia.
  - destruct (Nat.ltb_spec (f y) (f best)) as [L|L].
    + destruct (IH y) as [I1 I2]. split; [right; exact I1|]. intros x [->|[->|Hx]].
      * pose proof (I2 y (or_introl eq_refl)). lia.
      * apply I2. left. reflexivity.
      * apply I2. right. exact Hx.
    + destruct (IH best) as [I1 I2]. split; [destruct I1 as [E|I1]; [left; exact E|right; right; exact I1]|]. intros x [->|[->|Hx]].
      * apply I2. left. reflexivity.
      * pose proof (I2 best (or_introl eq_refl)). lia.
      * apply I2. right. exact Hx.
Qed.

Lemma NAMES_eq : NAMES = map (fun e => bytes_of_string (snd e)) CODEPOINT_TO_LONGNAME.
Proof. vm_compute. reflexivity. Qed.
Lemma NAMES_names : forall n, In n NAMES <-> a_name n.
Proof.
  intros n. rewrite NAMES_eq, in_map_iff. split.
  - intros ([p m] & <- & H). exists p, m. split; [exact H|reflexivity].
  - intros (p & m & H & ->). exists (p, m). split; [reflexivity|exact H].
Qed.
Lemma NAMES_full : NAMES <> [] /\ ~ In [] NAMES.
Proof.
  split; [discriminate|]. intros H. assert (E : existsb (fun n : list Z => match n with [] => true | _ => false end) NAMES = false) by (vm_compute; reflexivity).
  rewrite <- not_true_iff_false in E. apply E. apply existsb_exists. exists []. auto.
Qed.

Lemma suggestion_spec : forall t, match longNameSuggestion t with
  | [] => forall n, a_name n -> ~ near t n
  | n => a_name n /\ near t n /\ nearest t n end.
Proof.
  intros t. destruct NAMES_full as [F1 F2]. unfold longNameSuggestion. pose proof NAMES_names as NN. destruct NAMES as [|n0 r]; [contradiction|].
  destruct (min_by_key_spec _ (D t) r n0) as [I1 I2]. set (m := min_by_key _ _ _ _) in *. clearbody m. cbv zeta in *.
  destruct (Nat.leb_spec (D t m) 2) as [L|L].
  - destruct m as [|c m]; [contradiction|]. apply NN in I1. split; [exact I1|]. split; [exists (D t (c :: m)); split; [exact L|apply D_reached]|].
    split; [exact I1|]. intros n k Hn Hk. apply NN in Hn. exists (D t (c :: m)). split; [|apply D_reached]. pose proof (I2 n Hn). pose proof (D_least _ _ _ Hk). lia.
  - intros n Hn (k & Hk & E). apply NN in Hn. pose proof (I2 n Hn). pose proof (D_least _ _ _ E). lia.
Qed.

(** Every name of the table is read as a character, and its text is plain. *)
Lemma names_read : forallb (fun n => match longname_to_codepoint n with Some _ => forallb visible n | None => false end) NAMES = true.
Proof. vm_compute. reflexivity. Qed.
Lemma names_points : forallb (fun e => match longname_to_codepoint (bytes_of_string (snd e)) with Some p => p =? fst e | None => false end) CODEPOINT_TO_LONGNAME = true.
Proof. vm_compute. reflexivity. Qed.

(** ** What is suggested *)
Lemma table_visible : forallb (fun e => forallb visible (fst e)) LN_TABLE = true.
Proof. vm_compute. reflexivity. Qed.
Lemma known_spells : forall n p, longname_to_codepoint n = Some p -> spells (92 :: 91 :: n ++ [93]) p.
Proof.
  intros n p H. apply longname_to_codepoint_In in H. pose proof (proj1 (forallb_forall _ _) table_visible _ H) as Hv. cbn [fst] in Hv.
  split; [apply visible_ascii_b; cbn [forallb]; rewrite forallb_app, Hv; reflexivity|].
  intros o pol input s r Ht Hr Hp Er. apply (reachable_Inv o input s Ht) in Hr.
  pose proof (es_name n p r H) as E. cbn [app] in Er. rewrite <- app_assoc in Er. cbn [app] in Er.
  destruct (read_escape o pol s _ _ r Hr Hp Er E) as (s' & E1 & E2). eexists. exists s'. split; [|split; [exact E1|exact E2]]. destruct (in_dec _ _ _); discriminate.
Qed.
Lemma name_of_known : forall n p, name_of n p -> longname_to_codepoint n = Some p.
Proof.
  intros n p (m & H & ->). pose proof (proj1 (forallb_forall _ _) names_points _ H) as G. cbn [fst snd] in G.
  destruct (longname_to_codepoint (bytes_of_string m)) as [q|]; [|discriminate]. apply Z.eqb_eq in G. congruence.
Qed.
Lemma doubled_reads : forall t r, reads_as_backslash (92 :: 92 :: t ++ r) (t ++ r).
Proof.
  intros t r o pol input s Ht Hr Hp Er. apply (reachable_Inv o input s Ht) in Hr. eapply read_escape; eauto. apply es_single. vm_compute. auto 10.
Qed.

Lemma unclosed_helps : forall name start fin r, about_escape start fin (91 :: name) r (unclosed_issue name (mkspan start fin)).
Proof.
  intros name start fin r. split; [reflexivity|]. split; [reflexivity|]. split; [reflexivity|]. unfold unclosed_issue. cbn [wi_actions syntax_issue].
  destruct (longname_to_codepoint name) as [p|] eqn:E; [|constructor]. constructor; [|constructor]. left. split; [reflexivity|]. exists p. exact (known_spells _ _ E).
Qed.
Lemma doubled_helps : forall head body start fin r, about_escape start fin (head ++ body) r (doubled_issue head body (mkspan start fin)).
Proof.
  intros head body start fin r. split; [reflexivity|]. split; [reflexivity|]. split; [reflexivity|]. constructor; [|constructor].
  split; [reflexivity|]. right. left. exact (doubled_reads (head ++ body) r).
Qed.
Lemma unknown_helps : forall name start fin r, about_escape start fin (91 :: name ++ [93]) r (unknown_issue false name (mkspan start fin)).
Proof.
  intros name start fin r. split; [reflexivity|]. split; [reflexivity|]. split; [reflexivity|]. unfold unknown_issue. cbn [wi_actions syntax_issue].
  pose proof (suggestion_spec (chars name)) as S. destruct (longNameSuggestion (chars name)) as [|c n]; [constructor|]. constructor; [|constructor].
  destruct S as ((p & Hn) & _). split; [reflexivity|]. left. exists (c :: n), p. split; [reflexivity|]. split; [exact Hn|]. split; [|reflexivity].
  exact (known_spells _ _ (name_of_known _ _ Hn)).
Qed.
Lemma unopened_helps : forall name p start fin r, longname_to_codepoint name = Some p -> about_escape start fin (name ++ [93]) r (unopened_issue name (mkspan start fin)).
Proof.
  intros name p start fin r E. split; [reflexivity|]. split; [reflexivity|]. split; [reflexivity|]. constructor; [|constructor]. right. split; [reflexivity|].
  exists p. exact (known_spells _ _ E).
Qed.

Lemma letters_graphical : forallb (fun c => match graphicalString (wl c) with Ok [g] => g =? c | _ => false end) (map Z.of_nat (seq 48 10 ++ seq 65 26 ++ seq 97 26)) = true.
Proof. vm_compute. reflexivity. Qed.
Lemma graphical_letter : forall c, 48 <= c <= 57 \/ 65 <= c <= 90 \/ 97 <= c <= 122 -> graphicalString (wl c) = Ok [c].
Proof.
  intros c H. pose proof (proj1 (forallb_forall _ _) letters_graphical c) as G.
  assert (I : In c (map Z.of_nat (seq 48 10 ++ seq 65 26 ++ seq 97 26))).
  { apply in_map_iff. exists (Z.to_nat c). split; [lia|]. rewrite !in_app_iff, !in_seq. lia. }
  apply G in I. destruct (graphicalString (wl c)) as [[|g [|? ?]]| |]; try discriminate. apply Z.eqb_eq in I. congruence.
Qed.
Definition low_ok (c : Z) : bool := match graphicalString (wl c) with Ok [g] => g =? c | Ok (_ :: _ :: _) => true | _ => false end.
Lemma low_graphical : forallb low_ok (map Z.of_nat (seq 0 128)) = true.
Proof. vm_compute. reflexivity. Qed.
Lemma one_graphical : forall c g, (scalar c \/ c = CRLF) -> graphicalString (wl c) = Ok g -> zlen (encode g) <= 1 -> g = [c] /\ 0 <= c < 128.
Proof.
  intros c g Hs E L. destruct Hs as [Hs|Hs]; [|exfalso; subst c; vm_compute in E; injection E as <-; vm_compute in L; exact (L eq_refl)].
  assert (H0 : 0 <= c) by (unfold scalar in Hs; lia). destruct (Z_lt_le_dec c 128) as [Hlo|Hhi].
  - assert (I : In c (map Z.of_nat (seq 0 128))) by (apply in_map_iff; exists (Z.to_nat c); split; [lia|]; apply in_seq; lia).
    apply (proj1 (forallb_forall _ _) low_graphical) in I. unfold low_ok in I. rewrite E in I. destruct g as [|a [|b g]]; [discriminate| |].
    + apply Z.eqb_eq in I. subst a. auto.
    + exfalso. assert (P : forall x, (1 <= length (utf8 x))%nat) by (intros x; unfold utf8; repeat destruct (_ <? _); cbn [length]; lia).
      unfold zlen, encode in L. cbn [map concat] in L. rewrite !app_length in L. pose proof (P a). pose proof (P b). lia.
  - exfalso. destruct (graphical_escape c Hs) as (u & Eu & Hv & e & _ & Hu); [right; lia|cbn [In]; lia|]. rewrite E in Eu. injection Eu as ->.
    destruct u as [|b u].
    + specialize (Hu []). inversion Hu as [| | | | | | |ds r' Hd Eb]; subst. apply app_eq_nil in Eb as [-> ->]. destruct Hd as [Hd _]. discriminate Hd.
    + unfold zlen in L. assert (P : forall x, (1 <= length (utf8 x))%nat) by (intros x; unfold utf8; repeat destruct (_ <? _); cbn [length]; lia).
      unfold encode in L. cbn [map concat] in L. rewrite !app_length in L. pose proof (P 92). pose proof (P b). lia.
Qed.

Lemma template_helps : forall a b c start fin r, Forall (fun x => 0 <= x < 0x80) (lit a ++ c :: lit b) ->
  template [c] (lit a ++ c :: lit b) \/ reads_as_backslash ((lit a ++ c :: lit b) ++ r) ([c] ++ r) ->
  helps start fin [c] r (replace_text (lit "Replace with " ++ ticked (lit a ++ [c] ++ lit b)) (mkspan start fin) (lit a ++ [c] ++ lit b)).
Proof.
  intros a b c start fin r F Ht. unfold helps. cbn [replace_text ac_kind ac_src]. change ([c] ++ lit b) with (c :: lit b). rewrite encode_ascii by exact F. split; [reflexivity|]. tauto.
Qed.
Lemma ascii_with : forall a b c, forallb visible (lit a) = true -> forallb visible (lit b) = true -> 0 <= c < 128 -> Forall (fun x => 0 <= x < 0x80) (lit a ++ c :: lit b).
Proof. intros a b c Ha Hb Hc. apply Forall_app. split; [apply visible_ascii_b, Ha|]. constructor; [lia|apply visible_ascii_b, Hb]. Qed.

Lemma other_helps : forall c src w, scalar c \/ c = CRLF \/ c = EndOfFile \/ isMBUnsafeUTF8Sequence c = true -> other_issue c src = Ok (Some w) ->
  forall r, about_escape (sp_start src) (sp_end src) (encode [c]) r w.
Proof.
  intros c [start fin] w Hc H r. unfold other_issue in H. cbn [sp_start sp_end].
  assert (EN : forall b, 0 <= b < 128 -> encode [b] = [b]) by (intros b Hb; apply encode_ascii; repeat constructor; lia).
  assert (T : 0 <= c < 128 -> forall a b, forallb visible (lit a) = true -> forallb visible (lit b) = true -> template [c] (lit a ++ c :: lit b) \/ reads_as_backslash ((lit a ++ c :: lit b) ++ r) ([c] ++ r) ->
    helps start fin [c] r (replace_text (lit "Replace with " ++ ticked (lit a ++ [c] ++ lit b)) (mkspan start fin) (lit a ++ [c] ++ lit b))).
  { intros Hr a b Ha Hb Ht. apply template_helps; [apply ascii_with; auto|exact Ht]. }
  destruct (src_isUpper c) eqn:Eu.
  { apply between_iff in Eu. rewrite graphical_letter in H by lia. cbn [rbind] in H. injection H as <-. split; [reflexivity|]. split; [reflexivity|]. split; [reflexivity|]. cbn [wi_actions syntax_issue].
    rewrite EN by lia. assert (Hr : 0 <= c < 128) by lia. apply Forall_cons; [apply (T Hr "\[" "XXX]"); auto; left; exists c; split; [reflexivity|left; split; [lia|reflexivity]]|].
    destruct (src_isHex c) eqn:Eh; [apply Forall_cons; [apply (T Hr "\:" "XXX"); auto; left; exists c; split; [reflexivity|right; split; [exact Eh|left; reflexivity]]|]|]; apply Forall_nil. }
  destruct (src_isHex c) eqn:Eh.
  { pose proof Eh as Eh0. unfold src_isHex in Eh. rewrite !orb_true_iff, !between_iff in Eh. rewrite graphical_letter in H by lia. cbn [rbind] in H. injection H as <-. split; [reflexivity|]. split; [reflexivity|]. split; [reflexivity|]. cbn [wi_actions syntax_issue].
    rewrite EN by lia. assert (Hr : 0 <= c < 128) by lia. apply Forall_cons; [apply (T Hr "\:" "xxx"); auto; left; exists c; split; [reflexivity|right; split; [exact Eh0|right; reflexivity]]|apply Forall_nil]. }
  destruct ((c =? EndOfFile) || isMBUnsafeUTF8Sequence c) eqn:Ee; [discriminate|]. apply orb_false_iff in Ee as [E1 E2]. apply Z.eqb_neq in E1.
  assert (Hc' : scalar c \/ c = CRLF) by (destruct Hc as [?|[?|[?|?]]]; auto; congruence).
  destruct (graphicalString (wl c)) as [g| |] eqn:Eg; cbn [rbind] in H; try discriminate. destruct (Z.ltb_spec 1 (zlen (encode g))) as [L|L].
  - injection H as <-. split; [reflexivity|]. split; [reflexivity|]. split; [reflexivity|]. constructor.
  - injection H as <-. split; [reflexivity|]. split; [reflexivity|]. split; [reflexivity|]. destruct (one_graphical c g Hc' Eg L) as [-> Hr]. rewrite EN by exact Hr.
    cbn [wi_actions syntax_issue]. apply Forall_cons; [|apply Forall_nil]. apply (T Hr "\\" ""); auto. right. exact (doubled_reads [c] r).
Qed.

(** ** Known names are their own nearest name *)
Lemma chars_visible : forall n, forallb visible n = true -> chars n = n.
Proof.
  unfold chars. induction n as [|x n IH]; intros H; [reflexivity|]. cbn [forallb] in H. apply andb_true_iff in H as [H1 H2]. apply between_iff in H1. cbn [length chars_of].
  destruct (decode_ascii_d x n) as [E1 E2]; [lia|lia|]. rewrite E1, E2, IH by exact H2. reflexivity.
Qed.
Lemma table_names : forallb (fun e => existsb (fun n => if list_eq_dec Z.eq_dec n (fst e) then true else false) NAMES) LN_TABLE = true.
Proof. vm_compute. reflexivity. Qed.
Lemma known_name : forall n p, longname_to_codepoint n = Some p -> forallb visible n = true /\ a_name n.
Proof.
  intros n p H. apply longname_to_codepoint_In in H. split; [exact (proj1 (forallb_forall _ _) table_visible _ H)|].
  pose proof (proj1 (forallb_forall _ _) table_names _ H) as G. apply existsb_exists in G as (m & Hm & E). cbn [fst] in E. destruct (list_eq_dec Z.eq_dec m n) as [->|]; [|discriminate]. apply NAMES_names, Hm.
Qed.
Lemma edits_0 : forall n a b, edits n a b -> n = O -> a = b.
Proof. induction 1; intros E; try discriminate E; [reflexivity|f_equal; auto]. Qed.
Lemma edits_refl : forall a, edits 0 a a.
Proof. induction a; constructor; assumption. Qed.
Lemma known_suggested : forall n p, longname_to_codepoint n = Some p -> longNameSuggestion (chars n) = n.
Proof.
  intros n p H. destruct (known_name n p H) as [Hv Hn]. rewrite chars_visible by exact Hv. pose proof (suggestion_spec n) as S. destruct (longNameSuggestion n) as [|c m].
  - exfalso. apply (S n Hn). exists O. split; [lia|apply edits_refl].
  - destruct S as (_ & _ & _ & S). destruct (S n O Hn (edits_refl n)) as (j & Hj & E). symmetry. eapply edits_0; [exact E|lia].
Qed.

(** ** The actions of the issue about an unknown name *)
Lemma unknown_actions : forall scan name src,
  let w := unknown_issue scan name src in
  wi_src w = SSpan src /\ wi_tag w = (if scan then UnrecognizedLongName else UnhandledCharacter) /\ wi_sev w = (if scan then Error else Fatal) /\
  ((wi_actions w = [] /\ forall n, a_name n -> ~ near (chars name) n) \/
   exists n p label, wi_actions w = [mk_action label (ReplaceText ((if scan then [92] else []) ++ 92 :: 91 :: n ++ [93])) src] /\ name_of n p /\ near (chars name) n /\ nearest (chars name) n /\ spells (92 :: 91 :: n ++ [93]) p).
Proof.
  intros scan name src w. unfold w, unknown_issue. split; [destruct scan; reflexivity|]. split; [destruct scan; reflexivity|]. split; [destruct scan; reflexivity|].
  pose proof (suggestion_spec (chars name)) as S. destruct (longNameSuggestion (chars name)) as [|c n].
  - left. split; [destruct scan; reflexivity|exact S].
  - right. destruct S as ((p & Hn) & S1 & S2). exists (c :: n), p. destruct scan; eexists; (split; [reflexivity|]); (split; [exact Hn|]); (split; [exact S1|]); (split; [exact S2|]); exact (known_spells _ _ (name_of_known _ _ Hn)).
Qed.

(** ** When nothing is offered *)
Lemma names_table : forallb (fun n => existsb (fun e => if list_eq_dec Z.eq_dec (fst e) n then true else false) LN_TABLE) NAMES = true.
Proof. vm_compute. reflexivity. Qed.
Lemma unknown_no_name : forall n, longname_to_codepoint n = None -> ~ a_name n.
Proof.
  intros n H A. apply NAMES_names in A. pose proof (proj1 (forallb_forall _ _) names_table _ A) as G. apply existsb_exists in G as ([m p] & Hm & E). cbn [fst] in E.
  destruct (list_eq_dec Z.eq_dec m n) as [->|]; [|discriminate]. apply longname_to_codepoint_In in Hm. congruence.
Qed.
Definition short (c : Z) : bool := match graphicalString (wl c) with Ok g => negb (1 <? zlen (encode g)) | _ => false end.
Lemma printable_short : forallb short (map Z.of_nat (seq 32 95)) = true.
Proof. vm_compute. reflexivity. Qed.
Lemma printable_is_short : forall c, 32 <= c <= 126 -> short c = true.
Proof. intros c H. apply (proj1 (forallb_forall _ _) printable_short). apply in_map_iff. exists (Z.to_nat c). split; [lia|]. apply in_seq. lia. Qed.
Lemma offered : forall src t w, bad_escape src t w -> wi_actions w = [] -> nothing_to_offer chars t.
Proof.
  intros src t w H A. destruct H as [name Hu|body Hu|name Hn|head body Hh|name p Hn|c w Ho].
  - left. exists name. split; [reflexivity|]. split; [apply between_iff in Hu; lia|]. unfold unclosed_issue in A. cbn [wi_actions syntax_issue] in A.
    destruct (longname_to_codepoint name) eqn:E; [discriminate|exact (unknown_no_name _ E)].
  - discriminate A.
  - right; left. exists name. split; [reflexivity|]. destruct (unknown_actions false name src) as (_ & _ & _ & [[_ N]|(n & p & l & E & _)]); [exact N|]. rewrite E in A. discriminate A.
  - discriminate A.
  - discriminate A.
  - right; right. exists c. split; [reflexivity|]. intros Hc. pose proof (printable_is_short c Hc) as S. unfold short in S. unfold other_issue in Ho.
    destruct (graphicalString (wl c)) as [g| |]; try discriminate S. apply negb_true_iff in S. cbn [rbind] in Ho. rewrite S in Ho.
    destruct (src_isUpper c); [|destruct (src_isHex c); [|destruct ((c =? EndOfFile) || isMBUnsafeUTF8Sequence c); [discriminate Ho|]]]; injection Ho as <-; discriminate A.
Qed.
