(** Questions a kernel asks and their answers. *)
From Coq Require Import String.
From Coq Require Import ZArith List Bool Lia.
From Verif Require Import Base Source WLChar LongNames ByteDecoder CharDecoder Decode SpecText Iter
  TextProofs Logic SpecReader ReaderProofs GenTokenKind TokenKind Format Tokenizer TokLogic TokenizerProofs SpecTokenizer TokenLoop TokSim TokAgree TokResults
  Utils MiscProofs Cst SpecCst Parser SpecParse ParserTheorems ErrorReparse SpecReparse ReparseProofs SpecRepair RepairProofs AbstractShape ParserFlag
  BoxPosition Link SpecLink LinkProofs LinkTotal PropsLink Requests SpecRequests.
Import ListNotations.
Local Open Scope string_scope.
Local Open Scope list_scope.
Local Open Scope Z_scope.

(** ** Reading a question *)
Lemma get_int_Ok : forall k i n, get_int k i = Ok n <-> i = int n /\ - 2 ^ (k - 1) <= n < 2 ^ (k - 1).
Proof.
  intros k i n. unfold int. split.
  - intros H. destruct i as [[ | |m| | ]|]; try discriminate. cbn [get_int] in H. destruct ((- 2 ^ (k - 1) <=? m) && (m <? 2 ^ (k - 1))) eqn:E; [|discriminate]. injection H as <-.
    split; [reflexivity|]. lia.
  - intros [-> H]. cbn [get_int]. replace ((- 2 ^ (k - 1) <=? n) && (n <? 2 ^ (k - 1))) with true; [reflexivity|]. symmetry. apply andb_true_iff. lia.
Qed.
Lemma read_session_Ok : forall i, (exists n, read_session i = Ok n) <-> session_arg i.
Proof.
  intros i. unfold read_session, session_arg, get_i64. split.
  - intros [n H]. destruct (get_int 64 i) as [m| |] eqn:E; try discriminate. cbn [rbind] in H. apply get_int_Ok in E as [-> E]. destruct (Z.ltb_spec m 0); [discriminate|].
    exists m. split; [reflexivity|]. change (2 ^ (64 - 1)) with (2 ^ 63) in E. lia.
  - intros (n & -> & H). exists n. rewrite (proj2 (get_int_Ok 64 (int n) n)); [|split; [reflexivity|change (2 ^ (64 - 1)) with (2 ^ 63); lia]]. cbn [rbind].
    destruct (Z.ltb_spec n 0); [lia|reflexivity].
Qed.
Lemma expected_Ok : forall A (o : option A) a, expected o = Ok a <-> o = Some a.
Proof. intros A [b|] a; cbn; split; intros H; inversion H; reflexivity. Qed.
Lemma expected_f_Ok : forall A (r : fres A) a, expected_f r = Ok a <-> r = some a.
Proof. intros A [[b|]| |] a; cbn; unfold some; split; intros H; inversion H; reflexivity. Qed.
Lemma small_code : forall n, 0 <= n <= 2 -> get_i32 (int n) = Ok n.
Proof. intros n H. apply get_int_Ok. split; [reflexivity|]. change (2 ^ (32 - 1)) with 2147483648. lia. Qed.

Definition enc_normal (e : encoding_mode) : bool := match e with EncNormal => true | EncBox => false end.
Lemma read_options_Ok : forall alnum cv tab first r qk o b,
  (exists q, read_options alnum cv tab first r qk = Ok (o, b, q)) <-> exists enc, r = Ok enc /\ option_args alnum (enc_normal enc) cv tab first qk o b.
Proof.
  intros alnum cv tab first r qk o b. unfold read_options. split.
  - intros [q H].
    destruct (get_i32 cv) as [n1| |] eqn:E1; try discriminate. cbn [rbind] in H. apply get_int_Ok in E1 as [-> _].
    destruct (expected (convention_of_i32 n1)) as [v| |] eqn:E2; try discriminate. cbn [rbind] in H. apply expected_Ok, convention_codes in E2 as ->.
    destruct (get_i64 tab) as [n2| |] eqn:E3; try discriminate. cbn [rbind] in H. apply get_int_Ok in E3 as [-> _].
    destruct ((0 <=? n2) && (n2 <? 2 ^ 32)) eqn:E4; try discriminate. cbn [rbind] in H.
    destruct (get_i32 first) as [n3| |] eqn:E5; try discriminate. cbn [rbind] in H. apply get_int_Ok in E5 as [-> _].
    destruct (expected (first_line_of_i32 n3)) as [w| |] eqn:E6; try discriminate. cbn [rbind] in H. apply expected_Ok, first_line_codes in E6 as ->.
    destruct r as [enc| |]; try discriminate. cbn [rbind] in H. destruct qk as [e|]; try discriminate. cbn [get_expr rbind] in H.
    destruct (expected_f (quirks_of e)) as [q'| |] eqn:E7; try discriminate. cbn [rbind] in H. apply expected_f_Ok in E7. injection H as <- <- <-.
    exists enc. split; [reflexivity|]. apply (oa alnum (enc_normal enc) v n2 w e q'); [lia|exact E7].
  - intros (enc & -> & H). destruct H as [v n2 w e q Ht Eq]. exists q.
    rewrite (small_code (match v with ConvLineColumn => 0 | ConvCharacterIndex => 1 end)) by (destruct v; lia). cbn [rbind].
    replace (expected (convention_of_i32 match v with ConvLineColumn => 0 | ConvCharacterIndex => 1 end)) with (Ok v) by (destruct v; reflexivity). cbn [rbind].
    unfold get_i64. rewrite (proj2 (get_int_Ok 64 (int n2) n2)); [|split; [reflexivity|change (2 ^ (64 - 1)) with (2 ^ 63); lia]]. cbn [rbind].
    replace ((0 <=? n2) && (n2 <? 2 ^ 32)) with true by (symmetry; apply andb_true_iff; lia). cbn [rbind].
    rewrite (small_code (match w with NotScript => 0 | CheckFirst => 1 | Script => 2 end)) by (destruct w; lia). cbn [rbind].
    replace (expected (first_line_of_i32 match w with NotScript => 0 | CheckFirst => 1 | Script => 2 end)) with (Ok w) by (destruct w; reflexivity). cbn [rbind get_expr].
    rewrite Eq. reflexivity.
Qed.

Ltac seqs := repeat match goal with |- total (wseq _ _) => apply total_seq | |- total (wdo _) => apply total_do end.

Section Calls.
Variable c : cfg.
Variable tx : texts.
Variable fl : filling.
Variable alnum : Z -> bool.
Variable dbg : bool.

(** the two functions with six arguments *)
Definition six (f : opts -> first_line -> list Z -> W) (args : list item) : W :=
  match args with
  | [s; bytes; cv; tab; first; qk] =>
      wlift (read_session s) (fun _ => wlift (read_bytes bytes) (fun input => wlift (read_options alnum cv tab first (Ok EncNormal) qk) (fun '(o, b, _) => f o b input)))
  | _ => wpanic
  end.
Lemma six_valid : forall f args input o b q, bytes_request alnum args input o b -> six f args q = f o b input q.
Proof.
  intros f args input o b q H. destruct H as [s input cv tab first qk o b Hs Ho]. unfold six, wlift. apply read_session_Ok in Hs as [n ->]. cbn [rbind read_bytes].
  destruct (proj2 (read_options_Ok alnum cv tab first (Ok EncNormal) qk o b)) as [q0 ->]; [exists EncNormal; split; [reflexivity|exact Ho]|]. reflexivity.
Qed.
Lemma six_Ok : forall f args q r, six f args q = Ok r -> exists input o b, bytes_request alnum args input o b.
Proof.
  intros f args q r H. destruct args as [|s [|bytes [|cv [|tab [|first [|qk [|]]]]]]]; try discriminate. unfold six, wlift in H.
  destruct (read_session s) as [n| |] eqn:Es; try discriminate. cbn [rbind] in H. destruct bytes as [|input]; try discriminate. cbn [read_bytes rbind] in H.
  destruct (read_options alnum cv tab first (Ok EncNormal) qk) as [[[o b] q0]| |] eqn:Eo; try discriminate.
  destruct (proj1 (read_options_Ok alnum cv tab first (Ok EncNormal) qk o b) (ex_intro _ _ Eo)) as (enc & Ee & Ho). injection Ee as <-.
  exists input, o, b. constructor; [apply read_session_Ok; eauto|exact Ho].
Qed.
Lemma bytes_request_one : forall args input o b input' o' b', bytes_request alnum args input o b -> bytes_request alnum args input' o' b' -> input' = input /\ o' = o /\ b' = b.
Proof.
  intros args input o b input' o' b' H H'. destruct H as [s input cv tab first qk o b _ Ho]. inversion H' as [s' input2 cv' tab' first' qk' o2 b2 _ Ho' E E2 E3 E4]. subst.
  destruct (proj2 (read_options_Ok alnum cv tab first (Ok EncNormal) qk o b)) as [q1 Q1]; [exists EncNormal; auto|].
  destruct (proj2 (read_options_Ok alnum cv tab first (Ok EncNormal) qk o' b')) as [q2 Q2]; [exists EncNormal; auto|]. rewrite Q1 in Q2. injection Q2 as <- <- _. auto.
Qed.

Definition parse_put (o : opts) (b : first_line) (input : list Z) : W :=
  wlift (parse_cst_seq o dbg b input) (fun '(l, s') => put_result c (of_log tx (map (of_cst fl) l) (lg (tz s')))).
Definition tokenize_put (o : opts) (b : first_line) (input : list Z) : W :=
  wlift (tokenize_bytes o b input) (fun r => match r with TOk ts => put_nodes c (map (fun t => of_cst fl (Tok t)) ts) | TErr u => wdo (PFun "System`List" 1 :: put_unsafe u) end).
Lemma parse_six : forall args, concrete_parse_bytes c tx fl alnum dbg args = six parse_put args.
Proof. reflexivity. Qed.
Lemma tokenize_six : forall args, tokenize_bytes_call c fl alnum args = six tokenize_put args.
Proof. reflexivity. Qed.

Definition leaf_put (o : opts) (b : first_line) (m : stringify_mode) (input : list Z) : W :=
  wlift (parse_to_token o b m input) (fun '(t, s') => put_result c (of_log tx [of_cst fl (Tok t)] (lg s'))).
Lemma leaf_valid : forall args input m o b q, leaf_request alnum args input m o b -> concrete_parse_leaf c tx fl alnum args q = leaf_put o b m input q.
Proof.
  intros args input m o b q H. destruct H as [s input m enc cv tab first qk o b Hs Ho]. unfold concrete_parse_leaf, wlift. apply read_session_Ok in Hs as [n ->]. cbn [rbind read_bytes].
  rewrite (small_code (match m with StrNormal => 0 | StrTag => 1 | StrFile => 2 end)) by (destruct m; lia). cbn [rbind].
  destruct (proj2 (read_options_Ok alnum cv tab first (read_encoding (int (match enc with EncNormal => 0 | EncBox => 1 end))) qk o b)) as [q0 ->].
  { exists enc. split; [|exact Ho]. unfold read_encoding. rewrite small_code by (destruct enc; lia). destruct enc; reflexivity. }
  cbn [rbind]. replace (expected (stringify_of_i32 match m with StrNormal => 0 | StrTag => 1 | StrFile => 2 end)) with (Ok m) by (destruct m; reflexivity). reflexivity.
Qed.
Lemma leaf_Ok : forall args q r, concrete_parse_leaf c tx fl alnum args q = Ok r -> exists input m o b, leaf_request alnum args input m o b.
Proof.
  intros args q r H. destruct args as [|s [|bytes [|mode [|cv [|tab [|first [|enc [|qk [|]]]]]]]]]; try discriminate. unfold concrete_parse_leaf, wlift in H.
  destruct (read_session s) as [n| |] eqn:Es; try discriminate. cbn [rbind] in H. destruct bytes as [|input]; try discriminate. cbn [read_bytes rbind] in H.
  destruct (get_i32 mode) as [n1| |] eqn:E1; try discriminate. cbn [rbind] in H. apply get_int_Ok in E1 as [-> _].
  destruct (read_options alnum cv tab first (read_encoding enc) qk) as [[[o b] q0]| |] eqn:Eo; try discriminate. cbn [rbind] in H.
  destruct (expected (stringify_of_i32 n1)) as [m| |] eqn:E2; try discriminate. apply expected_Ok, stringify_codes in E2 as ->.
  destruct (proj1 (read_options_Ok alnum cv tab first (read_encoding enc) qk o b) (ex_intro _ _ Eo)) as (en & Ee & Ho).
  unfold read_encoding in Ee. destruct (get_i32 enc) as [n2| |] eqn:E3; try discriminate. cbn [rbind] in Ee. apply get_int_Ok in E3 as [-> _]. apply expected_Ok, encoding_codes in Ee as ->.
  exists input, m, o, b. refine (lr alnum s input m en cv tab first qk o b _ Ho). apply read_session_Ok; eauto.
Qed.

(** ** The answer *)
Lemma of_log_form : forall ab l g e, result_form (compat c) ab (of_log tx l g) e ->
  report_form (compat c) tx g (fun es => match l_flag g with None => seq_form (compat c) ab l es | Some u => es = missing_answer u end) e.
Proof.
  intros ab l g e H. inversion H as [es issues s x n t H1 H2 H3 H4]. subst e. cbn [of_log r_unsafe r_syntax r_fatal r_nonfatal r_tracked] in *. injection H3 as <- <- <- <-.
  exists es, issues. split; [exact H1|]. split; [|reflexivity].
  assert (X : forall l es, Forall2 (issue_form (compat c)) (map (of_issue tx) l) es -> Forall2 (issue_shown (compat c) tx) l es).
  { clear. induction l as [|i l IH]; intros es H; inversion H; subst; constructor; auto. exists (of_issue tx i). split; [|assumption]. repeat split. }
  apply X. unfold shown_issues. destruct (l_fatal g) as [|i r]; exact H2.
Qed.
Lemma report_weaken : forall k g (P Q : expr -> Prop) e, (forall es, P es -> Q es) -> report_form k tx g P e -> report_form k tx g Q e.
Proof. intros k g P Q e H (es & issues & H1 & H2 & H3). exists es, issues. auto. Qed.

(** ** Putting a result *)
Hypothesis Ha : asserts c = false.
Hypothesis Htx : sound_texts tx.

Lemma total_any_span : forall s, loc_leb (sp_start s) (sp_end s) = Some true -> total (put_source c (SSpan s)).
Proof.
  intros [[a b|a] [d e|d]] H; cbn [sp_start sp_end] in *; try discriminate H; unfold put_source; cbn [include_source negb]; apply total_seq; try apply total_do; cbn [put_source_rhs put_span_rhs].
  destruct (d =? 0); [rewrite Ha|]; apply total_do.
Qed.
Lemma total_put_list : forall A (f : A -> W) l, Forall (fun a => total (f a)) l -> total (put_list f l).
Proof. intros A f l F. unfold put_list. apply total_list. rewrite Forall_forall in *. intros w Hw. apply in_map_iff in Hw as (a & <- & Hw). auto. Qed.
Lemma total_when : forall A (l : list A) w, total w -> total (put_when l w).
Proof. intros A [|] w H; [apply total_do|exact H]. Qed.
Lemma total_issue : forall i, loc_leb (sp_start (i_src i)) (sp_end (i_src i)) = Some true -> total (put_issue c (of_issue tx i)).
Proof.
  intros i H. unfold put_issue, of_issue. cbn [wi_make wi_tag wi_msg wi_sev wi_src wi_val wi_actions wi_descs wi_more].
  seqs.
  - apply total_any_span, H.
  - apply total_when, total_seq; [apply total_do|]. apply total_put_list. eapply Forall_impl; [|apply Htx]. intros a Hs. unfold put_action.
    seqs. apply total_any_span, Hs.
  - apply total_when, total_seq; [apply total_do|]. apply total_put_list. rewrite Forall_forall. intros d _. apply total_do.
  - apply total_do.
Qed.

Definition ordered (i : issue) : Prop := loc_leb (sp_start (i_src i)) (sp_end (i_src i)) = Some true.
Lemma add_ordered : forall i g, ordered i -> Forall ordered (l_fatal g) -> Forall ordered (l_nonfatal g) ->
  Forall ordered (l_fatal (addIssue_log i g)) /\ Forall ordered (l_nonfatal (addIssue_log i g)).
Proof.
  intros i g H F N. unfold addIssue_log. destruct (i_sev i); repeat match goal with |- context [if ?x then _ else _] => destruct x end; cbn [l_fatal l_nonfatal];
    split; auto; apply Forall_app; split; auto.
Qed.
Lemma log_ordered : forall o g g', logext o g g' -> Forall ordered (l_fatal g) -> Forall ordered (l_nonfatal g) -> Forall ordered (l_fatal g') /\ Forall ordered (l_nonfatal g').
Proof.
  intros o g g' H F N. induction H as [g|g1 g2 g3 H IH S]; [auto|]. destruct (IH F N) as [F2 N2]. destruct S as [i g2 _ Hi|u g2|a b x d g2 _].
  - apply add_ordered; auto.
  - unfold set_flag_log. cbn [l_fatal l_nonfatal]. auto.
  - cbn [l_fatal l_nonfatal]. auto.
Qed.
Lemma total_result : forall o input s l, R o (reader_new o input) s -> (l_flag (lg s) = None -> total (put_nodes c l)) -> total (put_result c (of_log tx l (lg s))).
Proof.
  intros o input s l (_ & G & _) Hn. destruct (log_ordered _ _ _ G) as [F N]; [constructor|constructor|].
  unfold put_result, of_log. cbn [r_tracked r_unsafe r_syntax r_fatal r_nonfatal]. seqs.
  - destruct (l_flag (lg s)); [apply total_do|auto].
  - apply total_put_list. assert (X : forall l, Forall ordered l -> Forall (fun i => total (put_issue c i)) (map (of_issue tx) l)).
    { intros l0 F0. rewrite Forall_forall in *. intros w Hw. apply in_map_iff in Hw as (i & <- & Hw). apply total_issue. apply F0, Hw. }
    pose proof (X _ F) as XF. pose proof (X _ N) as XN. destruct (map (of_issue tx) (l_fatal (lg s))); auto.
  - apply total_do.
  - apply total_do.
  - apply total_do.
  - apply total_do.
Qed.

(** ** Tokens can be put *)
Lemma kinds_named : forall k, lexable k = true \/ k = TK_EndOfFile \/ missing_kind k -> exists s, tk_to_symbol k = Some s.
Proof.
  intros k H. assert (X : forall k, lexable k = true -> match tk_to_symbol k with Some _ => true | None => false end = true) by (apply lexable_forall; vm_compute; reflexivity).
  destruct H as [H|[H|[H|H]]]; [specialize (X k H); destruct (tk_to_symbol k); [eauto|discriminate]|subst; vm_compute; eauto..].
Qed.
Lemma asked_total : forall o q input s t s', 0 < o_tab_width o -> well_formed_no_bom input -> R o (reader_new o input) s -> Inv o s -> asked o q s t s' -> total (put_node c (of_cst fl (Tok t))).
Proof.
  intros o q input s t s' Ht W HR HI (A1 & A2 & A3 & A4 & A5 & A6 & A7). cbn [of_cst put_node]. unfold put_token.
  pose proof (R_leb _ _ _ HI A3) as Le. cbn [cur] in Le.
  assert (K : exists n, tk_to_symbol (t_kind t) = Some n).
  { apply kinds_named. destruct A7 as [(L & _)|[(g & pol & _ & E & _)|(M & _)]]; auto. }
  destruct K as [n K].
  assert (U : utf8_valid (t_text t) = true).
  { destruct HR as ((cs & M & _) & _). destruct (moves_clean _ _ _ _ _ _ M W) as (W2 & _). destruct A3 as ((ds & M2 & _) & _). cbn [cur] in M2.
    destruct (moves_clean _ _ _ _ _ _ M2 W2) as (_ & w & Ew & Ww). rewrite A5 in Ew. apply app_inv_tail in Ew. rewrite Ew. apply utf8_valid_iff, clean_well_formed, Ww. }
  seqs.
  - unfold put_kind. rewrite K. apply total_do.
  - unfold put_text. rewrite U. apply total_do.
  - rewrite A6. apply total_any_span. exact Le.
Qed.
End Calls.

(** ** One token *)
Lemma peek_Ok : forall A (m : M A) s a s', m s = Ok (a, s') -> peek m s = Ok (a, mkst (cur s) (lg s')).
Proof. intros A m s a s' H. unfold peek, bind, mark, seek, ret. rewrite H. reflexivity. Qed.
Lemma leaf_facts : forall o b m input t s', 0 < o_tab_width o -> parse_to_token o b m input = Ok (t, s') ->
  exists s s1, handle_first_line o b (reader_new o input) = Ok (tt, s) /\ ask o (asked_for m) s = Ok (t, s1) /\ Inv o s /\ R o (reader_new o input) s /\ R o (reader_new o input) s1 /\ asked o (asked_for m) s t s1 /\ lg s' = lg s1.
Proof.
  intros o b m input t s' Ht H. pose proof (reader_new_Inv o input Ht) as HI. unfold parse_to_token in H.
  destruct (handle_first_line o b (reader_new o input)) as [[[] s]| |] eqn:E; try discriminate.
  pose proof (handle_first_line_ok o b _ _ HI (R_refl _ _)) as K. unfold wpr in K. rewrite E in K. destruct K as (I1 & R1 & _).
  assert (A : ask o (asked_for m) s = Ok (t, mkst (cur s) (lg s'))) by (destruct m; exact (peek_Ok _ _ _ _ _ H)).
  pose proof (ask_ok o (asked_for m) s I1) as K. unfold wpr in K. rewrite A in K. destruct K as (I2 & R2 & K); [destruct m; reflexivity || exact I|].
  exists s, (mkst (cur s) (lg s')). split; [reflexivity|]. split; [exact A|]. split; [exact I1|]. split; [exact R1|]. split; [exact (R_trans _ _ _ _ R1 R2)|]. auto.
Qed.
Lemma leaf_text : forall o m input t s', 0 < o_tab_width o -> parse_to_token o NotScript m input = Ok (t, s') -> exists r, input = t_text t ++ r.
Proof.
  intros o m input t s' Ht H. destruct (leaf_facts o NotScript m input t s' Ht H) as (s & s1 & E & _ & _ & _ & _ & (_ & _ & _ & _ & A5 & _) & _). injection E as <-. eauto.
Qed.
Lemma leaf_total : forall o b m input, 0 < o_tab_width o -> ~ has_surrogate_escape input -> exists t s', parse_to_token o b m input = Ok (t, s').
Proof.
  intros o b m input Ht Hs. pose proof (reader_new_Inv o input Ht) as HI. unfold parse_to_token.
  pose proof (handle_first_line_ok o b _ _ HI (R_refl _ _)) as K. unfold wpr in K. destruct (handle_first_line o b (reader_new o input)) as [[[] s]| |]; [|contradiction|contradiction].
  destruct K as (I1 & R1 & _). pose proof (ask_ok o (asked_for m) s I1) as K. unfold wpr in K.
  assert (X : match ask o (asked_for m) s with Ok _ => True | _ => False end).
  { destruct (ask o (asked_for m) s) as [[]| |]; [exact I| |]; [|apply K; destruct m; reflexivity || exact I]. apply Hs. apply (R_surr o _ _ R1). apply K. destruct m; reflexivity || exact I. }
  destruct m; cbn [asked_for ask top_req] in X; unfold peek_token_with, peek_token_as_tag, peek_token_as_file, peek, bind, mark, seek, ret in X;
    match type of X with context [match ?f s with _ => _ end] => destruct (f s) as [[t s2]| |] eqn:E; try contradiction end; exists t, s2; first [exact E | reflexivity].
Qed.
Lemma leaf_flag : forall o b m input t s', 0 < o_tab_width o -> parse_to_token o b m input = Ok (t, s') -> well_formed_no_bom input -> l_flag (lg s') = None.
Proof.
  intros o b m input t s' Ht H W. destruct (leaf_facts o b m input t s' Ht H) as (s & s1 & _ & _ & _ & _ & R1 & _ & ->). exact (clean_reading o input s1 Ht R1 W).
Qed.

(** ** Tokens *)
Lemma tokenize_flag : forall o b input r, 0 < o_tab_width o -> tokenize_bytes o b input = Ok r -> (well_formed_no_bom input <-> exists ts, r = TOk ts).
Proof.
  intros o b input r Ht H. unfold tokenize_bytes, tokenize_depth in H. cbn [tokenize_bytes_n] in H. destruct (tokenize_raw o b input) as [[ts s]| |] eqn:E; try discriminate.
  pose proof (raw_flag o b input ts s Ht E) as F. destruct (l_flag (lg s)) as [u|].
  - injection H as <-. split; [intros W; apply F in W; discriminate|intros [ts' X]; discriminate].
  - split; [intros _|intros _; apply F; reflexivity]. destruct (utf8_valid input); [|injection H as <-; eauto].
    match type of H with rmap TOk ?x = _ => destruct x as [ts'| |]; try discriminate end. injection H as <-. eauto.
Qed.
Lemma tokens_can_be_put : forall c fl o b input ts s', asserts c = false -> 0 < o_tab_width o -> well_formed_no_bom input -> tokenize_raw o b input = Ok (ts, s') ->
  total (put_nodes c (map (fun t => of_cst fl (Tok t)) ts)).
Proof.
  intros c fl o b input ts s' Ha Ht W E. pose proof (reader_new_Inv o input Ht) as HI. unfold tokenize_raw, run_tokens, bind in E.
  pose proof (handle_first_line_ok o b _ _ HI (R_refl _ _)) as K. unfold wpr in K. destruct (handle_first_line o b (reader_new o input)) as [[[] s]| |]; try discriminate.
  destruct K as (I1 & R1 & _). unfold with_fuel in E. unfold put_nodes. apply total_put_seq. rewrite Forall_forall. intros w Hw. apply in_map_iff in Hw as (n & <- & Hw). apply in_map_iff in Hw as (t & <- & Hw).
  apply in_split in Hw as (pre & post & Ets). destruct (token_place o _ s ts s' I1 E pre t post Ets) as (st1 & s1 & k & J1 & J2 & _ & J4 & _).
  exact (asked_total c fl Ha o top_req input st1 t s1 Ht W (R_trans _ _ _ _ R1 J2) J1 J4).
Qed.
